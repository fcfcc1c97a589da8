(** Why no mock and no command line interface is generated. *)
From Verif Require Import Base OasModel MethodModel OpModel BuilderModel SanitizeModel GenerateModel MockModel CliModel
  RefSpec ResponseSpec ParamSpec DocSpec GenerateSpec SupportSpec FailSpec MockSpec CliSpec.
Local Open Scope N_scope.

Section Read.
Variables (U : unicode) (add_ref_types : list (str * ref_or schema) -> outcome type_space) (d : openapi).

(** Reasons for an error while a document is read: it is invalid, typify refuses its components, or there is something
    wrong with an operation. *)
Inductive read_error : error -> Prop :=
| re_invalid x : ~ valid_document U d -> read_error (UnexpectedFormat x)
| re_components e : valid_document U d -> add_ref_types (component_schemas d) = Err e -> read_error e
| re_operation ts o oid e : valid_document U d -> add_ref_types (component_schemas d) = Ok ts ->
    in_document d o -> op_id (do_op o) = Some oid ->
    made_error (pascal U) ts (oa_components d) (do_op o) (do_path o) (do_params o) oid e -> read_error e.

(** Reasons for a panic while a document is read, and what it says. *)
Inductive read_panic : str -> Prop :=
| rp_components m : valid_document U d -> add_ref_types (component_schemas d) = Panic m -> read_panic m
| rp_operation ts o oid m : valid_document U d -> add_ref_types (component_schemas d) = Ok ts ->
    in_document d o -> op_id (do_op o) = Some oid ->
    made_panic (pascal U) ts (oa_components d) (do_op o) (do_path o) (do_params o) oid m -> read_panic m.

(** What [unwrap] says of a [Result] that is an error. *)
Definition unwrapped : str := lit "called `Result::unwrap()` on an `Err` value".

(** What keeps an operation from being mocked: an argument or an answer of a type that typify has given out and does
    not know, and an answer with a status that has no name; with what the panic says. *)
Inductive mock_obstacle (types : type_id -> option type_info) (ts : type_space) (o : doc_op) (oid : str) : str -> Prop :=
| ob_argument x t r : passed (snake U) (pascal U) ts (oa_components d) (do_op o) (do_params o) oid x t r -> types t = None ->
    mock_obstacle types ts o oid unwrapped
| ob_answer table key t : response_table (pascal U) ts (oa_components d) (do_op o) (is_websocket (do_op o)) table ->
    In (key, RType t) table -> types t = None -> mock_obstacle types ts o oid unwrapped
| ob_code c r : doc_entry (do_op o) (SCode c) r -> c < 100 \/ 999 < c -> mock_obstacle types ts o oid unwrapped
| ob_nameless c r : doc_entry (do_op o) (SCode c) r -> 100 <= c <= 999 -> ~ mockable_status (SCode c) ->
    mock_obstacle types ts o oid (lit "called `Option::unwrap()` on a `None` value")
| ob_range n r : doc_entry (do_op o) (SRange n) r -> ~ mockable_status (SRange n) ->
    mock_obstacle types ts o oid (lit "internal error: entered unreachable code").

(** Reasons for a panic of [httpmock]: besides, the crate has no name that is a path. *)
Inductive mock_panic (types : type_id -> option type_info) (is_path : str -> bool) (crate : str) : str -> Prop :=
| mp_read m : read_panic m -> mock_panic types is_path crate m
| mp_operation ts o oid m : valid_document U d -> add_ref_types (component_schemas d) = Ok ts ->
    in_document d o -> op_id (do_op o) = Some oid -> mock_obstacle types ts o oid m -> mock_panic types is_path crate m
| mp_crate : is_path crate = false -> mock_panic types is_path crate (crate ++ lit " is not a valid identifier").

(** What keeps an operation, read as the method [m], from having a command, and what the panic says. *)
Inductive cli_obstacle (types : type_id -> option cli_type) (ts : type_space) (o : doc_op) (m : op_method) : str -> Prop :=
(* typify does not know the type of a parameter, of the body, of a property of the body, or of a page *)
| oc_parameter p t : In p (m_params m) -> has_argument m p -> p_typ p = PType t -> types t = None -> cli_obstacle types ts o m unwrapped
| oc_body t : body_of m (Some (PType t)) -> types t = None -> cli_obstacle types ts o m unwrapped
| oc_property t ct prs pr : body_of m (Some (PType t)) -> types t = Some ct -> ct_details ct = CdStruct prs -> In pr prs ->
    (forall ct', ~ value_type types (pr_type pr) ct') -> cli_obstacle types ts o m unwrapped
| oc_page table t : m_paginated m <> None ->
    response_table (pascal U) ts (oa_components d) (do_op o) (is_websocket (do_op o)) table ->
    success_entry (do_op o) (is_websocket (do_op o)) table (RType t) -> types t = None -> cli_obstacle types ts o m unwrapped
(* the arguments of two parameters have the same name *)
| oc_names pre p mid q post n : m_params m = pre ++ p :: mid ++ q :: post -> has_argument m p -> has_argument m q ->
    argument_name U (p_name p) n -> argument_name U (p_name q) n ->
    cli_obstacle types ts o m (lit "assertion failed: !args.has_arg(&arg_name)")
(* the answers are of several types *)
| oc_disagree table : response_table (pascal U) ts (oa_components d) (do_op o) (is_websocket (do_op o)) table ->
    ~ (agree (success_entry (do_op o) (is_websocket (do_op o)) table) /\ agree (error_entry table)) ->
    cli_obstacle types ts o m (lit "assertion failed: response_types.len() <= 1").

(** Reasons for a panic of [cli]. *)
Inductive cli_panic (types : type_id -> option cli_type) (is_path : str -> bool) (crate : str) : str -> Prop :=
| cp_read m : read_panic m -> cli_panic types is_path crate m
| cp_operation ts o m t : valid_document U d -> add_ref_types (component_schemas d) = Ok ts ->
    in_document d o -> processed U ts d o m -> cli_obstacle types ts o m t -> cli_panic types is_path crate t
| cp_crate : is_path crate = false -> cli_panic types is_path crate unwrapped.
End Read.

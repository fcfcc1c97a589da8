(** The documents a client can be generated for. *)
From Verif Require Import Base OasModel TemplateSpec MethodModel OpModel BuilderModel SanitizeModel GenerateModel
  RefSpec ResponseSpec ParamSpec DocSpec GenerateSpec.
Local Open Scope N_scope.

(** The type of a documented parameter, and whether it is required; [tn] is the name offered for the
    type.  A query parameter whose type is optional is not required. *)
Inductive typed_param (ts : type_space) (tn : str) : parameter -> type_id -> bool -> Prop :=
| tp_path d sch t : pd_required d = true -> pd_schema d = Some sch -> ts_add ts sch tn = Ok t ->
    typed_param ts tn (ParPath d PsSimple) t true
| tp_query d sch t k : pd_schema d = Some sch -> ts_add ts sch tn = Ok t -> ts_details ts t = Some k ->
    (forall i, k <> TdOption i) -> typed_param ts tn (ParQuery d QsForm) t (pd_required d)
| tp_option d sch t i : pd_schema d = Some sch -> ts_add ts sch tn = Ok t -> ts_details ts t = Some (TdOption i) ->
    typed_param ts tn (ParQuery d QsForm) i false
| tp_header d sch t : pd_schema d = Some sch -> ts_add ts sch tn = Ok t ->
    typed_param ts tn (ParHeader d) t (pd_required d).

(** A parameter [x] of type [t] can be passed: the type is known, and in a builder only a required
    parameter called [body] has a type with a builder of its own. *)
Definition passable (types : type_id -> option type_info) (i : interface_style) (x : str) (t : type_id) (required : bool) : Prop :=
  exists info, types t = Some info
  /\ (i = Builder -> ti_builder info = true -> required = true /\ x = lit "body").

(** The request body: none, or one media type of a suitable schema. *)
Inductive supported_body (ts : type_space) (types : type_id -> option type_info) (comps : option components) (tn : str)
  : option (ref_or request_body) -> Prop :=
| sb_absent : supported_body ts types comps tn None
| sb_empty r b : resolves co_request_bodies comps r b -> rb_content b = [] ->
    supported_body ts types comps tn (Some r)
| sb_one r b cs mt name ct typ : resolves co_request_bodies comps r b -> rb_content b = [(cs, mt)] ->
    names_media cs name -> media_type_of name ct -> body_typed ts comps tn ct mt typ ->
    (forall t, typ = PType t -> types t <> None) ->
    supported_body ts types comps tn (Some r).

(** A documented response: its first JSON media type has a schema and no encoding. *)
Definition supported_response (ts : type_space) (tn : str) (doc : response_doc) : Prop :=
  forall pre n mt post, rd_content doc = pre ++ (n, mt) :: post ->
  Forall (fun xm => ~ json_media (fst xm)) pre -> json_media n ->
  mt_encoding_empty mt = true /\ exists sch t, mt_schema mt = Some sch /\ ts_add ts sch tn = Ok t.

Definition is_websocket (op : operation) : bool :=
  match assoc (lit "x-dropshot-websocket") (op_extensions op) with Some _ => true | None => false end.

(** A path parameter. *)
Definition in_path (p : parameter) : Prop := location p = 2.

Section Supported.
Variables (snake pascal : str -> str) (ts : type_space) (types : type_id -> option type_info) (i : interface_style).

(** An operation for which a method can be generated. *)
Inductive supported_operation (comps : option components) (op : operation) (path : str)
    (shared : list (ref_or parameter)) : Prop :=
| supported_intro oid own others pieces table :
    op_id op = Some oid ->
    (* the parameters can be found, each has a type ... *)
    Forall2 (resolves co_parameters comps) shared others ->
    Forall2 (resolves co_parameters comps) (op_parameters op) own ->
    (forall p, effective others own p -> exists t required,
       typed_param ts (pascal (oid ++ lit "-" ++ param_name p)) p t required
       /\ passable types i (snake (param_name p)) t required) ->
    (* ... the path is a template with a parameter for each placeholder, and a placeholder for each
       of its parameters unless that is the only one ... *)
    path = show pieces -> lax pieces ->
    (forall n, In n (vars pieces) -> exists p, effective others own p /\ in_path p /\ param_name p = n) ->
    (forall p q, effective others own p -> effective others own q -> in_path p -> in_path q -> p <> q ->
       In (param_name p) (vars pieces)) ->
    (* ... the body is supported ... *)
    supported_body ts types comps (pascal (oid ++ lit "-body")) (op_request_body op) ->
    (* ... and so are the responses, which agree on a type for success and one for failure. *)
    (forall key r, doc_entry op key r -> exists doc, resolves co_responses comps r doc
       /\ supported_response ts (pascal (oid ++ lit "-response")) doc) ->
    response_table pascal ts comps op (is_websocket op) table ->
    agree (success_entry op (is_websocket op) table) ->
    agree (error_entry table) ->
    (forall key, In (key, RUpgrade) table -> is_error_or_default key = true -> key = SDefault) ->
    supported_operation comps op path shared.
End Supported.

(** Assumed of documents: status codes have three digits, and no operation has both extensions. *)
Definition ordinary (op : operation) : Prop :=
  codes_valid op
  /\ ~ (In (lit "x-dropshot-websocket") (map fst (op_extensions op))
        /\ In (lit "x-dropshot-pagination") (map fst (op_extensions op))).

(** A document for which a client can be generated. *)
Inductive supported_document (U : unicode) (add_ref_types : list (str * ref_or schema) -> outcome type_space)
    (types : type_id -> option type_info) (s : settings) (d : openapi) : Prop :=
| supported_document_intro ts :
    valid_document U d ->
    ~ (se_interface s = Positional /\ se_tag s = Separate) ->
    add_ref_types (match oa_components d with Some c => co_schemas c | None => [] end) = Ok ts ->
    (forall e, in_document d e ->
       supported_operation (snake U) (pascal U) ts types (se_interface s) (oa_components d) (do_op e)
         (do_path e) (do_params e)) ->
    supported_document U add_ref_types types s d.

(** typify knows the elements of the arrays it knows. *)
Definition elements_known (ts : type_space) (types : type_id -> option type_info) : Prop :=
  forall t i, ts_details ts t = Some (TdVec i) -> types i <> None.

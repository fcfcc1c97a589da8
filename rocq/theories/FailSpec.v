(** Why no client is generated: what makes the generator return an error and what makes it panic. *)
From Verif Require Import Base OasModel TemplateSpec MethodModel OpModel BuilderModel SanitizeModel GenerateModel
  RefSpec ResponseSpec ParamSpec DocSpec GenerateSpec SupportSpec.
Local Open Scope N_scope.

(** A reference that leads nowhere. *)
Definition broken {A} (get : components -> list (str * ref_or A)) (comps : option components) (r : ref_or A) : Prop :=
  forall a, ~ resolves get comps r a.

(** The parameter [p] counts for an operation. *)
Inductive counts (comps : option components) (shared own : list (ref_or parameter)) (p : parameter) : Prop :=
| counts_intro others mine : Forall2 (resolves co_parameters comps) shared others ->
    Forall2 (resolves co_parameters comps) own mine -> effective others mine p -> counts comps shared own p.

(** The body of an operation is documented in the media type [cs], and no other. *)
Inductive only_media (comps : option components) : option (ref_or request_body) -> str -> media_type -> Prop :=
| only_media_intro r b cs mt : resolves co_request_bodies comps r b -> rb_content b = [(cs, mt)] ->
    only_media comps (Some r) cs mt.
Definition media_is (cs : str) (ct : body_content_type) : Prop := exists name, names_media cs name /\ media_type_of name ct.

(** The first JSON media type of a documented response. *)
Inductive json_answer (comps : option components) (op : operation) : media_type -> Prop :=
| json_answer_intro key r doc pre n mt post : doc_entry op key r -> resolves co_responses comps r doc ->
    rd_content doc = pre ++ (n, mt) :: post -> Forall (fun xm => ~ json_media (fst xm)) pre -> json_media n ->
    json_answer comps op mt.

Section Causes.
Variables (snake pascal : str -> str) (ts : type_space) (types : type_id -> option type_info) (i : interface_style).
Variables (comps : option components) (op : operation) (path : str) (shared : list (ref_or parameter)) (oid : str).

(** The schemas of an operation, with the names offered for their types. *)
Inductive typed_schema : ref_or schema -> str -> Prop :=
| ty_param p sch : counts comps shared (op_parameters op) p -> pd_schema (parameter_data p) = Some sch ->
    typed_schema sch (pascal (oid ++ lit "-" ++ param_name p))
| ty_body cs mt sch ct : only_media comps (op_request_body op) cs mt -> mt_schema mt = Some sch -> media_is cs ct ->
    ct = Json \/ ct = FormUrlencoded -> typed_schema sch (pascal (oid ++ lit "-body"))
| ty_answer mt sch : json_answer comps op mt -> mt_schema mt = Some sch -> typed_schema sch (pascal (oid ++ lit "-response")).

(** The arguments of the method: name, type, and whether it is required. *)
Inductive passed : str -> type_id -> bool -> Prop :=
| pa_param p t required : counts comps shared (op_parameters op) p ->
    typed_param ts (pascal (oid ++ lit "-" ++ param_name p)) p t required -> passed (snake (param_name p)) t required
| pa_body cs mt ct t : only_media comps (op_request_body op) cs mt -> media_is cs ct ->
    body_typed ts comps (pascal (oid ++ lit "-body")) ct mt (PType t) -> passed (lit "body") t true.

(** Reasons for an error while the operation is read. *)
Inductive made_error : error -> Prop :=
(* parameters described by content, sent in cookies, or in an unsupported style *)
| er_content p : counts comps shared (op_parameters op) p -> pd_schema (parameter_data p) = None ->
    made_error (UnexpectedFormat (lit "unexpected content"))
| er_cookie d : counts comps shared (op_parameters op) (ParCookie d) ->
    made_error (UnexpectedFormat (lit "cookie parameters are not supported"))
| er_path_style d st : counts comps shared (op_parameters op) (ParPath d st) -> st <> PsSimple ->
    made_error (UnexpectedFormat (lit "unsupported style of path parameter"))
| er_query_style d st : counts comps shared (op_parameters op) (ParQuery d st) -> st <> QsForm ->
    made_error (UnexpectedFormat (lit "unsupported style of query parameter"))
(* bodies without schema, in an unknown media type, or of bytes or text with a schema for something else *)
| er_no_schema cs mt : only_media comps (op_request_body op) cs mt -> mt_schema mt = None ->
    made_error (UnexpectedFormat (lit "No schema specified for request body"))
| er_media cs mt : only_media comps (op_request_body op) cs mt -> (forall ct, ~ media_is cs ct) ->
    made_error (UnexpectedFormat (lit "unexpected content type: " ++ cs))
| er_octets cs mt sch x : only_media comps (op_request_body op) cs mt -> media_is cs OctetStream ->
    mt_schema mt = Some sch -> resolves co_schemas comps sch x -> ~ bare_string (VItem SfBinary) x ->
    made_error (UnexpectedFormat (lit "invalid schema for application/octet-stream"))
| er_text cs mt mime sch x : only_media comps (op_request_body op) cs mt -> media_is cs (Text mime) ->
    mt_schema mt = Some sch -> resolves co_schemas comps sch x -> ~ bare_string VEmpty x ->
    made_error (UnexpectedFormat (lit "invalid schema for " ++ mime))
(* a path that is no template *)
| er_path s : (forall pieces, path = show pieces -> ~ lax pieces) -> made_error (InvalidPath s)
(* the operation both is a websocket and has pages *)
| er_extensions : In (lit "x-dropshot-websocket") (map fst (op_extensions op)) ->
    In (lit "x-dropshot-pagination") (map fst (op_extensions op)) -> made_error (InvalidExtension (lit "conflicting extensions"))
(* typify has no type for a schema *)
| er_type sch tn e : typed_schema sch tn -> ts_add ts sch tn = Err e -> made_error e.

(** Reasons for a panic while the operation is read, and what it says. *)
Inductive made_panic : str -> Prop :=
(* references that lead nowhere *)
| pn_parameter r m : In r (shared ++ op_parameters op) -> broken co_parameters comps r -> made_panic m
| pn_body r m : op_request_body op = Some r -> broken co_request_bodies comps r -> made_panic m
| pn_schema cs mt ct sch m : only_media comps (op_request_body op) cs mt -> media_is cs ct ->
    ct = OctetStream \/ (exists mime, ct = Text mime) -> mt_schema mt = Some sch -> broken co_schemas comps sch -> made_panic m
| pn_answer key r m : doc_entry op key r -> broken co_responses comps r -> made_panic m
(* a path parameter that may be omitted, or that is not in the path while there are others *)
| pn_optional d st : counts comps shared (op_parameters op) (ParPath d st) -> pd_required d = false ->
    made_panic (lit "assertion failed: parameter_data.required")
| pn_absent p q pieces : counts comps shared (op_parameters op) p -> counts comps shared (op_parameters op) q ->
    in_path p -> in_path q -> p <> q -> path = show pieces -> lax pieces -> ~ In (param_name p) (vars pieces) ->
    made_panic (param_name p ++ lit " missing from path")
(* a body in several media types, or with an encoding *)
| pn_media r b : op_request_body op = Some r -> resolves co_request_bodies comps r b ->
    (1 < length (rb_content b))%nat -> made_panic (lit "not yet implemented: more media types than expected")
| pn_encoding cs mt ct : only_media comps (op_request_body op) cs mt -> media_is cs ct -> ct = Json \/ ct = FormUrlencoded ->
    mt_encoding_empty mt = false -> made_panic (lit "not yet implemented: media type encoding not empty")
(* a JSON answer with an encoding or without schema *)
| pn_answer_encoding mt : json_answer comps op mt -> mt_encoding_empty mt = false ->
    made_panic (lit "assertion failed: mt.encoding.is_empty()")
| pn_answer_schema mt : json_answer comps op mt -> mt_schema mt = None ->
    made_panic (lit "not yet implemented: media type encoding, no schema")
(* typify panics, or does not know the type of a query parameter *)
| pn_type sch tn m : typed_schema sch tn -> ts_add ts sch tn = Panic m -> made_panic m
| pn_details d st sch t : counts comps shared (op_parameters op) (ParQuery d st) -> pd_schema d = Some sch ->
    ts_add ts sch (pascal (oid ++ lit "-" ++ pd_name d)) = Ok t -> ts_details ts t = None ->
    made_panic (lit "called `Result::unwrap()` on an `Err` value").

(** Reasons for an error: those, and in a builder a type that typify has given out and does not know. *)
Inductive error_cause : error -> Prop :=
| er_made e : made_error e -> error_cause e
| er_unknown x t r : i = Builder -> passed x t r -> types t = None ->
    error_cause (TypeError (lit "unexpected internal value")).

(** Reasons for a panic, and what it says. *)
Inductive panic_cause : str -> Prop :=
| pn_made m : made_panic m -> panic_cause m
(* a placeholder without parameter; answers of several types; a documented error that upgrades *)
| pn_placeholder pieces n : path = show pieces -> lax pieces -> In n (vars pieces) ->
    (forall p, counts comps shared (op_parameters op) p -> in_path p -> param_name p <> n) ->
    panic_cause (lit "missing path name mapping " ++ n)
| pn_disagree table : response_table pascal ts comps op (is_websocket op) table ->
    ~ (agree (success_entry op (is_websocket op) table) /\ agree (error_entry table)) ->
    panic_cause (lit "assertion failed: response_types.len() <= 1")
| pn_upgrade table key : response_table pascal ts comps op (is_websocket op) table ->
    In (key, RUpgrade) table -> is_error_or_default key = true -> key <> SDefault ->
    panic_cause (lit "not yet implemented: non-default error response handling for upgrade requests is not yet implemented")
(* a type that typify has given out and does not know *)
| pn_unknown x t r : i = Positional -> passed x t r -> types t = None ->
    panic_cause (lit "called `Result::unwrap()` on an `Err` value")
(* in a builder, a type with a builder of its own for something else than the required body *)
| pn_builder x t info : i = Builder -> passed x t true -> types t = Some info -> ti_builder info = true -> x <> lit "body" ->
    panic_cause (lit "assertion `left == right` failed")
| pn_optional_builder x t info : i = Builder -> passed x t false -> types t = Some info -> ti_builder info = true ->
    panic_cause (lit "internal error: entered unreachable code").
End Causes.

(** The components of a document. *)
Definition component_schemas (d : openapi) : list (str * ref_or schema) :=
  match oa_components d with Some c => co_schemas c | None => [] end.

(** Reasons for a document to be refused with an error, and for a panic. *)
Inductive error_reason (U : unicode) (add_ref_types : list (str * ref_or schema) -> outcome type_space)
    (types : type_id -> option type_info) (s : settings) (d : openapi) : error -> Prop :=
| rr_invalid x : ~ valid_document U d -> error_reason U add_ref_types types s d (UnexpectedFormat x)
| rr_components e : valid_document U d -> add_ref_types (component_schemas d) = Err e -> error_reason U add_ref_types types s d e
| rr_operation ts o oid e : valid_document U d -> add_ref_types (component_schemas d) = Ok ts ->
    in_document d o -> op_id (do_op o) = Some oid ->
    error_cause (snake U) (pascal U) ts types (se_interface s) (oa_components d) (do_op o) (do_path o) (do_params o) oid e ->
    error_reason U add_ref_types types s d e.
Inductive panic_reason (U : unicode) (add_ref_types : list (str * ref_or schema) -> outcome type_space)
    (types : type_id -> option type_info) (s : settings) (d : openapi) : str -> Prop :=
| pr_style : valid_document U d -> se_interface s = Positional -> se_tag s = Separate ->
    panic_reason U add_ref_types types s d
      (lit "not implemented: positional arguments with separate tags are currently unsupported")
| pr_components m : valid_document U d -> add_ref_types (component_schemas d) = Panic m -> panic_reason U add_ref_types types s d m
| pr_operation ts o oid m : valid_document U d -> add_ref_types (component_schemas d) = Ok ts ->
    in_document d o -> op_id (do_op o) = Some oid ->
    panic_cause (snake U) (pascal U) ts types (se_interface s) (oa_components d) (do_op o) (do_path o) (do_params o) oid m ->
    panic_reason U add_ref_types types s d m.

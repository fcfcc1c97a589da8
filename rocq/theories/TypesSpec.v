(** Which schemas the types of a client are made from. *)
From Verif Require Import Base OasModel TemplateSpec MethodModel OpModel ToSchemaModel SchemaSpec TypesModel
  RefSpec ResponseSpec ParamSpec DocSpec SanitizeModel GenerateModel GenerateSpec.
Local Open Scope N_scope.

(** [j] says in JSON Schema what [sch] says in the document, whatever references, patterns and formats mean, if
    the conversion keeps all that is in [sch] (C44). *)
Definition translated (sch : ref_or schema) (j : jschema) : Prop :=
  forall refs matches format_ok, (forall s, sch = Item s -> all_kept refs matches format_ok s) ->
  forall v, valid refs matches format_ok j v = accepts_ref refs matches format_ok sch v.

(** Nothing in [sch] is without translation. *)
Definition convertible (sch : ref_or schema) : Prop :=
  forall s t, sch = Item s -> nested t s -> translatable (s_kind t).

(** [t] is what typify makes of a translation of [sch] under the name [tn]. *)
Definition made_from (ty : typify) (tn : str) (sch : ref_or schema) (t : type_id) : Prop :=
  convertible sch /\ exists j, translated sch j /\ ty_add ty j tn = Ok t.

(** The argument [q] has the type of the documented parameter [p]; a query parameter of an optional type is
    taken as one of the type inside that is not required. *)
Inductive argument_type (ty : typify) (tn : str) (p : parameter) (q : op_param) : Prop :=
| at_same sch t : pd_schema (parameter_data p) = Some sch -> made_from ty tn sch t -> p_typ q = PType t ->
    (location p = 0 -> forall i, ty_details ty t <> Some (TdOption i)) ->
    is_required (p_kind q) = pd_required (parameter_data p) -> argument_type ty tn p q
| at_option sch t i : location p = 0 -> pd_schema (parameter_data p) = Some sch -> made_from ty tn sch t ->
    ty_details ty t = Some (TdOption i) -> p_typ q = PType i -> is_required (p_kind q) = false ->
    argument_type ty tn p q.

(** All types in the method of an operation are made from the schemas at their places. *)
Record typed_operation (U : unicode) (ty : typify) (d : openapi) (e : doc_op) (m : op_method) : Prop := TypedOperation {
  to_parameters : forall q, In q (m_params m) -> is_body q = false ->
    exists oid others own p, op_id (do_op e) = Some oid
    /\ Forall2 (resolves co_parameters (oa_components d)) (do_params e) others
    /\ Forall2 (resolves co_parameters (oa_components d)) (op_parameters (do_op e)) own
    /\ effective others own p /\ stands_for (snake U) p q
    /\ argument_type ty (pascal U (oid ++ lit "-" ++ param_name p)) p q;
  to_body : forall q t, In q (m_params m) -> is_body q = true -> p_typ q = PType t ->
    exists oid r b cs mt sch, op_id (do_op e) = Some oid /\ op_request_body (do_op e) = Some r
    /\ resolves co_request_bodies (oa_components d) r b /\ rb_content b = [(cs, mt)] /\ mt_schema mt = Some sch
    /\ made_from ty (pascal U (oid ++ lit "-body")) sch t;
  to_responses : forall o t, In o (m_responses m) -> o_typ o = RType t ->
    exists oid r doc pre n mt post sch, op_id (do_op e) = Some oid /\ doc_entry (do_op e) (o_status o) r
    /\ resolves co_responses (oa_components d) r doc /\ rd_content doc = pre ++ (n, mt) :: post
    /\ Forall (fun xm => ~ json_media (fst xm)) pre /\ json_media n /\ mt_schema mt = Some sch
    /\ made_from ty (pascal U (oid ++ lit "-response")) sch t }.

(** The schemas of the components of a document. *)
Definition schemas_of (d : openapi) : list (str * ref_or schema) :=
  match oa_components d with Some c => co_schemas c | None => [] end.

(** What the code for an operation depends on. *)
From Verif Require Import Base OasModel TemplateSpec MethodModel OpModel BuilderModel SanitizeModel GenerateModel
  RefSpec ResponseSpec ParamSpec DocSpec GenerateSpec SupportSpec FailSpec.
Local Open Scope N_scope.

(** The same operation, of the same path and method, in one or two documents. *)
Definition same_place (e e' : doc_op) : Prop :=
  do_path e = do_path e' /\ do_method e = do_method e' /\ do_op e = do_op e' /\ do_params e = do_params e'.

(** What the operation refers to among the components [comps] is also found among [comps']: parameters, its body, answers, and
    the schemas of bodies of bytes and text (all other schemas are left to typify). *)
Record same_targets (comps comps' : option components) (op : operation) (shared : list (ref_or parameter)) : Prop := {
  tg_parameters : forall r x, In r (shared ++ op_parameters op) ->
    resolves co_parameters comps r x -> resolves co_parameters comps' r x;
  tg_body : forall r x, op_request_body op = Some r ->
    resolves co_request_bodies comps r x -> resolves co_request_bodies comps' r x;
  tg_schema : forall cs mt ct sch x, only_media comps (op_request_body op) cs mt -> media_is cs ct ->
    ct = OctetStream \/ (exists mime, ct = Text mime) -> mt_schema mt = Some sch ->
    resolves co_schemas comps sch x -> resolves co_schemas comps' sch x;
  tg_answers : forall key r x, doc_entry op key r ->
    resolves co_responses comps r x -> resolves co_responses comps' r x }.

(** typify gives the schemas of the operation the same types. *)
Record same_types (pascal : str -> str) (ts ts' : type_space) (comps : option components) (op : operation)
    (shared : list (ref_or parameter)) (oid : str) : Prop := {
  sy_add : forall sch tn t, typed_schema pascal comps op shared oid sch tn -> ts_add ts sch tn = Ok t -> ts_add ts' sch tn = Ok t;
  sy_details : forall t, ts_details ts' t = ts_details ts t }.

(** The operation [e] of the document [d] is, as [e'], in [d'] too, and refers to the same things there. *)
Record shared_by (U : unicode) (add_ref_types : list (str * ref_or schema) -> outcome type_space)
    (d d' : openapi) (e e' : doc_op) : Prop := {
  sh_place : same_place e e';
  sh_targets : same_targets (oa_components d) (oa_components d') (do_op e) (do_params e);
  sh_types : forall ts ts' oid, add_ref_types (component_schemas d) = Ok ts -> add_ref_types (component_schemas d') = Ok ts' ->
    op_id (do_op e) = Some oid -> same_types (pascal U) ts ts' (oa_components d) (do_op e) (do_params e) oid }.

(** The document [d'] has only operations that [d] has, with the same components. *)
Record part_of (d' d : openapi) : Prop := {
  po_version : oa_openapi d' = oa_openapi d;
  po_components : oa_components d' = oa_components d;
  po_paths : NoDup (map fst (oa_paths d'));
  po_items : forall path r, ~ In (path, Ref r) (oa_paths d');
  po_operations : forall e', in_document d' e' -> exists e, in_document d e /\ same_place e e' }.

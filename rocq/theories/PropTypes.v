(** C85: the types of a client are made from the schemas of the document. *)
From Verif Require Import Base OasModel OpModel ToSchemaModel SchemaSpec TypesModel TypesSpec TypesProofs SanitizeModel
  GenerateModel GenerateSpec ValidateProofs ExampleData ExampleGenerate ExampleTypes.

(** typify gets the schemas of the components, translated, under their names; the type of every parameter, body
    and response of every method is what it then makes of the translation of the schema at that place. *)
Theorem C85_types : forall U typify_refs types s d g l,
  generate_tokens U (add_converted typify_refs) types s d = Ok g -> operations_in_order d l ->
  exists js ty ms, typify_refs js = Ok ty
    /\ Forall2 (fun nr nj => fst nr = fst nj /\ convertible (snd nr) /\ translated (snd nr) (snd nj)) (schemas_of d) js
    /\ (forall refs matches format_ok prefix,
         (forall n sch, In (n, Item sch) (schemas_of d) -> all_kept refs matches format_ok sch) ->
         (meant_by_document refs matches format_ok prefix (schemas_of d)
          <-> meant_by_converted refs matches format_ok prefix js))
    /\ Forall2 (fun e m => processed U (space_of ty) d e m /\ typed_operation U ty d e m) l ms.
Proof. exact types_made. Qed.
Print Assumptions C85_types.

Example C85_types_ex : exists l,
  generate_tokens unicode15 (add_converted t_refs) y_types (y_set Positional Merged) (t_doc t_schemas) = Ok t_gen
  /\ operations_in_order (t_doc t_schemas) l /\ length l = 1%nat.
Proof. exact (ex_intro _ _ (conj t_generated (conj (doc_ops_in_order (t_doc t_schemas)) eq_refl))). Qed.

(** A valid document with a component that has no translation makes the generator panic. *)
Theorem C85_unconvertible : forall U typify_refs types s d n sch,
  validate_openapi U d = Ok tt -> In (n, sch) (schemas_of d) -> ~ convertible sch ->
  exists msg, generate_tokens U (add_converted typify_refs) types s d = Panic msg.
Proof. exact unconvertible. Qed.
Print Assumptions C85_unconvertible.

Example C85_unconvertible_ex : exists n sch, validate_openapi unicode15 (t_doc t_bad) = Ok tt
  /\ In (n, sch) (schemas_of (t_doc t_bad)) /\ ~ convertible sch.
Proof. exact (ex_intro _ _ (ex_intro _ _ (conj t_bad_valid (conj (or_intror (or_introl eq_refl)) t_bad_not)))). Qed.

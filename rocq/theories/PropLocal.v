(** C92: the code for an operation depends on nothing but the operation and what it refers to. *)
From Coq Require Import Permutation.
From Verif Require Import Base OasModel MethodModel OpModel BuilderModel SanitizeModel UnicodeProofs GenerateModel ResponseSpec DocSpec
  GenerateSpec SupportSpec SupportProofs FailSpec LocalSpec LocalProofs ExampleData ExampleGenerate ExampleSupport ExampleLocal.

(** An operation found in two documents, with the same path, method and parameters and referring to the same things there, has the
    same struct, with the same methods, in the two clients ... *)
Theorem C92_builder : forall add_ref_types types s d d' g g' l l' k k' e e',
  generate_tokens unicode15 add_ref_types types s d = Ok g -> generate_tokens unicode15 add_ref_types types s d' = Ok g' ->
  operations_in_order d l -> operations_in_order d' l' -> nth_error l k = Some e -> nth_error l' k' = Some e' ->
  shared_by unicode15 add_ref_types d d' e e' -> se_interface s = Builder ->
  exists sc, nth_error (oc_builders (ge_code g)) k = Some sc /\ nth_error (oc_builders (ge_code g')) k' = Some sc.
Proof. exact (fun a t s d d' g g' l l' k k' e e' => same_builder unicode15 a t s valid15 d d' g g' l l' k k' e e'). Qed.
Print Assumptions C92_builder.

Example C92_builder_ex : (l_gen Builder l_one = Ok (l_code Builder l_one) /\ l_gen Builder l_two = Ok (l_code Builder l_two)
  /\ operations_in_order l_one [l_e 0] /\ operations_in_order l_two [l_b 0; l_e 1]
  /\ shared_by unicode15 (fun _ => Ok x_ts) l_one l_two (l_e 0) (l_e 1))
  /\ map sc_name (oc_builders (ge_code (l_code Builder l_one))) = [lit "GetA"]
  /\ map sc_name (oc_builders (ge_code (l_code Builder l_two))) = [lit "ListB"; lit "GetA"].
Proof. exact (conj (l_pair Builder) (conj (proj1 l_names) (proj1 (proj2 l_names)))). Qed.

(** ... and in the positional style the same methods. *)
Theorem C92_positional : forall add_ref_types types s d d' g g' l l' k k' e e',
  generate_tokens unicode15 add_ref_types types s d = Ok g -> generate_tokens unicode15 add_ref_types types s d' = Ok g' ->
  operations_in_order d l -> operations_in_order d' l' -> nth_error l k = Some e -> nth_error l' k' = Some e' ->
  shared_by unicode15 add_ref_types d d' e e' -> se_interface s = Positional ->
  exists pre items post pre' post',
    oc_impl (ge_code g) = pre ++ items ++ post /\ oc_impl (ge_code g') = pre' ++ items ++ post'
    /\ length (filter (fun i => negb (is_stream i)) pre) = k /\ length (filter (fun i => negb (is_stream i)) pre') = k'
    /\ length (filter (fun i => negb (is_stream i)) items) = 1%nat.
Proof. exact (fun a t s d d' g g' l l' k k' e e' => same_items unicode15 a t s valid15 d d' g g' l l' k k' e e'). Qed.
Print Assumptions C92_positional.

Example C92_positional_ex : (l_gen Positional l_one = Ok (l_code Positional l_one) /\ l_gen Positional l_two = Ok (l_code Positional l_two)
  /\ operations_in_order l_one [l_e 0] /\ operations_in_order l_two [l_b 0; l_e 1]
  /\ shared_by unicode15 (fun _ => Ok x_ts) l_one l_two (l_e 0) (l_e 1))
  /\ map im_name (oc_impl (ge_code (l_code Positional l_one))) = [lit "get_a"]
  /\ map im_name (oc_impl (ge_code (l_code Positional l_two))) = [lit "list_b"; lit "get_a"].
Proof. exact (conj (l_pair Positional) (proj2 (proj2 l_names))). Qed.

(** A valid document all of whose operations are also in documents with clients has a client. *)
Theorem C92_generated : forall add_ref_types types s d' ts',
  valid_document unicode15 d' -> add_ref_types (component_schemas d') = Ok ts' -> ~ (se_interface s = Positional /\ se_tag s = Separate) ->
  (forall e', in_document d' e' -> exists d e g, generate_tokens unicode15 add_ref_types types s d = Ok g /\ in_document d e
     /\ shared_by unicode15 add_ref_types d d' e e') ->
  exists g', generate_tokens unicode15 add_ref_types types s d' = Ok g'.
Proof. exact (fun a t s => local_generated unicode15 a t s valid15). Qed.
Print Assumptions C92_generated.

Example C92_generated_ex : valid_document unicode15 l_less /\ forall e', in_document l_less e' -> exists d e g,
  l_gen Builder d = Ok g /\ in_document d e /\ shared_by unicode15 (fun _ => Ok x_ts) d l_less e e'.
Proof. exact l_reused. Qed.

(** Removing operations, or paths, never makes the generator fail ... *)
Theorem C92_part : forall add_ref_types types s d' d g, part_of d' d ->
  generate_tokens unicode15 add_ref_types types s d = Ok g -> exists g', generate_tokens unicode15 add_ref_types types s d' = Ok g'.
Proof. exact (fun a t s => part_generated unicode15 a t s valid15). Qed.
Print Assumptions C92_part.

Example C92_part_ex : part_of l_less l_two /\ l_gen Builder l_two = Ok (l_code Builder l_two).
Proof. exact l_part. Qed.

(** ... and the order of the paths does not matter to whether there is a client. *)
Theorem C92_reordered : forall add_ref_types types s d d',
  oa_openapi d' = oa_openapi d -> oa_components d' = oa_components d ->
  Permutation (oa_paths d) (oa_paths d') -> NoDup (map fst (oa_paths d)) ->
  ((exists g, generate_tokens unicode15 add_ref_types types s d = Ok g) <->
   (exists g', generate_tokens unicode15 add_ref_types types s d' = Ok g')).
Proof. exact (fun a t s d d' => reordered_iff unicode15 a t s d d' valid15). Qed.
Print Assumptions C92_reordered.

Example C92_reordered_ex : (NoDup (map fst (oa_paths l_two)) /\ Permutation (oa_paths l_two) (oa_paths l_turned))
  /\ l_gen Builder l_two = Ok (l_code Builder l_two).
Proof. exact (conj l_paths (proj2 l_part)). Qed.

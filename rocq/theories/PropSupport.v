(** C76: which documents a client is generated for. *)
From Verif Require Import Base OasModel MethodModel OpModel BuilderModel SanitizeModel UnicodeProofs GenerateModel DocSpec
  GenerateSpec SupportSpec SupportProofs ExampleData ExampleBuilder ExampleGenerate ExampleSupport.

(** A client is generated for a document exactly if the document is supported. *)
Theorem C76_generated_iff : forall add_ref_types types s d,
  (forall ts, add_ref_types (match oa_components d with Some c => co_schemas c | None => [] end) = Ok ts ->
     elements_known ts types) ->
  (forall e, in_document d e -> ordinary (do_op e)) ->
  ((exists g, generate_tokens unicode15 add_ref_types types s d = Ok g) <->
   supported_document unicode15 add_ref_types types s d).
Proof. exact (fun a t => document_iff unicode15 a t valid15). Qed.
Print Assumptions C76_generated_iff.

Example C76_ex : supported_document unicode15 (fun _ => Ok x_ts) x_types (y_set Builder Separate) (y_doc (lit "ping"))
  /\ exists g, generate_tokens unicode15 (fun _ => Ok x_ts) x_types (y_set Builder Separate) (y_doc (lit "ping")) = Ok g.
Proof.
  assert (H : exists g, generate_tokens unicode15 (fun _ => Ok x_ts) x_types (y_set Builder Separate) (y_doc (lit "ping")) = Ok g)
    by exact (ex_intro _ _ w_generated).
  split; [|exact H]. apply C76_generated_iff.
  - intros ts [= <-]. exact x_elements.
  - exact y_ordinary.
  - exact H.
Qed.

(** One operation by itself. *)
Theorem C76_operation : forall snake pascal ts types i h comps op path verb shared,
  elements_known ts types -> ordinary op ->
  ((exists m, process_operation snake pascal ts op comps path (http_method_str verb) shared = Ok m
     /\ (exists sb, method_sig_body h m = Ok sb) /\ Forall (fits types i) (m_params m)) <->
   supported_operation snake pascal ts types i comps op path shared).
Proof. exact operation_iff. Qed.
Print Assumptions C76_operation.

(** The other documents are not all refused with an error: valid ones make the generator panic, ... *)
Theorem C76_errors_refuted : exists add_ref_types types s d msg,
  valid_document unicode15 d /\ (forall e, in_document d e -> ordinary (do_op e)) /\
  generate_tokens unicode15 add_ref_types types s d = Panic msg.
Proof.
  exact (ex_intro _ _ (ex_intro _ _ (ex_intro _ _ (ex_intro _ _ (ex_intro _ _
    (conj (proj1 (Forall_inv w_all_valid)) (conj (proj2 (Forall_inv w_all_valid)) (Forall_inv w_all)))))))).
Qed.
Print Assumptions C76_errors_refuted.

(** ... in each of these ways. *)
Example C76_panics : Forall (fun c => w_panics (fst c) (snd c)) w_cases /\ length w_cases = 14%nat.
Proof. exact (conj w_all eq_refl). Qed.

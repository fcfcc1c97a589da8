(** C88: why no client is generated. *)
From Verif Require Import Base OasModel MethodModel OpModel BuilderModel SanitizeModel UnicodeProofs GenerateModel ResponseSpec DocSpec
  GenerateSpec SupportSpec SupportProofs FailSpec FailProofs ExampleData ExampleBuilder ExampleGenerate ExampleSupport ExampleFail.

(** Every error and every panic has one of the listed reasons, and says its text ... *)
Theorem C88_explained : forall add_ref_types types s d,
  (forall ts, add_ref_types (component_schemas d) = Ok ts -> elements_known ts types) ->
  (forall e, in_document d e -> codes_valid (do_op e)) ->
  match generate_tokens unicode15 add_ref_types types s d with
  | Ok _ => True
  | Err e => error_reason unicode15 add_ref_types types s d e
  | Panic m => panic_reason unicode15 add_ref_types types s d m
  end.
Proof. exact (fun a t => generate_explained unicode15 a t valid15). Qed.
Print Assumptions C88_explained.

Example C88_explained_ex :
  Forall (fun c => v_gen Builder (fst c) = Err (snd c) /\ forall e, in_document (fst c) e -> codes_valid (do_op e)) v_cases
  /\ Forall (fun c => w_panics (fst c) (snd c) /\ forall e, in_document (fst c) e -> codes_valid (do_op e)) w_cases
  /\ elements_known x_ts x_types /\ length v_cases = 8%nat /\ length w_cases = 14%nat.
Proof. exact v_both. Qed.

(** ... and each of these reasons makes the generator fail: with none of them a client is generated, ... *)
Theorem C88_generated_unless : forall add_ref_types types s d,
  (forall ts, add_ref_types (component_schemas d) = Ok ts -> elements_known ts types) ->
  (forall e, in_document d e -> ordinary (do_op e)) ->
  ((exists g, generate_tokens unicode15 add_ref_types types s d = Ok g) <->
   (forall e, ~ error_reason unicode15 add_ref_types types s d e) /\ (forall m, ~ panic_reason unicode15 add_ref_types types s d m)).
Proof. exact (fun a t s d => generated_unless unicode15 a t s d valid15). Qed.
Print Assumptions C88_generated_unless.

Example C88_unless_ex : (forall e, in_document (y_doc (lit "ping")) e -> ordinary (do_op e))
  /\ exists g, generate_tokens unicode15 (fun _ => Ok x_ts) x_types (y_set Builder Separate) (y_doc (lit "ping")) = Ok g.
Proof. exact (conj y_ordinary (ex_intro _ _ w_generated)). Qed.

(** ... with reasons for errors only, it is an error, and with reasons for panics only, it is a panic. *)
Theorem C88_errors_iff : forall add_ref_types types s d,
  (forall ts, add_ref_types (component_schemas d) = Ok ts -> elements_known ts types) ->
  (forall e, in_document d e -> ordinary (do_op e)) ->
  (forall m, ~ panic_reason unicode15 add_ref_types types s d m) ->
  ((exists e, generate_tokens unicode15 add_ref_types types s d = Err e) <->
   exists e, error_reason unicode15 add_ref_types types s d e).
Proof. exact (fun a t s d => errors_iff unicode15 a t s d valid15). Qed.
Print Assumptions C88_errors_iff.

Example C88_errors_ex : (forall e, in_document (v_doc (lit "/w") v_cookie) e -> ordinary (do_op e))
  /\ (forall m, ~ panic_reason unicode15 (fun _ => Ok x_ts) x_types (y_set Builder Merged) (v_doc (lit "/w") v_cookie) m)
  /\ (exists e, error_reason unicode15 (fun _ => Ok x_ts) x_types (y_set Builder Merged) (v_doc (lit "/w") v_cookie) e)
  /\ v_gen Builder (v_doc (lit "/w") v_cookie) = Err (UnexpectedFormat (lit "cookie parameters are not supported")).
Proof. exact (conj (v_ordinary _ _) (conj v_cookie_no_panic (conj (ex_intro _ _ v_cookie_error) v_cookie_err))). Qed.

Theorem C88_panics_iff : forall add_ref_types types s d,
  (forall ts, add_ref_types (component_schemas d) = Ok ts -> elements_known ts types) ->
  (forall e, in_document d e -> ordinary (do_op e)) ->
  (forall e, ~ error_reason unicode15 add_ref_types types s d e) ->
  ((exists m, generate_tokens unicode15 add_ref_types types s d = Panic m) <->
   exists m, panic_reason unicode15 add_ref_types types s d m).
Proof. exact (fun a t s d => panics_iff unicode15 a t s d valid15). Qed.
Print Assumptions C88_panics_iff.

Example C88_panics_ex : (forall e, in_document (v_doc (lit "/w/{a}") v_optional) e -> ordinary (do_op e))
  /\ (forall e, ~ error_reason unicode15 (fun _ => Ok x_ts) x_types (y_set Builder Merged) (v_doc (lit "/w/{a}") v_optional) e)
  /\ panic_reason unicode15 (fun _ => Ok x_ts) x_types (y_set Builder Merged) (v_doc (lit "/w/{a}") v_optional) v_optional_text
  /\ v_gen Builder (v_doc (lit "/w/{a}") v_optional) = Panic v_optional_text.
Proof. exact (conj (v_ordinary _ _) (conj v_optional_no_error (conj v_optional_panic v_optional_panics))). Qed.

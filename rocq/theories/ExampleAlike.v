(** One interface described twice. *)
From Verif Require Import Base OasModel MethodModel OpModel BuilderModel SanitizeModel UnicodeProofs GenerateModel RefSpec RefProofs ParamSpec ParamProofs
  FailSpec MockModel CliModel AlikeSpec AlikeProofs ExampleData ExampleBuilder ExampleGenerate ExampleMock ExampleCli ExampleLocal ExampleFail ExampleToolFail.
Local Open Scope N_scope.

(** With a parameter of the path, a reference to another, and a reference to the answer ... *)
Definition a_page : parameter := ParQuery (x_param (lit "page") false) QsForm.
Definition a_trace : parameter := ParHeader (x_param (lit "X-Trace") false).
Definition a_error : response_doc := x_json (Ref (lit "#/components/schemas/Error")).
Definition a_op (params : list (ref_or parameter)) (r : ref_or response_doc) : operation :=
  Operation (Some (lit "get_a")) [] None None params None None [(ScCode 200, r)] [].
Definition a_short : openapi := l_doc
  [(lit "/a", Item (y_no_ops [Item a_page] (Some (a_op [Ref (lit "#/components/parameters/Trace")] (Ref (lit "#/components/responses/Error")))) None))] l_more.
(** ... or with these references written out, ... *)
Definition a_out : openapi := l_doc
  [(lit "/a", Item (y_no_ops [Item a_page] (Some (a_op [Item a_trace] (Item a_error))) None))] l_more.
(** ... or with everything in the operation, in another order, and no components but the schemas. *)
Definition a_long : openapi := l_doc
  [(lit "/a", Item (y_no_ops [] (Some (a_op [Item a_trace; Item a_page] (Item a_error))) None))]
  (Components [] [] [] (co_schemas l_more)).

Lemma a_written : document_written a_short a_out.
Proof.
  apply (dw_paths a_short). constructor; [|constructor]. split; [reflexivity|]. cbn [snd]. split; cbn.
  - repeat constructor.
  - repeat (apply Forall_cons; [try exact Logic.I|]); [|apply Forall_nil]. cbn. split; try reflexivity.
    + constructor; [|constructor]. apply wo_target, item_ok_iff. vm_compute. reflexivity.
    + constructor; [|constructor]. split; [reflexivity|]. apply wo_target, item_ok_iff. vm_compute. reflexivity.
Qed.
Lemma a_alike : document_alike a_short a_long.
Proof.
  split; try reflexivity. cbn. constructor; [|constructor]. split; [reflexivity|]. cbn.
  repeat (apply Forall_cons; [try exact Logic.I|]); [|apply Forall_nil]. cbn. split; try reflexivity.
  - split; intros _; eapply there_computed; vm_compute; reflexivity.
  - intro p. rewrite (counts_computed _ _ _ [a_page] [a_trace]), (counts_computed _ _ _ [] [a_trace; a_page]) by (vm_compute; reflexivity).
    replace (map snd (combined [a_page] [a_trace])) with (map snd (combined [] [a_trace; a_page])) by (vm_compute; reflexivity). reflexivity.
  - constructor; [|constructor]. split; [reflexivity|]. cbn. apply (alike_computed _ _ _ _ _ a_error); vm_compute; reflexivity.
Qed.
Lemma a_differ : a_short <> a_out /\ a_short <> a_long /\ a_out <> a_long.
Proof. repeat split; intro E; vm_compute in E; discriminate. Qed.
Lemma a_client : exists g, l_gen Builder a_short = Ok g /\ map sc_name (oc_builders (ge_code g)) = [lit "GetA"].
Proof. eexists. split; vm_compute; reflexivity. Qed.
Lemma a_mock : exists k, u_mock y_types a_short (lit "sdk") = Ok k.
Proof. eexists. vm_compute. reflexivity. Qed.
Lemma a_cli : exists k, u_cli y_ctypes a_short (lit "sdk") = Ok k.
Proof. eexists. vm_compute. reflexivity. Qed.

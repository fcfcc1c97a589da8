(** Concrete mocks of different operations. *)
From Verif Require Import Base Utf8 SerdeModel OasModel HeaderModel ClientModel TemplateModel TemplateSpec EncodeModel
  EncodeSpec QuerySpec MethodModel OpModel RunModel BuilderModel RequestSpec DocSpec SanitizeModel GenerateModel GenerateSpec
  UnicodeProofs ValidateProofs MockModel MockSpec MockApartSpec ExampleData ExampleGenerate ExampleMock.
Local Open Scope N_scope.

(** /v/{id}/{n} and /items/{id}, two segments and one. *)
Lemma ap_apart : apart k_pieces x_pieces.
Proof. left. vm_compute. discriminate. Qed.
(** /v/{id}/{n} and /w/{id}/{n}, by a constant. *)
Definition w_pieces' : list piece := map PLit (lit "/w/") ++ [PVar (lit "id"); PLit (ch "/"); PVar (lit "n")].
Lemma ap_apart_const : apart k_pieces w_pieces'.
Proof. right. exists 1%nat, [PLit (ch "v")], [PLit (ch "w")]. repeat split; try reflexivity. discriminate. Qed.

(** /v/{id}/{n} and /v/all/{k} have /v/all/x in common. *)
Definition l_pieces : list piece := map PLit (lit "/v/all/") ++ [PVar (lit "k")].
Definition l_m : op_method := k_method [CConst (lit "/v/all/"); CParam (lit "k")] [lit "k"].
Lemma l_strict : strict l_pieces.
Proof. split; [now exists (map PLit (lit "v/all/") ++ [PVar (lit "k")])|]. literal_pieces. Qed.
Lemma l_plain : plain_template l_pieces.
Proof.
  intros c Hc. vm_compute in Hc.
  repeat (destruct Hc as [Hc|Hc]; [first [discriminate Hc | injection Hc as <-; intro Hi; vm_compute in Hi; intuition discriminate]|]).
  easy.
Qed.
Lemma l_vars : NoDup (vars l_pieces).
Proof. repeat constructor; vm_compute; intuition discriminate. Qed.
Lemma l_parse : parse (show l_pieces) = Ok (m_path l_m).
Proof. reflexivity. Qed.
Lemma l_ok : httpmock_method unicode15 y_types l_m = Ok (k_mock l_m).
Proof. apply k_is_ok. vm_compute. reflexivity. Qed.
Lemma k_whole : whole_segments k_pieces.
Proof. unfold whole_segments. repeat (apply Forall_cons; [first [left; reflexivity|right; eexists; reflexivity]|]). apply Forall_nil. Qed.
Lemma l_whole : whole_segments l_pieces.
Proof. unfold whole_segments. repeat (apply Forall_cons; [first [left; reflexivity|right; eexists; reflexivity]|]). apply Forall_nil. Qed.
Lemma kl_not_apart : ~ apart k_pieces l_pieces.
Proof.
  intros [H|(i & s & s' & E1 & E2 & H1 & H2 & H3)]; [now apply H|].
  destruct i as [|[|[|[|i]]]]; vm_compute in E1, E2; try (injection E1 as <-); try (injection E2 as <-); try discriminate; try (now apply H3).
  destruct i; discriminate.
Qed.

(** GET /v1x0 is answered by the mock of GET /v1.0. *)
Definition j_op : operation := Operation (Some (lit "moved")) [] None None [] None None
  [(ScCode 200, Item (x_json (Item x_string)))] [].
Definition j_pieces : list piece := map PLit (lit "/v1x0").
Definition j_m : op_method :=
  OpMethod (lit "moved") [] Get [CConst (lit "/v1x0")] None None [] [OpResponse (SCode 200) (RType 2)] None false.
Lemma j_generated : forall h, generated x_snake x_pascal x_ts x_comps j_op j_pieces (lit "get") [] h j_m (body_of h j_m).
Proof.
  intro h. split.
  - split; [now exists (map PLit (lit "v1x0"))|]. literal_pieces.
  - reflexivity.
  - reflexivity.
  - repeat constructor; cbn; intuition discriminate.
  - repeat constructor; discriminate.
  - right. repeat constructor; discriminate.
  - split; discriminate.
Qed.
Lemma j_callable : callable x_ctx j_m [].
Proof.
  split.
  - split; auto.
  - split; [discriminate|]. repeat constructor; discriminate.
  - intros u p q hs [= <- <- <-] n. discriminate.
Qed.
Definition j_ep : episode (N * list N) nat := ep_of j_op j_pieces (lit "get") j_m x_no_hooks (x_ops false false (x_resp 200)) [].
Definition j_request : request :=
  match e_trace j_ep with ESend q _ :: _ => q | _ => Request Get [] None [] None end.

Lemma dot_answers : exists (e : episode (N * list N) nat) q m o ps es r,
  happens e /\ first_request (e_trace e) q /\ url_kept (e_client e) (e_path e) (e_args e) /\ proper_texts (e_args e)
  /\ httpmock_method unicode15 y_types m = Ok o /\ strict ps /\ parse (show ps) = Ok (m_path m) /\ NoDup (vars ps)
  /\ apart ps (e_path e) /\ when_calls o [] = Some es /\ seen (c_base_url (e_client e)) q r
  /\ forall json_is, matched json_is es r = true.
Proof.
  exists j_ep, j_request, (k_method [CConst (lit "/v1.0")] []), (k_mock (k_method [CConst (lit "/v1.0")] [])), (map PLit (lit "/v1.0")),
    (k_when (k_method [CConst (lit "/v1.0")] []) []), (MockRequest Get (lit "/v1x0") [] []).
  split; [apply ep_of_happens; [apply j_generated|apply j_callable]|].
  split; [vm_compute; eexists; right; right; eexists; reflexivity|].
  split; [intros val _; now exists []|].
  split; [split; [intros p v []|intros kv (nv & ps & [] & _)]|].
  split; [apply k_is_ok; vm_compute; reflexivity|].
  split; [split; [now exists (map PLit (lit "v1.0"))|]; literal_pieces|].
  split; [reflexivity|]. split; [constructor|].
  split; [right; exists 1%nat, (map PLit (lit "v1.0")), (map PLit (lit "v1x0")); repeat split; try reflexivity; discriminate|].
  split; [apply k_is_some; vm_compute; reflexivity|].
  split; [vm_compute; repeat split; reflexivity|]. intro. vm_compute. reflexivity.
Qed.

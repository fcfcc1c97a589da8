(** Calls of different operations, for C100. *)
From Verif Require Import Base Utf8 SerdeModel OasModel HeaderModel ClientModel TemplateModel TemplateSpec TemplateProofs EncodeModel EncodeSpec QuerySpec
  MethodModel OpModel RunModel RequestSpec DocSpec SanitizeModel UnicodeProofs MockModel MockSpec MockApartSpec GenerateModel GenerateSpec RouteSpec ExampleData ExampleGenerate ExampleMock ExampleApart ExampleTold.
Local Open Scope N_scope.

(** GET /{id}, beside GET /v1x0 of ExampleApart.v. *)
Definition f_op : operation := Operation (Some (lit "find")) [] None None [Item (ParPath (x_param (lit "id") true) PsSimple)] None None
  [(ScCode 200, Item (x_json (Item x_string)))] [].
Definition f_pieces : list piece := [PLit (ch "/"); PVar (lit "id")].
Definition f_m : op_method :=
  OpMethod (lit "find") [] Get [CConst (lit "/"); CParam (lit "id")] None None [x_id] [OpResponse (SCode 200) (RType 2)] None false.
Lemma f_generated : forall h, generated x_snake x_pascal x_ts x_comps f_op f_pieces (lit "get") [] h f_m (body_of h f_m).
Proof.
  intro h. split.
  - split; [now exists [PVar (lit "id")]|]. literal_pieces.
  - reflexivity.
  - reflexivity.
  - repeat constructor; cbn; intuition discriminate.
  - repeat constructor; discriminate.
  - right. repeat constructor; discriminate.
  - split; discriminate.
Qed.
Definition f_args (id : str) : list (op_param * option value) := [(x_id, Some (x_value id))].
Lemma f_callable id : callable x_ctx f_m (f_args id).
Proof.
  split.
  - split; [reflexivity|]. repeat constructor; cbn; easy.
  - split; [discriminate|]. repeat constructor; discriminate.
  - intros u p q hs [= <- <- <-] n. discriminate.
Qed.
Definition f_ep (id : str) : episode (N * list N) nat := ep_of f_op f_pieces (lit "get") f_m x_no_hooks (x_ops false false (x_resp 200)) (f_args id).

Lemma f_proper id : valid_str id -> proper_texts (f_args id).
Proof.
  intro Hv. split; [|intros kv (nv & ps & [] & _)].
  intros p v [E|[]] _. injection E as <- <-. exact Hv.
Qed.
Lemma same_request : exists (e e' : episode (N * list N) nat) q, happens e /\ happens e'
  /\ first_request (e_trace e) q /\ first_request (e_trace e') q /\ e_client e' = e_client e
  /\ url_kept (e_client e) (e_path e) (e_args e) /\ url_kept (e_client e') (e_path e') (e_args e')
  /\ proper_texts (e_args e) /\ proper_texts (e_args e') /\ op_id (e_op e) <> op_id (e_op e') /\ e_path e <> e_path e'.
Proof.
  exists (f_ep (lit "v1x0")), j_ep, j_request.
  split; [apply ep_of_happens; [apply f_generated|apply f_callable]|].
  split; [apply ep_of_happens; [apply j_generated|apply j_callable]|].
  split; [vm_compute; eexists; right; right; eexists; reflexivity|].
  split; [vm_compute; eexists; right; right; eexists; reflexivity|].
  split; [reflexivity|]. split; [intros val _; now exists []|]. split; [intros val _; now exists []|].
  split; [apply f_proper; all_chars|].
  split; [split; [intros p v []|intros kv (nv & ps & [] & _)]|].
  split; discriminate.
Qed.

(** A mock of /r-{id}/{n}. *)
Definition f_mixed : list piece := map PLit (lit "/r-") ++ [PVar (lit "id"); PLit (ch "/"); PVar (lit "n")].
Definition f_mock : op_method := k_method [CConst (lit "/r-"); CParam (lit "id"); CConst (lit "/"); CParam (lit "n")] [lit "id"; lit "n"].
Lemma f_mixed_strict : strict f_mixed.
Proof. split; [now exists (map PLit (lit "r-") ++ [PVar (lit "id"); PLit (ch "/"); PVar (lit "n")])|]. literal_pieces. Qed.
Lemma f_mixed_plain : plain_template f_mixed.
Proof.
  intros c Hc. vm_compute in Hc.
  repeat (destruct Hc as [Hc|Hc]; [first [discriminate Hc | injection Hc as <-; intro Hi; vm_compute in Hi; intuition discriminate]|]).
  easy.
Qed.
Lemma f_mixed_literals : plain_literals f_mixed.
Proof.
  intros c Hc. vm_compute in Hc. repeat (destruct Hc as [Hc|Hc]; [first [discriminate Hc | injection Hc as <-; reflexivity]|]). easy.
Qed.
Lemma l_literals : plain_literals l_pieces.
Proof.
  intros c Hc. vm_compute in Hc. repeat (destruct Hc as [Hc|Hc]; [first [discriminate Hc | injection Hc as <-; reflexivity]|]). easy.
Qed.
Lemma f_mixed_vars : NoDup (vars f_mixed).
Proof. repeat constructor; vm_compute; intuition discriminate. Qed.
Lemma f_mock_ok : httpmock_method unicode15 y_types f_mock = Ok (k_mock f_mock).
Proof. apply k_is_ok. vm_compute. reflexivity. Qed.

(** A document with PUT /items/{id}, and GET and PUT /{id}. *)
Definition f_doc : openapi := OpenApi (lit "3.0.3") (lit "F") None None (lit "1")
  [(show x_pieces, Item (y_no_ops [] None (Some x_op))); (show f_pieces, Item (y_no_ops [] (Some f_op) (Some f_op)))] x_comps [].
Definition f_doc_op : doc_op := DocOp 0 (show x_pieces) Put x_op [].
Lemma f_strict : strict f_pieces.
Proof. split; [now exists [PVar (lit "id")]|]. literal_pieces. Qed.
Lemma f_paths a : in_document f_doc a -> do_path a = show x_pieces \/ do_path a = show f_pieces.
Proof.
  intros (i & E & _ & _). destruct (do_index a) as [|[|k]]; cbn [nth_error oa_paths f_doc] in E; [| |destruct k; discriminate E]; injection E as <- _; auto.
Qed.
Lemma f_unambiguous : unambiguous f_doc.
Proof.
  intros a b ps ps' Ha Hb _ Hs Hs' Ea Eb HF.
  apply strict_lax in Hs as (Hs & _), Hs' as (Hs' & _). pose proof (proj1 (proj1 (strict_lax _) x_strict)) as Hx. pose proof (proj1 (proj1 (strict_lax _) f_strict)) as Hf.
  destruct (f_paths a Ha) as [A|A], (f_paths b Hb) as [B|B]; try congruence; exfalso;
    rewrite A in Ea; rewrite B in Eb; symmetry in Ea, Eb; apply show_inj in Ea, Eb; auto; subst ps ps';
    vm_compute in HF; inversion HF as [|? ? ? ? _ H1]; subst; inversion H1 as [|? ? ? ? _ H2]; subst; inversion H2.
Qed.
Lemma f_calls : call_of f_doc f_doc_op v_first /\ call_of f_doc f_doc_op v_second.
Proof. split; (split; [now exists (y_no_ops [] None (Some x_op))|reflexivity..]). Qed.

(** What a request tells of the operation that was called (C100). *)
From Verif Require Import Base Utf8 SerdeModel OasModel TemplateSpec EncodeModel EncodeSpec MethodModel OpModel RunModel RequestSpec SanitizeModel
  DocSpec TemplateModel MockModel MockSpec MockApartSpec GenerateModel GenerateSpec RouteSpec RouteProofs UnicodeProofs ExampleData ExampleGenerate ExampleMock ExampleApart ExampleTold ExampleRoute.
Local Open Scope N_scope.

(** Calls that send the same request at the same base URL are of operations with the same HTTP method whose paths have
    as many segments, each with a text in common with the other. *)
Theorem C100_told_partial : forall V W (e e' : episode V W), happens e -> happens e' -> forall q,
  first_request (e_trace e) q -> first_request (e_trace e') q -> c_base_url (e_client e') = c_base_url (e_client e) ->
  url_kept (e_client e) (e_path e) (e_args e) -> url_kept (e_client e') (e_path e') (e_args e') ->
  proper_texts (e_args e) -> proper_texts (e_args e') ->
  m_method (e_method e) = m_method (e_method e') /\ Forall2 overlap (segments (e_path e)) (segments (e_path e')).
Proof. exact operation_told. Qed.
Print Assumptions C100_told_partial.

Example C100_told_ex : happens v_first /\ happens v_second
  /\ first_request (e_trace v_first) (x_request x_args_mock) /\ first_request (e_trace v_second) (x_request x_args_mock)
  /\ url_kept x_ctx x_pieces x_args_mock /\ url_kept x_ctx x_pieces v_args /\ proper_texts x_args_mock /\ proper_texts v_args
  /\ ~ Forall2 overlap (segments x_pieces) (segments f_pieces).
Proof.
  split; [exact (proj1 v_happens)|]. split; [exact (proj2 v_happens)|]. split; [exact (proj1 v_requests)|]. split; [exact (proj2 v_requests)|].
  split; [apply x_kept|]. split; [apply x_kept|]. split; [apply x_proper|]. split; [exact v_proper|].
  intro H. vm_compute in H. inversion H as [|? ? ? ? _ H1]; subst. inversion H1 as [|? ? ? ? _ H2]; subst. inversion H2.
Qed.

(** In a document without operations that have the method and a path in common, the request tells the operation. *)
Theorem C100_document : forall d V W (e e' : episode V W) a b, NoDup (map fst (oa_paths d)) -> unambiguous d ->
  call_of d a e -> call_of d b e' -> happens e -> happens e' ->
  forall q, first_request (e_trace e) q -> first_request (e_trace e') q -> c_base_url (e_client e') = c_base_url (e_client e) ->
  url_kept (e_client e) (e_path e) (e_args e) -> url_kept (e_client e') (e_path e') (e_args e') ->
  proper_texts (e_args e) -> proper_texts (e_args e') -> a = b.
Proof. exact document_told. Qed.
Print Assumptions C100_document.

(** PUT /items/{id} and PUT /{id}; the calls are those of C100_told_ex. *)
Example C100_document_ex : NoDup (map fst (oa_paths f_doc)) /\ unambiguous f_doc
  /\ call_of f_doc f_doc_op v_first /\ call_of f_doc f_doc_op v_second
  /\ in_document f_doc (DocOp 1 (show f_pieces) Put f_op []) /\ f_doc_op <> DocOp 1 (show f_pieces) Put f_op [].
Proof.
  split; [repeat constructor; vm_compute; intuition discriminate|]. split; [exact f_unambiguous|].
  split; [exact (proj1 f_calls)|]. split; [exact (proj2 f_calls)|].
  split; [now exists (y_no_ops [] (Some f_op) (Some f_op))|discriminate].
Qed.

(** That is all that can be said: operations with such paths have arguments for which the paths are the same. *)
Theorem C100_share_iff : forall ps ps', NoDup (vars ps) -> NoDup (vars ps') -> plain_literals ps -> plain_literals ps' ->
  (share_path ps ps' <-> Forall2 overlap (segments ps) (segments ps')).
Proof. exact share_iff. Qed.
Print Assumptions C100_share_iff.

(** /v-{a}/x{b}y and /{c}.json/x1y share /v-.json/x1y; /v-{a} and /w-{c} share nothing. *)
Example C100_share_iff_ex :
  let ps := map PLit (lit "/v-") ++ [PVar (lit "a"); PLit (ch "/"); PLit (ch "x"); PVar (lit "b"); PLit (ch "y")] in
  let ps' := [PLit (ch "/"); PVar (lit "c")] ++ map PLit (lit ".json/x1y") in
  NoDup (vars ps) /\ NoDup (vars ps') /\ Forall2 overlap (segments ps) (segments ps')
  /\ path_for ps (fun n => if str_eqb n (lit "a") then lit ".json" else lit "1") = path_for ps' (fun _ => lit "v-")
  /\ ~ overlap (map PLit (lit "v-") ++ [PVar (lit "a")]) (map PLit (lit "w-") ++ [PVar (lit "c")]).
Proof.
  split; [repeat constructor; vm_compute; intuition discriminate|]. split; [repeat constructor; vm_compute; intuition discriminate|].
  split; [|split; [vm_compute; reflexivity|]].
  - repeat constructor.
    + apply (ov_both _ _ (lit "v-") (lit ".json")); [discriminate..|left; reflexivity|right; reflexivity].
    + apply (ov_right _ _ (fun _ => lit "1")); [discriminate|reflexivity|reflexivity].
  - intro H. inversion H; try discriminate. match goal with K : lead _ = _ \/ _ |- _ => destruct K; discriminate end.
Qed.

(** For paths whose segments are constants or placeholders: as many segments, and the same constants where both have one. *)
Theorem C100_whole_iff : forall ps ps', whole_segments ps -> whole_segments ps' ->
  (Forall2 overlap (segments ps) (segments ps') <-> ~ apart ps ps').
Proof. exact whole_overlap. Qed.
Print Assumptions C100_whole_iff.

Example C100_whole_iff_ex : whole_segments k_pieces /\ whole_segments l_pieces /\ ~ apart k_pieces l_pieces
  /\ path_for k_pieces (fun n => if str_eqb n (lit "id") then lit "all" else lit "a b") = lit "/v/all/a%20b"
  /\ path_for l_pieces (fun _ => lit "a b") = lit "/v/all/a%20b".
Proof.
  split; [exact k_whole|]. split; [exact l_whole|]. split; [exact kl_not_apart|]. split; vm_compute; reflexivity.
Qed.

(** The full claim is false: GET /v1x0 is sent by the operation of this path and by the one of /{id}. *)
Theorem C100_refuted : exists (e e' : episode (N * list N) nat) q, happens e /\ happens e'
  /\ first_request (e_trace e) q /\ first_request (e_trace e') q /\ e_client e' = e_client e
  /\ url_kept (e_client e) (e_path e) (e_args e) /\ url_kept (e_client e') (e_path e') (e_args e')
  /\ proper_texts (e_args e) /\ proper_texts (e_args e') /\ op_id (e_op e) <> op_id (e_op e') /\ e_path e <> e_path e'.
Proof. exact same_request. Qed.
Print Assumptions C100_refuted.

(** The same for mocks (C97), for all paths, not only those whose segments are constants or placeholders. *)
Theorem C97_elsewhere_partial : forall V W (e : episode V W), happens e -> forall q, first_request (e_trace e) q ->
  url_kept (e_client e) (e_path e) (e_args e) -> proper_texts (e_args e) ->
  forall U types m o ps, httpmock_method U types m = Ok o ->
  strict ps -> parse (show ps) = Ok (m_path m) -> NoDup (vars ps) -> plain_template ps ->
  m_method m <> m_method (e_method e) \/ ~ Forall2 overlap (segments ps) (segments (e_path e)) ->
  forall calls es json_is r, when_calls o calls = Some es -> seen (c_base_url (e_client e)) q r -> matched json_is es r = false.
Proof. exact mock_not_overlapping. Qed.
Print Assumptions C97_elsewhere_partial.

(** The mock of /r-{id}/{n}, and the call of /items/{id}. *)
Example C97_elsewhere_ex :
  happens (x_ep x_no_hooks (x_ops false false (x_resp 200)) x_args_mock)
  /\ first_request (e_trace (x_ep x_no_hooks (x_ops false false (x_resp 200)) x_args_mock)) (x_request x_args_mock)
  /\ url_kept x_ctx x_pieces x_args_mock /\ proper_texts x_args_mock
  /\ httpmock_method unicode15 y_types f_mock = Ok (k_mock f_mock) /\ strict f_mixed /\ parse (show f_mixed) = Ok (m_path f_mock)
  /\ NoDup (vars f_mixed) /\ plain_template f_mixed /\ ~ Forall2 overlap (segments f_mixed) (segments x_pieces).
Proof.
  refine (conj (x_happens _ _ _ x_callable_mock) (conj x_first_mock (conj (x_kept _) (conj x_proper
    (conj f_mock_ok (conj f_mixed_strict (conj eq_refl (conj f_mixed_vars (conj f_mixed_plain _))))))))).
  intro H. vm_compute in H. inversion H as [|? ? ? ? _ H1]; subst. inversion H1 as [|? ? ? ? H2 _]; subst.
  inversion H2; try discriminate.
  all: first [match goal with K : expand _ _ = expand _ _ |- _ => vm_compute in K; discriminate end
    | match goal with K : lead _ = _ \/ _ |- _ => destruct K; discriminate end | contradiction].
Qed.

Theorem C97_overlap_iff : forall U types m m' o o' ps ps', httpmock_method U types m = Ok o -> httpmock_method U types m' = Ok o' ->
  strict ps -> parse (show ps) = Ok (m_path m) -> NoDup (vars ps) -> plain_template ps -> plain_literals ps ->
  strict ps' -> parse (show ps') = Ok (m_path m') -> NoDup (vars ps') -> plain_template ps' -> plain_literals ps' ->
  exists es es', when_calls o [] = Some es /\ when_calls o' [] = Some es'
  /\ forall json_is, (exists r, matched json_is es r = true /\ matched json_is es' r = true)
     <-> m_method m = m_method m' /\ Forall2 overlap (segments ps) (segments ps').
Proof. exact mocks_overlap_iff. Qed.
Print Assumptions C97_overlap_iff.

(** The mocks of /r-{id}/{n} and of /v/all/{k}: no common request.  That of /r-{id}/{n} has the same requests as itself, say. *)
Example C97_overlap_iff_ex :
  httpmock_method unicode15 y_types f_mock = Ok (k_mock f_mock) /\ httpmock_method unicode15 y_types l_m = Ok (k_mock l_m)
  /\ (strict f_mixed /\ parse (show f_mixed) = Ok (m_path f_mock) /\ NoDup (vars f_mixed) /\ plain_template f_mixed /\ plain_literals f_mixed)
  /\ (strict l_pieces /\ parse (show l_pieces) = Ok (m_path l_m) /\ NoDup (vars l_pieces) /\ plain_template l_pieces /\ plain_literals l_pieces)
  /\ ~ Forall2 overlap (segments f_mixed) (segments l_pieces) /\ Forall2 overlap (segments f_mixed) (segments f_mixed).
Proof.
  split; [exact f_mock_ok|]. split; [exact l_ok|].
  split; [split; [exact f_mixed_strict|]; split; [reflexivity|]; split; [exact f_mixed_vars|]; split; [exact f_mixed_plain|exact f_mixed_literals]|].
  split; [split; [exact l_strict|]; split; [exact l_parse|]; split; [exact l_vars|]; split; [exact l_plain|exact l_literals]|].
  split.
  - intro H. vm_compute in H. inversion H as [|? ? ? ? _ H1]; subst. inversion H1 as [|? ? ? ? _ H2]; subst. inversion H2 as [|? ? ? ? _ H3]; subst. inversion H3.
  - apply share_iff; [exact f_mixed_vars..|exact f_mixed_literals|exact f_mixed_literals|].
    exists (fun _ => lit "1"), (fun _ => lit "1"). split; [|split; [|reflexivity]]; intros n _; repeat constructor; reflexivity.
Qed.

(** C96: what a mock answers is what the client returns. *)
From Verif Require Import Base Utf8 SerdeModel OasModel HeaderModel ClientModel ClientSpec TemplateModel TemplateSpec MethodModel
  OpModel RunModel BuilderModel ResponseSpec RequestSpec DocSpec SanitizeModel GenerateModel MockModel MockSpec
  MockAnswerModel MockAnswerSpec MockAnswerProofs ExampleData ExampleGenerate ExampleMock ExampleAnswer.
Local Open Scope N_scope.

(** What arrives: a status that the documented response stands for, and the JSON of the value, labelled so, if the response has a body. *)
Theorem C96_sent : forall V W (e : episode V W) U types o, httpmock_method U types (e_method e) = Ok o ->
  forall rsp th status v a r, In (rsp, th) (combine (m_responses (e_method e)) (mo_then_methods o)) -> then_answer th status v = Some a ->
  arrives a r ->
  allowed (o_status rsp) (r_status r)
  /\ match v with
     | None => (o_typ rsp = RNone \/ o_typ rsp = RUpgrade) /\ delivers r []
     | Some w => (o_typ rsp = RRaw \/ exists t, o_typ rsp = RType t)
         /\ exists j, v_json w = Some j /\ delivers r j /\ In (utf8 (lit "application/json")) (h_values (lit "content-type") (r_headers r))
     end.
Proof. exact @mock_sent. Qed.
Print Assumptions C96_sent.

(** The client returns the value that the mock was told, with its status and headers, or returns it as the error of the operation.
    Missing: the statuses excluded by [told_status], see below.
    The example is one of [C96_sent] as well. *)
Theorem C96_received_partial : forall V W (e : episode V W), happens e -> forall U types o, httpmock_method U types (e_method e) = Ok o ->
  codes_valid (e_op e) ->
  forall rsp th status v a r, In (rsp, th) (combine (m_responses (e_method e)) (mo_then_methods o)) -> then_answer th status v = Some a ->
  told_status (e_op e) (o_status rsp) (an_status a) -> o_typ rsp <> RUpgrade ->
  (exists x, holds (e_decode e) (o_typ rsp) v x) ->
  answered e r -> arrives a r ->
  exists x, holds (e_decode e) (o_typ rsp) v x /\ received r x (e_final e).
Proof. exact @mock_received. Qed.
Print Assumptions C96_received_partial.

Example C96_received_ex :
  happens a_ep /\ httpmock_method unicode15 y_types (e_method a_ep) = Ok (k_mock x_m) /\ codes_valid (e_op a_ep)
  /\ In (OpResponse (SCode 404) (RType 1), a_then x_m 2) (combine (m_responses (e_method a_ep)) (mo_then_methods (k_mock x_m)))
  /\ then_answer (a_then x_m 2) 0 (Some (x_value (lit "b"))) = Some (a_answer 404)
  /\ told_status (e_op a_ep) (SCode 404) 404 /\ (exists x, holds (e_decode a_ep) (RType 1) (Some (x_value (lit "b"))) x)
  /\ answered a_ep (a_resp 404) /\ arrives (a_answer 404) (a_resp 404)
  /\ e_final a_ep = Returned (RErr (ErrorResponse (RValue (IVal (1, lit "{}")) 404 (r_headers (a_resp 404))))).
Proof.
  split; [exact a_happens|]. split; [exact x_mock_ok|]. split; [exact a_codes|]. split; [exact a_in|]. split; [exact a_told|].
  split; [right; left; split; [vm_compute; discriminate|reflexivity]|]. split; [now apply a_holds|].
  split; [exact a_answered|]. split; [apply a_arrives|]. vm_compute. reflexivity.
Qed.

(** With a server that gives the answer to what the mock matches, and a mock restricted to arguments of the call, every such call
    returns what the mock was told. *)
Theorem C96_mocked : forall V W (e : episode V W), happens e -> forall U types o, httpmock_method U types (e_method e) = Ok o ->
  codes_valid (e_op e) ->
  forall json_is cs rsp th status v a,
  has_pre_hook_async (e_hooks e) = false -> has_post_hook_async (e_hooks e) = false ->
  encodable (e_args e) -> url_kept (e_client e) (e_path e) (e_args e) -> proper_texts (e_args e) ->
  NoDup (vars (e_path e)) -> plain_template (e_path e) ->
  incl cs (e_args e) -> Forall (mockable json_is (e_path e) (e_args e)) cs ->
  In (rsp, th) (combine (m_responses (e_method e)) (mo_then_methods o)) -> then_answer th status v = Some a ->
  told_status (e_op e) (o_status rsp) (an_status a) -> o_typ rsp <> RUpgrade ->
  (exists x, holds (e_decode e) (o_typ rsp) v x) ->
  exists es, when_calls o (map (fun c => (p_name (fst c), snd c)) cs) = Some es
  /\ (mock_server (c_base_url (e_client e)) json_is es a (e_world e) ->
      exists r x, arrives a r /\ holds (e_decode e) (o_typ rsp) v x /\ received r x (e_final e)).
Proof. exact @mocked. Qed.
Print Assumptions C96_mocked.

Example C96_mocked_ex :
  has_pre_hook_async (e_hooks a_ep) = false /\ has_post_hook_async (e_hooks a_ep) = false
  /\ encodable (e_args a_ep) /\ url_kept (e_client a_ep) (e_path a_ep) (e_args a_ep) /\ proper_texts (e_args a_ep)
  /\ NoDup (vars (e_path a_ep)) /\ plain_template (e_path a_ep)
  /\ Forall (mockable k_json (e_path a_ep) (e_args a_ep))
       [(x_id, Some (x_value (lit "a"))); (x_q, Some (x_value (lit "z=&"))); (x_body, Some (x_value (lit "b")))]
  /\ forall es, mock_server (c_base_url (e_client a_ep)) k_json es (a_answer 404) (e_world a_ep).
Proof.
  exact (conj eq_refl (conj eq_refl (conj a_encodable (conj (x_kept _) (conj x_proper (conj x_vars (conj x_plain (conj x_mockable a_server)))))))).
Qed.

(** An answer that is neither a success nor an error, of an operation without a default response, is unexpected whatever is documented ... *)
Theorem C96_other_status : forall V W (e : episode V W), happens e -> forall a r,
  (forall k, ~ In (OpResponse SDefault k) (m_responses (e_method e))) -> other_status (an_status a) -> answered e r -> arrives a r ->
  e_final e = Returned (RErr (UnexpectedResponse r)).
Proof. exact @mock_unexpected. Qed.
Print Assumptions C96_other_status.

Example C96_other_ex : happens a_moved /\ (forall k, ~ In (OpResponse SDefault k) (m_responses (e_method a_moved)))
  /\ other_status (an_status (a_answer 304)) /\ answered a_moved (a_resp 304) /\ arrives (a_answer 304) (a_resp 304).
Proof. exact a_moved_other. Qed.

(** ... so what [not_modified] of a mock is told is lost, ... *)
Theorem C96_redirect_refuted : exists (e : episode (N * list N) nat) o rsp th status v a r,
  happens e /\ httpmock_method unicode15 y_types (e_method e) = Ok o /\ codes_valid (e_op e)
  /\ In (rsp, th) (combine (m_responses (e_method e)) (mo_then_methods o)) /\ then_answer th status v = Some a
  /\ o_status rsp = SCode 304 /\ o_typ rsp <> RUpgrade /\ (exists x, holds (e_decode e) (o_typ rsp) v x)
  /\ answered e r /\ arrives a r /\ e_final e = Returned (RErr (UnexpectedResponse r)).
Proof. exact redirect_lost. Qed.
Print Assumptions C96_redirect_refuted.

(** ... and [default_response(200, value)] is read as the type of the documented successes. *)
Theorem C96_default_refuted : exists (e : episode (N * list N) nat) o rsp th status v a r,
  happens e /\ httpmock_method unicode15 y_types (e_method e) = Ok o /\ codes_valid (e_op e)
  /\ In (rsp, th) (combine (m_responses (e_method e)) (mo_then_methods o)) /\ then_answer th status v = Some a
  /\ o_status rsp = SDefault /\ an_status a = 200 /\ o_typ rsp <> RUpgrade /\ (exists x, holds (e_decode e) (o_typ rsp) v x)
  /\ answered e r /\ arrives a r
  /\ ~ exists x, holds (e_decode e) (o_typ rsp) v x /\ received r x (e_final e).
Proof. exact default_lost. Qed.
Print Assumptions C96_default_refuted.

(** Concrete answers of mocks. *)
From Verif Require Import Base Utf8 SerdeModel OasModel HeaderModel ClientModel ClientSpec TemplateModel TemplateSpec MethodModel
  OpModel RunModel BuilderModel ResponseSpec RequestSpec DocSpec SanitizeModel GenerateModel MockModel MockSpec
  MockAnswerModel MockAnswerSpec ExampleData ExampleGenerate ExampleMock.
Local Open Scope N_scope.

(** The answer with an empty object. *)
Definition a_answer (s : N) : mock_answer := MockAnswer s [(lit "content-type", lit "application/json")] (lit "{}").
Definition a_resp (s : N) : response :=
  Response s [(lit "content-type", [lit "application/json"])] [ROk (lit "{"); ROk (lit "}")] (RErr (RErr' (lit "no upgrade") None [])).
Lemma a_arrives s : arrives (a_answer s) (a_resp s).
Proof.
  split; [reflexivity|]. split.
  - exists [lit "{"; lit "}"]. split; reflexivity.
  - intros n t [[= <- <-]|[]]. vm_compute. left. reflexivity.
Qed.
Definition a_then (m : op_method) (k : nat) : then_method := nth k (mo_then_methods (k_mock m)) (ThenMethod [] (TsCode 0) TvNone).
Lemma a_holds t v : v_json v = Some (lit "{}") -> exists x, holds x_fs (RType t) (Some v) x.
Proof. intro E. exists (IVal (t, lit "{}")). eapply ho_typed; [exact E|reflexivity]. Qed.

(** [put_item], mocked with [not_found(value)]. *)
Definition a_ops (s : N) : world_ops nat := x_ops false false (a_resp s).
Definition a_ep : episode (N * list N) nat := x_ep x_no_hooks (a_ops 404) x_args_mock.
Lemma a_happens : happens a_ep.
Proof. apply x_happens, x_callable_mock. Qed.
Lemma a_codes : codes_valid x_op.
Proof. split; intros c r Hi; vm_compute in Hi; repeat (destruct Hi as [E|Hi]; [first [discriminate E|injection E as <- _; reflexivity]|]); easy. Qed.
Lemma a_in : In (OpResponse (SCode 404) (RType 1), a_then x_m 2) (combine (m_responses x_m) (mo_then_methods (k_mock x_m))).
Proof. vm_compute. do 2 right. left. reflexivity. Qed.
Lemma a_told : then_answer (a_then x_m 2) 0 (Some (x_value (lit "b"))) = Some (a_answer 404).
Proof. vm_compute. reflexivity. Qed.
Lemma a_answered : answered a_ep (a_resp 404).
Proof. split; [eexists; vm_compute; left; reflexivity|vm_compute; discriminate]. Qed.
Lemma a_encodable : encodable x_args_mock.
Proof.
  split; [|split; [|split]].
  - intros (ht & Hi & Hb). apply Hb. vm_compute in Hi. destruct Hi as [<-|[]]. apply Forall_forall. intros b Hin. vm_compute in Hin.
    repeat (destruct Hin as [<-|Hin]; [right; vm_compute; split; [discriminate|discriminate]|]). easy.
  - intros (v & E & _). vm_compute in E. discriminate E.
  - intros (v & E & Ej). vm_compute in E. injection E as <-. discriminate Ej.
  - intros (kv & Hi & E). vm_compute in Hi. destruct Hi as [<-|[]]. vm_compute in E. discriminate E.
Qed.
Lemma a_server es : mock_server (lit "https://x") k_json es (a_answer 404) (a_ops 404).
Proof. intros q s w _ _. exists (a_resp 404), (S w). split; [reflexivity|apply a_arrives]. Qed.

(** 304 of [moved], mocked with [not_modified(value)]. *)
Definition a_moved : episode (N * list N) nat := ep_of u_op u_pieces (lit "get") u_m x_no_hooks (a_ops 304) [].
Lemma a_moved_mock : httpmock_method unicode15 y_types u_m = Ok (k_mock u_m).
Proof. apply k_is_ok. vm_compute. reflexivity. Qed.
Lemma a_moved_other : happens a_moved /\ (forall k, ~ In (OpResponse SDefault k) (m_responses (e_method a_moved)))
  /\ other_status (an_status (a_answer 304)) /\ answered a_moved (a_resp 304) /\ arrives (a_answer 304) (a_resp 304).
Proof.
  split; [apply ep_of_happens; [apply u_generated|apply u_callable]|].
  split; [intros k Hi; vm_compute in Hi; repeat (destruct Hi as [E|Hi]; [discriminate E|]); easy|].
  split; [right; right; left; split; [vm_compute; discriminate|reflexivity]|].
  split; [split; [eexists; vm_compute; left; reflexivity|vm_compute; discriminate]|apply a_arrives].
Qed.
Lemma redirect_lost : exists (e : episode (N * list N) nat) o rsp th status v a r,
  happens e /\ httpmock_method unicode15 y_types (e_method e) = Ok o /\ codes_valid (e_op e)
  /\ In (rsp, th) (combine (m_responses (e_method e)) (mo_then_methods o)) /\ then_answer th status v = Some a
  /\ o_status rsp = SCode 304 /\ o_typ rsp <> RUpgrade /\ (exists x, holds (e_decode e) (o_typ rsp) v x)
  /\ answered e r /\ arrives a r /\ e_final e = Returned (RErr (UnexpectedResponse r)).
Proof.
  exists a_moved, (k_mock u_m), (OpResponse (SCode 304) (RType 2)), (a_then u_m 1), 0, (Some (x_value (lit "b"))), (a_answer 304), (a_resp 304).
  split; [apply ep_of_happens; [apply u_generated|apply u_callable]|]. split; [exact a_moved_mock|].
  split; [split; intros c r Hi; vm_compute in Hi; repeat (destruct Hi as [E|Hi]; [first [discriminate E|injection E as <- _; reflexivity]|]); easy|].
  split; [vm_compute; right; left; reflexivity|]. split; [vm_compute; reflexivity|].
  split; [reflexivity|]. split; [discriminate|]. split; [now apply a_holds|].
  split; [split; [eexists; vm_compute; left; reflexivity|vm_compute; discriminate]|]. split; [apply a_arrives|].
  vm_compute. reflexivity.
Qed.

(** GET /stat: a string for 2XX, an error otherwise; mocked with [default_response(200, error)]. *)
Definition d_op : operation := Operation (Some (lit "stat")) [] None None [] None
  (Some (Item (x_json (Ref (lit "#/components/schemas/Error"))))) [(ScRange 2, Item (x_json (Item x_string)))] [].
Definition d_pieces : list piece := map PLit (lit "/stat").
Definition d_m : op_method :=
  OpMethod (lit "stat") [] Get [CConst (lit "/stat")] None None []
    [OpResponse SDefault (RType 1); OpResponse (SRange 2) (RType 2)] None false.
Lemma d_generated : forall h, generated x_snake x_pascal x_ts x_comps d_op d_pieces (lit "get") [] h d_m (body_of h d_m).
Proof.
  intro h. split.
  - split; [now exists (map PLit (lit "stat"))|]. literal_pieces.
  - reflexivity.
  - reflexivity.
  - repeat constructor; cbn; intuition discriminate.
  - repeat constructor; discriminate.
  - right. repeat constructor; discriminate.
  - split; discriminate.
Qed.
Lemma d_callable : callable x_ctx d_m [].
Proof.
  split.
  - split; auto.
  - split; [discriminate|]. repeat constructor; discriminate.
  - intros u p q hs [= <- <- <-] n. discriminate.
Qed.
Lemma d_mock : httpmock_method unicode15 y_types d_m = Ok (k_mock d_m).
Proof. apply k_is_ok. vm_compute. reflexivity. Qed.
Lemma default_lost : exists (e : episode (N * list N) nat) o rsp th status v a r,
  happens e /\ httpmock_method unicode15 y_types (e_method e) = Ok o /\ codes_valid (e_op e)
  /\ In (rsp, th) (combine (m_responses (e_method e)) (mo_then_methods o)) /\ then_answer th status v = Some a
  /\ o_status rsp = SDefault /\ an_status a = 200 /\ o_typ rsp <> RUpgrade /\ (exists x, holds (e_decode e) (o_typ rsp) v x)
  /\ answered e r /\ arrives a r
  /\ ~ exists x, holds (e_decode e) (o_typ rsp) v x /\ received r x (e_final e).
Proof.
  exists (ep_of d_op d_pieces (lit "get") d_m x_no_hooks (a_ops 200) []), (k_mock d_m), (OpResponse SDefault (RType 1)), (a_then d_m 0), 200,
    (Some (x_value (lit "b"))), (a_answer 200), (a_resp 200).
  split; [apply ep_of_happens; [apply d_generated|apply d_callable]|]. split; [exact d_mock|].
  split; [split; intros c r Hi; vm_compute in Hi; repeat (destruct Hi as [E|Hi]; [first [discriminate E|injection E as <- _; reflexivity]|]); easy|].
  split; [vm_compute; left; reflexivity|]. split; [vm_compute; reflexivity|].
  split; [reflexivity|]. split; [reflexivity|]. split; [discriminate|]. split; [now apply a_holds|].
  split; [split; [eexists; vm_compute; left; reflexivity|vm_compute; discriminate]|]. split; [apply a_arrives|].
  intros (x & Hx & Hr).
  assert (Ef : e_final (ep_of d_op d_pieces (lit "get") d_m x_no_hooks (a_ops 200) [])
               = Returned (ROk (RValue (IVal (2, lit "{}")) 200 (r_headers (a_resp 200))))) by (vm_compute; reflexivity).
  rewrite Ef in Hr. inversion Hr as [_ E|]. subst x. inversion Hx as [t' v' j x' Hj Hd Et Ev Ex| |].
  change (x_fs 1 j = ROk (2, lit "{}")) in Hd. discriminate Hd.
Qed.

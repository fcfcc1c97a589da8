(** Two calls that send the same request, for C98. *)
From Verif Require Import Base Utf8 SerdeModel OasModel HeaderModel ClientModel TemplateModel TemplateSpec EncodeModel EncodeSpec QuerySpec
  MethodModel OpModel RunModel RequestSpec DocSpec MockModel MockSpec MockApartSpec ToldSpec ExampleData ExampleMock.
Local Open Scope N_scope.

(** Other values that are sent alike: another query argument of the same form, another body of the same JSON. *)
Definition v_args : list (op_param * option value) :=
  [(x_id, Some (x_value (lit "a"))); (x_q, Some (Value (lit "Z") (VSeq [VStr (lit "z=&")]) None []));
   (x_trace, Some (x_value (lit "t1"))); (x_body, Some (x_value (lit "c")))].
Definition v_first : episode (N * list N) nat := x_ep x_no_hooks (x_ops false false (x_resp 200)) x_args_mock.
Definition v_second : episode (N * list N) nat := x_ep x_no_hooks (x_ops false false (x_resp 404)) v_args.

Lemma v_callable : callable x_ctx x_m v_args.
Proof.
  apply x_callable_gen; [reflexivity|]. unfold v_args. repeat constructor; cbn; try discriminate.
Qed.
Lemma v_happens : happens v_first /\ happens v_second.
Proof. split; apply x_happens; [apply x_callable_mock|apply v_callable]. Qed.
Lemma v_requests : first_request (e_trace v_first) (x_request x_args_mock) /\ first_request (e_trace v_second) (x_request x_args_mock).
Proof.
  split; [apply x_first_mock|]. unfold v_second, x_request. vm_compute. eexists. right. right. eexists. reflexivity.
Qed.
Lemma v_proper : proper_texts v_args.
Proof.
  split.
  - intros p v Hin Hk. unfold v_args in Hin. repeat (destruct Hin as [Hin|Hin]; [injection Hin as <- <-|]); try discriminate Hk; [|easy].
    all_chars.
  - intros kv (nv & ps & Hin & E & Hkv). vm_compute in Hin. destruct Hin as [<-|[]]. vm_compute in E. injection E as <-.
    destruct Hkv as [<-|[]]. split; all_chars.
Qed.
Lemma v_one : one_each x_pieces.
Proof. apply Forall_forall. intros s Hs. vm_compute in Hs. repeat (destruct Hs as [<-|Hs]; [vm_compute; lia|]). easy. Qed.
Lemma v_simple : simple_queries x_args_mock /\ simple_queries v_args.
Proof.
  split; (split; [vm_compute; repeat constructor; intros []|]); intros p o r Hin Hk;
    unfold x_args_mock, v_args in Hin; repeat (destruct Hin as [Hin|Hin]; [injection Hin as <- <-|]); try discriminate Hk; try easy;
    exists [lit "z=&"]; cbn [query_texts v_serde x_value].
  - apply sf_scalar, st_str.
  - apply (sf_array [VStr (lit "z=&")] [Some (lit "z=&")]). repeat constructor.
Qed.
Lemma v_header : own_header (m_params x_m) x_trace.
Proof.
  split; [vm_compute; intuition discriminate|]. intros p' Hin (r & Hk) _. vm_compute in Hin.
  repeat (destruct Hin as [<-|Hin]; [first [reflexivity | discriminate Hk]|]). easy.
Qed.

Definition v_accept : op_param := OpParam (lit "accept") (lit "Accept") None (PType 2) (KHeader false).
Lemma accept_alike : exists p v, p_kind p = KHeader false /\ lower_name (p_api_name p) = lit "accept"
  /\ forall version key n, header_values version [] false key (RType 1) RNone [(p, Some v)] n
     = header_values version [] false key (RType 1) RNone [(p, None)] n.
Proof.
  exists v_accept, (x_value (lit "application/json")). split; [reflexivity|]. split; [reflexivity|]. intros version key n.
  unfold header_values, own_values, other_values. f_equal.
  change (present_headers [(v_accept, Some (x_value (lit "application/json")))]) with [(lit "Accept", lit "application/json")].
  change (present_headers [(v_accept, None)]) with (@nil (str * str)). cbn [flat_map app fst snd].
  change (lower_name (lit "Accept")) with (lit "accept").
  destruct (str_eqb n (lit "api-version")) eqn:E1.
  - apply str_eqb_spec in E1. subst n. reflexivity.
  - destruct (str_eqb n (lit "accept")) eqn:E2.
    + apply str_eqb_spec in E2. subst n. reflexivity.
    + assert (str_eqb (lit "accept") n = false) as ->; [|reflexivity].
      destruct (str_eqb (lit "accept") n) eqn:E3; auto. apply str_eqb_spec in E3. subst n. now rewrite str_eqb_refl in E2.
Qed.

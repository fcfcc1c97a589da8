(** The consequences of [DocCor] for episodes. *)
From Verif Require Import Base Utf8 OasModel SerdeModel HeaderModel HeaderProofs ClientModel TemplateModel TemplateSpec
  MethodModel OpModel RunModel RefSpec RefProofs ResponseSpec ResponseProofs RequestSpec RequestProofs
  RunProofs ParamSpec ParamProofs DocSpec DocProofs DocCor.
Local Open Scope N_scope.

Section Ep.
Context {V W : Type} (e : episode V W).
Hypothesis H : happens e.
Let G := h_generated e H.
Let C := h_callable e H.
Let R := h_run e H.

Lemma ep_header_values q n : first_request (e_trace e) q -> n <> lit "authorization" ->
  h_values n (q_headers q) =
  header_values (c_api_version (e_client e)) [] (m_websocket (e_method e)) (c_websocket_key (e_client e))
    (sb_success (e_code e)) (sb_error (e_code e)) (e_args e) n.
Proof. intros Hf Hn. exact (first_headers G C _ _ _ _ _ _ R Hf Hn). Qed.

Lemma ep_header_once q p v : first_request (e_trace e) q -> m_websocket (e_method e) = false ->
  In (p, Some v) (e_args e) -> (exists r, p_kind p = KHeader r) ->
  lower_name (p_api_name p) <> lit "api-version" ->
  (forall p' v', In (p', Some v') (e_args e) -> (exists r, p_kind p' = KHeader r) ->
     lower_name (p_api_name p') = lower_name (p_api_name p) -> p' = p) ->
  h_values (lower_name (p_api_name p)) (q_headers q) = [utf8 (v_text v)].
Proof. intros. eapply header_sent_once with (p := p); eauto; first [exact G|exact C|exact R]. Qed.

Lemma ep_header_absent q n : first_request (e_trace e) q -> m_websocket (e_method e) = false ->
  (forall p v, In (p, Some v) (e_args e) -> (exists r, p_kind p = KHeader r) -> lower_name (p_api_name p) <> n) ->
  ~ In n [lit "api-version"; lit "accept"; lit "content-type"; lit "authorization"] ->
  h_values n (q_headers q) = [].
Proof. intros. eapply header_not_sent; eauto; first [exact G|exact C|exact R]. Qed.

Lemma ep_version q : first_request (e_trace e) q ->
  (forall p v, In (p, Some v) (e_args e) -> (exists r, p_kind p = KHeader r) -> lower_name (p_api_name p) <> lit "api-version") ->
  h_values (lit "api-version") (q_headers q) = [utf8 (c_api_version (e_client e))].
Proof. intros. eapply version_sent; eauto; first [exact G|exact C|exact R]. Qed.

Lemma ep_version_always q : first_request (e_trace e) q ->
  In (utf8 (c_api_version (e_client e))) (h_values (lit "api-version") (q_headers q)).
Proof.
  intros Hf. rewrite (ep_header_values q _ Hf) by discriminate. unfold header_values, own_values.
  rewrite str_eqb_refl. cbn [app]. now left.
Qed.

Lemma ep_illegal_header : illegal_header (e_args e) ->
  e_final e = Returned (RErr (InvalidRequest (lit "failed to parse header value"))) /\
  e_trace e = [] /\ e_end e = e_start e.
Proof.
  intro Hi. pose proof (refused_header (fs := e_decode e) (ops := e_world e) G C (e_start e) Hi) as E. rewrite R in E.
  now injection E.
Qed.

Lemma ep_body q ct v : first_request (e_trace e) q -> body_argument (e_args e) = Some (ct, v) ->
  (exists b, body_encoded ct v b /\ q_body q = Some b) /\
  (given_values e (lit "content-type") = [] ->
   h_values (lit "content-type") (q_headers q) = [utf8 (media_of ct)]).
Proof. intros. eapply body_sent; eauto; first [exact G|exact C|exact R]. Qed.

Lemma ep_no_body q : first_request (e_trace e) q -> body_argument (e_args e) = None ->
  q_body q = None /\
  (given_values e (lit "content-type") = [] -> h_values (lit "content-type") (q_headers q) = []).
Proof. intros. eapply no_body_sent; eauto; first [exact G|exact C|exact R]. Qed.

Lemma ep_overridden q n : first_request (e_trace e) q -> m_websocket (e_method e) = false ->
  given_values e n <> [] -> h_values n (q_headers q) = given_values e n.
Proof.
  intros Hf Hw Hg. pose proof (own_headers _ _ _ _ _ _ _ _ _ _ _ _ _ _ _ _ _ _ _ _ _ G C R q n Hf Hg) as E.
  rewrite E, Hw. apply app_nil_r.
Qed.

Lemma ep_bad_form : ~ illegal_header (e_args e) -> bad_form (e_args e) ->
  e_final e = Returned (RErr (InvalidRequest (lit "failed to serialize body"))) /\
  e_trace e = [] /\ e_end e = e_start e.
Proof.
  intros Hi Hb. pose proof (refused_form (fs := e_decode e) (ops := e_world e) G C (e_start e) Hi Hb) as E. rewrite R in E.
  now injection E.
Qed.

Lemma ep_bad_json : ~ illegal_header (e_args e) -> bad_json (e_args e) ->
  (exists x, e_final e = Returned (RErr (CommunicationError x))) /\ e_trace e = [] /\ e_end e = e_start e.
Proof.
  intros Hi Hb. destruct (refused_json (fs := e_decode e) (ops := e_world e) G C (e_start e) Hi Hb) as (x & E). rewrite R in E.
  injection E as -> -> ->. eauto.
Qed.

Lemma ep_accept q : first_request (e_trace e) q -> given_values e (lit "accept") = [] ->
  h_values (lit "accept") (q_headers q) =
  if wants_json (sb_success (e_code e)) (sb_error (e_code e)) then [utf8 (lit "application/json")] else [].
Proof. intros. eapply accept_sent; eauto; first [exact G|exact C|exact R]. Qed.

Lemma ep_call t : documents e t -> exists out, e_final e = Returned out /\
  ((exists x, refused (e_client e) (e_path e) (e_args e) x /\ out = RErr x /\ e_trace e = [] /\ e_end e = e_start e) \/
   (encodable (e_args e) /\
    exists q, is_request (e_client e) (e_method e) (sb_success (e_code e)) (sb_error (e_code e)) (e_path e) (e_args e) q /\
      call (e_hooks e) (e_world e) (interpreted (e_decode e) (m_websocket (e_method e)) t) q (e_start e) out
        (e_trace e) (e_end e))).
Proof. intros T. eapply run_call; eauto; first [exact G|exact C|exact R]. Qed.

Lemma ep_vetoed : (forall q w, exists msg w', w_pre_async (e_world e) q w = (RErr msg, w')) ->
  has_pre_hook_async (e_hooks e) = true ->
  sends (e_trace e) = [] /\
  exists x, e_final e = Returned (RErr x) /\
    (refused (e_client e) (e_path e) (e_args e) x \/ exists msg, x = PreHookError msg).
Proof.
  intros Hv Ha. destruct (generated_table G) as (t & T). destruct (ep_call t T) as (out & -> & D).
  destruct D as [(x & Hr & -> & -> & _)|(_ & q & _ & Hc)].
  - split; auto. exists x. auto.
  - inversion Hc as [msg w' Ha' Hp Eo Et|q' tr w1 res w2 msg w' Hp|q' tr1 w1 res w2 tr2 w' out' Hp]; subst.
    + split; eauto. rewrite sends_app. unfold pre_events. destruct (has_pre_hook _); reflexivity.
    + inversion Hp as [Hn|q1 w3 _ Hok]; subst; [congruence|].
      destruct (Hv q (after_pre (e_hooks e) (e_world e) q (e_start e))) as (m' & w4 & E). congruence.
    + inversion Hp as [Hn|q1 w3 _ Hok]; subst; [congruence|].
      destruct (Hv q (after_pre (e_hooks e) (e_world e) q (e_start e))) as (m' & w4 & E). congruence.
Qed.

Lemma ep_overruled : (forall r w, exists msg w', w_post_async (e_world e) r w = (Some msg, w')) ->
  has_post_hook_async (e_hooks e) = true -> sends (e_trace e) <> [] ->
  exists msg, e_final e = Returned (RErr (PostHookError msg)).
Proof.
  intros Hv Ha Hs. destruct (generated_table G) as (t & T). destruct (ep_call t T) as (out & -> & D).
  destruct D as [(x & Hr & -> & E & _)|(_ & q & _ & Hc)].
  - now rewrite E in Hs.
  - inversion Hc as [msg w' Ha' Hp Eo Et|q' tr w1 res w2 msg w' Hp|q' tr1 w1 res w2 tr2 w' out' Hp He Ho]; subst.
    + match goal with Et : pre_events _ _ ++ _ = _ |- _ => rewrite <- Et, sends_app in Hs end.
      unfold pre_events in Hs. destruct (has_pre_hook _); easy.
    + eauto.
    + inversion Ho as [Hn|w3 _ Hok]; subst; [congruence|].
      destruct (Hv res (after_post (e_hooks e) (e_world e) res w2)) as (m' & w4 & E). congruence.
Qed.

Lemma ep_at_most_one : (length (sends (e_trace e)) <= 1)%nat.
Proof. eapply at_most_one; first [exact G|exact C|exact R]. Qed.

Lemma ep_exactly_one :
  length (sends (e_trace e)) = 1%nat \/
  (exists x, refused (e_client e) (e_path e) (e_args e) x /\ e_final e = Returned (RErr x) /\ e_trace e = []) \/
  (has_pre_hook_async (e_hooks e) = true /\ exists msg, e_final e = Returned (RErr (PreHookError msg))).
Proof. eapply exactly_one; first [exact G|exact C|exact R]. Qed.

Lemma ep_determined q res : has_pre_hook_async (e_hooks e) = false -> In (ESend q res) (e_trace e) ->
  is_request (e_client e) (e_method e) (sb_success (e_code e)) (sb_error (e_code e)) (e_path e) (e_args e) q.
Proof. eapply sends_determined; first [exact G|exact C|exact R]. Qed.

Lemma ep_returns : exists out, e_final e = Returned out.
Proof.
  destruct (never_stuck (fs := e_decode e) (ops := e_world e) G C (e_start e)) as (out & tr & w' & E).
  rewrite R in E. injection E as -> _ _. eauto.
Qed.

Lemma ep_success t r k : documents e t -> answered e r ->
  200 <= r_status r < 300 -> lookup t (r_status r) = Some k ->
  exists out, e_final e = Returned out /\ decoded (e_decode e) r k out.
Proof. intros T ((q & Hi) & Hn) Hs Hl. eapply success_decoded; eauto; first [exact G|exact C|exact R]. Qed.

Lemma ep_error t r k : documents e t -> answered e r ->
  400 <= r_status r < 600 -> lookup t (r_status r) = Some k -> k <> RUpgrade ->
  (exists v, decoded (e_decode e) r k (ROk v) /\ e_final e = Returned (RErr (ErrorResponse v))) \/
  (exists x, decoded (e_decode e) r k (RErr x) /\ e_final e = Returned (RErr x)).
Proof. intros T ((q & Hi) & Hn) Hs Hl. eapply error_decoded; eauto; first [exact G|exact C|exact R]. Qed.

Lemma ep_other t r k : documents e t -> answered e r ->
  r_status r < 200 \/ 300 <= r_status r < 400 \/ 600 <= r_status r -> r_status r <> 101 ->
  kind_at SDefault t = Some k -> k <> RUpgrade ->
  (exists v, decoded (e_decode e) r k (ROk v) /\ e_final e = Returned (RErr (ErrorResponse v))) \/
  (exists x, decoded (e_decode e) r k (RErr x) /\ e_final e = Returned (RErr x)).
Proof. intros T ((q & Hi) & Hn) Hs Hl. eapply other_decoded; eauto; first [exact G|exact C|exact R]. Qed.

Lemma ep_other_undecoded t r : documents e t -> answered e r ->
  r_status r < 200 \/ 300 <= r_status r < 400 \/ 600 <= r_status r -> r_status r <> 101 ->
  kind_at SDefault t = None \/ kind_at SDefault t = Some RUpgrade -> e_final e = Returned (RErr (UnexpectedResponse r)).
Proof. intros T ((q & Hi) & Hn) Hs Hl. eapply other_undecoded; eauto; first [exact G|exact C|exact R]. Qed.

Lemma ep_error_upgrade t r : documents e t -> answered e r ->
  400 <= r_status r < 600 -> lookup t (r_status r) = Some RUpgrade -> e_final e = Returned (RErr (UnexpectedResponse r)).
Proof. intros T ((q & Hi) & Hn) Hs Hl. eapply error_upgrade; eauto; first [exact G|exact C|exact R]. Qed.

Lemma ep_undocumented t r : documents e t -> answered e r -> lookup t (r_status r) = None ->
  ~ (200 <= r_status r < 300 /\ ~ documents_success t) ->
  ~ (r_status r = 101 /\ m_websocket (e_method e) = true) ->
  e_final e = Returned (RErr (UnexpectedResponse r)).
Proof. intros T ((q & Hi) & Hn) Hs Hl. eapply undocumented_untouched; eauto; first [exact G|exact C|exact R]. Qed.

Lemma ep_generic t r : documents e t -> answered e r ->
  200 <= r_status r < 300 -> ~ documents_success t ->
  e_final e = Returned (ROk (RValue (IStream (r_body r)) (r_status r) (r_headers r))).
Proof.
  intros T ((q & Hi) & Hn) Hs Hd. eapply generic_success; eauto; try first [exact G|exact C|exact R].
  unfold lookup.
  destruct (kind_at (SCode _) t) as [k|] eqn:E1.
  { exfalso. apply Hd. left. apply kind_at_In in E1. eauto. }
  assert (E : r_status r / 100 = 2) by (symmetry; apply (N.div_unique (r_status r) 100 2 (r_status r - 200)); lia). rewrite E.
  destruct (kind_at (SRange 2) t) as [k|] eqn:E2.
  { exfalso. apply Hd. right. left. apply kind_at_In in E2. eauto. }
  destruct (kind_at SDefault t) as [k|] eqn:E3; auto.
  exfalso. apply Hd. right. right. apply kind_at_In in E3. eauto.
Qed.

Lemma ep_ok t v : documents e t -> e_final e = Returned (ROk v) ->
  exists q r, In (ESend q (ROk r)) (e_trace e) /\ rv_status v = r_status r /\ rv_headers v = r_headers r /\
    (200 <= r_status r < 300 \/
     (r_status r = 101 /\ (m_websocket (e_method e) = true \/ exists k, In (SCode 101, k) t))).
Proof. intros T Hv. eapply ok_only_success; eauto; first [exact G|exact C|exact R]. Qed.

Lemma ep_error_is_error t q r k out : documents e t -> In (ESend q (ROk r)) (e_trace e) -> e_final e = Returned out ->
  400 <= r_status r < 600 -> lookup t (r_status r) = Some k -> exists x, out = RErr x.
Proof. intros T. eapply documented_error_is_error; eauto; first [exact G|exact C|exact R]. Qed.
End Ep.

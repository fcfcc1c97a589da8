(** Answers of mocks. *)
From Coq Require Import ZifyBool ZifyN.
From Verif Require Import Base Utf8 SerdeModel OasModel HeaderModel ClientModel ClientSpec TemplateModel TemplateSpec MethodModel OpModel RunModel
  ResponseSpec ResponseProofs RequestSpec DocSpec DocProofs EpisodeProofs ExtractProofs SanitizeModel MockModel MockSpec MockDoc MockEpisode MockAnswerModel MockAnswerSpec.
Local Open Scope N_scope.

Lemma delivers_unique r b b' : delivers r b -> delivers r b' -> b = b'.
Proof.
  intros (c & E & ->) (c' & E' & ->). rewrite E in E'. clear E. f_equal. revert c' E'.
  induction c as [|x c IH]; intros [|y c'] E; try easy. cbn in E. injection E as -> E. f_equal. auto.
Qed.

Lemma delivers_breaks r b er : delivers r b -> breaks r er -> False.
Proof.
  intros (c & E & _) (c' & rest & E'). rewrite E in E'. clear E. revert c' E'.
  induction c as [|x c IH]; intros [|y c'] E; try easy. cbn in E. injection E as _ E. eauto.
Qed.

Lemma combine_forall2 {A B} (P : A -> B -> Prop) l l' a b : Forall2 P l l' -> In (a, b) (combine l l') -> P a b.
Proof. induction 1 as [|x y l l' H F IH]; [easy|]. intros [[= -> ->]|H']; auto. Qed.

Section Ep.
Context {V W : Type} (e : episode V W).
Hypothesis H : happens e.
Let G := h_generated e H.
Context {U : unicode} {types : type_id -> option BuilderModel.type_info} {o : mock_op}.
Hypothesis Ho : httpmock_method U types (e_method e) = Ok o.
Hypothesis Hcodes : codes_valid (e_op e).
Notation rs := (m_responses (e_method e)).

Lemma class_of a n : n * 100 <= a < (n + 1) * 100 -> a / 100 = n.
Proof. intro. symmetry. apply (N.div_unique a 100 n (a - n * 100)); lia. Qed.

Lemma allowed_class c code : allowed (SRange c) code -> c = code / 100.
Proof. unfold allowed. intro. symmetry. apply class_of. lia. Qed.

Lemma kind_at_some t key k : In (key, k) t -> exists k', kind_at key t = Some k'.
Proof. intro Hi. destruct (kind_at key t) as [k'|] eqn:E; [eauto|]. elim (proj1 (kind_at_None _ _) E k Hi). Qed.

Lemma lookup_some t key k code : In (key, k) t -> allowed key code -> exists k', lookup t code = Some k'.
Proof.
  intros Hi Ha. unfold lookup. destruct (kind_at_some t key k Hi) as (k' & E).
  destruct (kind_at (SCode code) t) eqn:E1; [eauto|]. destruct (kind_at (SRange (code / 100)) t) eqn:E2; [eauto|].
  destruct key as [c|c|]; [unfold allowed in Ha; congruence|apply allowed_class in Ha; congruence|eauto].
Qed.

Lemma lookup_in t code k : lookup t code = Some k -> In (SCode code, k) t \/ In (SRange (code / 100), k) t
  \/ (In (SDefault, k) t /\ (forall k', ~ In (SCode code, k') t) /\ (forall k', ~ In (SRange (code / 100), k') t)).
Proof.
  unfold lookup. destruct (kind_at (SCode code) t) eqn:E1; [intros [= <-]; left; now apply kind_at_In|].
  destruct (kind_at (SRange (code / 100)) t) eqn:E2; [intros [= <-]; right; left; now apply kind_at_In|].
  intro E3. right. right. split; [now apply kind_at_In|]. split; now apply kind_at_None.
Qed.

Lemma answer_lookup t key k code : documents e t -> In (OpResponse key k) rs -> k <> RUpgrade ->
  allowed key code -> 200 <= code < 300 /\ (key = SDefault -> ~ default_shadowed (e_op e)) \/ 400 <= code < 600 ->
  lookup t code = Some k \/ (~ documents_success t /\ k = RRaw /\ 200 <= code < 300).
Proof.
  intros T Hr Hk Ha Hs. destruct (generated_lists G t T) as (Hl & _).
  destruct (generated_kinds _ _ _ _ _ _ _ _ _ _ _ _ G T Hcodes) as (Hsucc & Herr & _).
  destruct (proj1 (Hl key k) Hr) as [Hi|[(Hd & -> & ->)|(_ & _ & ->)]]; [| |easy].
  - left. destruct (lookup_some t key k code Hi Ha) as (k' & E). rewrite E. f_equal.
    destruct Hs as [(Hs & Hdef)|Hs].
    + assert (E2 : code / 100 = 2) by (apply class_of; lia).
      assert (S1 : success_entry (e_op e) (m_websocket (e_method e)) t k).
      { destruct key as [c|c|]; [unfold allowed in Ha|apply allowed_class in Ha|].
        - subst. eapply se_code; eauto.
        - rewrite E2 in Ha. subst. now apply se_class.
        - apply se_default; auto. }
      assert (S2 : success_entry (e_op e) (m_websocket (e_method e)) t k').
      { destruct (lookup_in t code k' E) as [Hi'|[Hi'|(Hi' & Hn1 & Hn2)]].
        - eapply se_code; eauto.
        - rewrite E2 in Hi'. now apply se_class.
        - destruct key as [c|c|]; [unfold allowed in Ha|apply allowed_class in Ha|].
          + subst. now elim (Hn1 k).
          + subst. now elim (Hn2 k).
          + apply se_default; auto. }
      apply Hsucc in S1, S2. congruence.
    + assert (E2 : code / 100 = 4 \/ code / 100 = 5) by (destruct (N.lt_ge_cases code 500); [left|right]; apply class_of; lia).
      assert (S1 : error_entry t k).
      { destruct key as [c|c|]; [unfold allowed in Ha|apply allowed_class in Ha|].
        - subst. eapply ee_code; eauto.
        - subst. eapply ee_class; eauto.
        - now apply ee_default. }
      assert (S2 : error_entry t k').
      { destruct (lookup_in t code k' E) as [Hi'|[Hi'|(Hi' & _)]].
        - eapply ee_code; eauto.
        - eapply ee_class; eauto.
        - now apply ee_default. }
      apply Herr in S1, S2. congruence.
  - right. apply allowed_class in Ha. split; [exact Hd|]. split; [reflexivity|].
    destruct Hs as [(Hs & _)|Hs]; [exact Hs|]. exfalso.
    pose proof (N.div_mod code 100 ltac:(lia)). pose proof (N.mod_lt code 100 ltac:(lia)). lia.
Qed.

Lemma default_kind t k : documents e t -> In (OpResponse SDefault k) rs -> k <> RUpgrade ->
  exists k', kind_at SDefault t = Some k' /\ k = k'.
Proof.
  intros T Hr Hk. destruct (generated_lists G t T) as (Hl & _).
  destruct (generated_kinds _ _ _ _ _ _ _ _ _ _ _ _ G T Hcodes) as (_ & Herr & _).
  destruct (proj1 (Hl SDefault k) Hr) as [Hi|[(_ & Ek & _)|(_ & Ek & _)]]; [|easy|easy].
  destruct (kind_at_some t SDefault k Hi) as (k' & E). exists k'. split; [exact E|]. apply kind_at_In in E.
  rewrite (Herr k (ee_default _ _ Hi)), (Herr k' (ee_default _ _ E)). reflexivity.
Qed.

(** The content of an answer, decoded. *)
Lemma answer_decoded k v j r : content_of k <> TvNone -> v_json v = Some j -> delivers r j ->
  (exists x, holds (e_decode e) k (Some v) x) -> forall out, decoded (e_decode e) r k out ->
  exists x, holds (e_decode e) k (Some v) x /\ out = ROk (RValue x (r_status r) (r_headers r)).
Proof.
  intros Hc Hj Hd (x & Hx) out Hdec. destruct Hdec as [t b w Hb Hf|t b er Hb Hf|t er Hb| | |c Hs|er Hs|Hs]; try easy.
  - inversion Hx as [t' v' j' x' Hj' Hf'| |]; subst. assert (j' = j) by congruence. subst.
    assert (b = j) by (eapply delivers_unique; eauto). subst. rewrite Hf in Hf'. injection Hf' as ->. eauto.
  - inversion Hx as [t' v' j' x' Hj' Hf'| |]; subst. assert (j' = j) by congruence. subst.
    assert (b = j) by (eapply delivers_unique; eauto). subst. congruence.
  - exfalso. eapply delivers_breaks; eauto.
  - destruct Hd as (chunks & Eb & Ec). rewrite Eb. eexists. split; [|reflexivity]. eapply ho_raw; eauto.
Qed.

Lemma mock_received rsp th status v a r : In (rsp, th) (combine rs (mo_then_methods o)) -> then_answer th status v = Some a ->
  told_status (e_op e) (o_status rsp) (an_status a) -> o_typ rsp <> RUpgrade ->
  (exists x, holds (e_decode e) (o_typ rsp) v x) ->
  answered e r -> arrives a r ->
  exists x, holds (e_decode e) (o_typ rsp) v x /\ received r x (e_final e).
Proof.
  intros Hin Ha Hs Hu Hh Hans (Est & Hdel & _).
  pose proof (combine_forall2 _ _ _ _ _ (mock_responses U types (e_method e) o Ho) Hin) as (Hval & Hal & _).
  assert (Hr : In rsp rs) by exact (in_combine_l _ _ _ _ Hin).
  assert (Hbody : (content_of (o_typ rsp) = TvNone /\ v = None) \/ exists w j, content_of (o_typ rsp) <> TvNone /\ v = Some w /\ v_json w = Some j /\ an_body a = j).
  { unfold then_answer in Ha. destruct (then_call _ _); [|easy]. rewrite Hval in Ha.
    destruct (content_of (o_typ rsp)) eqn:Ec, v as [w|]; try easy; [|auto|].
    all: destruct (v_json w) as [j|] eqn:Ej; [|easy]; injection Ha as <-; right; exists w, j; repeat split; auto; congruence. }
  assert (Hdecoded : forall out, decoded (e_decode e) r (o_typ rsp) out ->
     exists x, holds (e_decode e) (o_typ rsp) v x /\ out = ROk (RValue x (r_status r) (r_headers r))).
  { intros out Hdec. destruct Hbody as [(Ec & ->)|(w & j & Ec & -> & Ej & Eb)].
    - destruct (o_typ rsp) as [| | |] eqn:Ek; try easy. inversion Hdec; subst. eexists. split; [constructor|reflexivity].
    - rewrite Eb in Hdel. eapply answer_decoded; eauto. }
  assert (Hallow : allowed (o_status rsp) (an_status a)).
  { unfold then_answer in Ha. destruct (then_call _ _) as [code|] eqn:Ec; [|easy]. specialize (Hal _ _ Ec).
    destruct (tm_value th), v as [w|]; try easy; try (destruct (v_json w); [|easy]); injection Ha as <-; exact Hal. }
  destruct (generated_table G) as (t & T). rewrite <- Est in *. destruct rsp as [key k]. cbn [o_status o_typ] in *.
  assert (Hother : key = SDefault /\ other_status (r_status r) \/ (200 <= r_status r < 300 /\ (key = SDefault -> ~ default_shadowed (e_op e)) \/ 400 <= r_status r < 600)).
  { destruct Hs as [?|[?|?]]; auto. }
  clear Hs. destruct Hother as [(-> & Hot)|Hs].
  { destruct (default_kind t k T Hr Hu) as (k' & Ek & E'). subst k'.
    destruct (ep_other e H t r k T Hans) as [(y & Hdec & ->)|(y & Hdec & ->)]; auto; try (unfold other_status in Hot; lia);
      destruct (Hdecoded _ Hdec) as (x & Hx & E); [|discriminate].
    injection E as ->. exists x. split; [exact Hx|]. apply rc_error. unfold other_status in Hot. lia. }
  destruct (answer_lookup t key k (r_status r) T Hr Hu Hallow Hs) as [Hl|(Hd & -> & E2)].
  - destruct Hs as [(Hs & _)|Hs].
    + destruct (ep_success e H t r k T Hans Hs Hl) as (out & -> & Hdec). destruct (Hdecoded _ Hdec) as (x & Hx & ->). exists x. split; [exact Hx|].
      now apply rc_value.
    + destruct (ep_error e H t r k T Hans Hs Hl Hu) as [(y & Hdec & ->)|(y & Hdec & ->)]; destruct (Hdecoded _ Hdec) as (x & Hx & E); [|discriminate].
      injection E as ->. exists x. split; [exact Hx|]. apply rc_error. lia.
  - rewrite (ep_generic e H t r T Hans E2 Hd). destruct (Hdecoded _ (dc_raw _ _)) as (x & Hx & E). injection E as ->. exists x. split; [exact Hx|].
    now apply rc_value.
Qed.

Lemma mock_sent rsp th status v a r : In (rsp, th) (combine rs (mo_then_methods o)) -> then_answer th status v = Some a -> arrives a r ->
  allowed (o_status rsp) (r_status r)
  /\ match v with
     | None => (o_typ rsp = RNone \/ o_typ rsp = RUpgrade) /\ delivers r []
     | Some w => (o_typ rsp = RRaw \/ exists t, o_typ rsp = RType t)
         /\ exists j, v_json w = Some j /\ delivers r j /\ In (utf8 (lit "application/json")) (h_values (lit "content-type") (r_headers r))
     end.
Proof.
  intros Hin Ha (Est & Hdel & Hhs).
  pose proof (combine_forall2 _ _ _ _ _ (mock_responses U types (e_method e) o Ho) Hin) as (Hval & Hal & _).
  unfold then_answer in Ha. destruct (then_call _ _) as [code|] eqn:Ec; [|easy]. specialize (Hal _ _ Ec). rewrite Hval in Ha.
  destruct (o_typ rsp) as [t| | |] eqn:Ek; cbn [content_of] in Ha; destruct v as [w|]; try easy.
  all: try (destruct (v_json w) as [j|] eqn:Ej; [|easy]).
  all: injection Ha as <-; cbn [an_status an_headers an_body] in *; rewrite Est; split; [exact Hal|].
  all: split; eauto.
  all: exists j; split; [reflexivity|]; split; [exact Hdel|]; apply Hhs; left; reflexivity.
Qed.

Lemma mock_unexpected a r : (forall k, ~ In (OpResponse SDefault k) rs) -> other_status (an_status a) -> answered e r -> arrives a r ->
  e_final e = Returned (RErr (UnexpectedResponse r)).
Proof.
  intros Hd Hot Hans (Est & _). rewrite <- Est in Hot. destruct (generated_table G) as (t & T). destruct (generated_lists G t T) as (Hl & _).
  apply (ep_other_undecoded e H t r T Hans); [unfold other_status in Hot; lia..|].
  left. apply kind_at_None. intros k Hi. apply (Hd k). apply Hl. auto.
Qed.

(** The whole way: the request is accepted, the answer comes back. *)
Lemma mocked json_is cs rsp th status v a :
  has_pre_hook_async (e_hooks e) = false -> has_post_hook_async (e_hooks e) = false ->
  encodable (e_args e) -> url_kept (e_client e) (e_path e) (e_args e) -> proper_texts (e_args e) ->
  NoDup (vars (e_path e)) -> plain_template (e_path e) ->
  incl cs (e_args e) -> Forall (mockable json_is (e_path e) (e_args e)) cs ->
  In (rsp, th) (combine rs (mo_then_methods o)) -> then_answer th status v = Some a ->
  told_status (e_op e) (o_status rsp) (an_status a) -> o_typ rsp <> RUpgrade ->
  (exists x, holds (e_decode e) (o_typ rsp) v x) ->
  exists es, when_calls o (map (fun c => (p_name (fst c), snd c)) cs) = Some es
  /\ (mock_server (c_base_url (e_client e)) json_is es a (e_world e) ->
      exists r x, arrives a r /\ holds (e_decode e) (o_typ rsp) v x /\ received r x (e_final e)).
Proof.
  intros Hpre Hpost Henc Hkept Hproper Hnd Hpl Hincl Hcs Hin Ha Hs Hu Hh.
  destruct (generated_table G) as (t & T). destruct (ep_call e H t T) as (out & Efin & [(x & Href & _)|(_ & q & Hq & Hcall)]).
  { exfalso. destruct Henc as (N1 & N2 & N3 & N4). destruct Href as [?|? ?|val er Hval Eu ? ?|? ?|? ? ? ?]; try easy.
    destruct (Hkept val Hval) as (hs & E). congruence. }
  destruct (mock_accepts e H q (call_first _ _ _ _ _ Hcall) Hkept Hproper U types o cs json_is Ho Hnd Hpl Hincl Hcs) as (es & Hes & (s & Hseen) & Hm).
  exists es. split; [exact Hes|]. intro Hserver.
  enough (exists r, answered e r /\ arrives a r) as (r & Hans & Harr).
  { exists r. destruct (mock_received rsp th status v a r Hin Ha Hs Hu Hh Hans Harr) as (x & Hx & Hrc). eauto. }
  remember (e_trace e) as tr eqn:Etr. inversion Hcall as [msg w' E1 E2|q' tr1 w1 res w2 msg w' Hp He E1|q' tr1 w1 res w2 tr2 w' out' Hp He Hob Hint]; try congruence.
  inversion Hp as [E1 E2|q'' w'' E1]; try congruence.
  destruct (Hserver q s w1 Hseen (Hm s Hseen)) as (r & w3 & E3 & Harr). exists r. split; [|exact Harr].
  assert (res = ROk r) by congruence. split.
  - exists q. rewrite <- Etr. replace tr with (tr1 ++ [ESend q' res] ++ tr2) by congruence. apply in_or_app. right. left. congruence.
  - intros msg E. assert (Eo : out = RErr (PostHookError msg)) by congruence. subst res.
    match goal with Hi : interpreted _ _ _ (ROk r) _ |- _ => inversion Hi as [|r0 ac out0 Hex Hme]; subst end.
    inversion Hme as [k x0 Hdec|k v0 Hdec|k e0 Hdec|]; subst; try discriminate; inversion Hdec; congruence.
Qed.
End Ep.

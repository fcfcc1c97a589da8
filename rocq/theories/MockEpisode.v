(** The mock of an operation accepts the requests of its method; names of response methods. *)
From Coq Require Import ZifyBool ZifyN.
From Verif Require Import Base Utf8 SerdeModel OasModel HeaderModel ClientModel TemplateModel TemplateSpec TemplateProofs
  EncodeModel EncodeSpec EncodeProofs QuerySpec QueryProofs MethodModel OpModel OpCor BuilderModel RunModel RequestSpec
  RequestProofs ParamSpec ParamProofs ResponseProofs DocSpec DocProofs DocCor ExtractProofs SanitizeModel MockModel MockSpec MockProofs
  MockCor MockDoc.
Local Open Scope N_scope.

(** ** Queries *)

Lemma send_queries_pairs params q : send_queries params = Some q ->
  exists pss, Forall2 (fun kv p => query_param (fst kv) (snd kv) = Some p) params pss.
Proof.
  intro H. assert (Hn : forall kv, In kv params -> query_param (fst kv) (snd kv) <> None).
  { intros kv Hin E. assert (send_queries params = None) by (apply send_queries_error; eauto). congruence. }
  clear H. induction params as [|kv params IH]; [exists []; constructor|].
  destruct IH as (pss & HF); [intros; apply Hn; now right|].
  destruct (query_param (fst kv) (snd kv)) as [ps|] eqn:E; [|exfalso; apply (Hn kv); [now left|auto]].
  exists (ps :: pss). now constructor.
Qed.

Section Ep.
Context {V W : Type} (e : episode V W).
Hypothesis H : happens e.
Let G := h_generated e H.
Let C := h_callable e H.
Let R := h_run e H.

Variable q : request.
Hypothesis Hq : first_request (e_trace e) q.
Hypothesis Hkept : url_kept (e_client e) (e_path e) (e_args e).
Hypothesis Hproper : proper_texts (e_args e).

(** A valuation of the template that agrees with the arguments and is slash-free everywhere. *)
Lemma path_valuation : exists val, path_values (e_args e) val /\ forall n c, In c (val n) -> delimiter c = false.
Proof.
  destruct (params_path_values G C) as (val & Hval).
  set (given n := existsb (fun pv : op_param * option value => match p_kind (fst pv), snd pv with
                    | KPath, Some _ => str_eqb (p_api_name (fst pv)) n | _, _ => false end) (e_args e)).
  exists (fun n => if given n then val n else []). split.
  - intros p v Hin Hk. assert (given (p_api_name p) = true) as ->; [|now apply Hval].
    apply existsb_exists. exists (p, Some v). split; auto. cbn [fst snd]. rewrite Hk. apply str_eqb_refl.
  - intros n c Hc. destruct (given n) eqn:E; [|easy]. apply existsb_exists in E as ([p [v|]] & Hin & E); cbn [fst snd] in E.
    + destruct (p_kind p) eqn:Hk; try easy. apply str_eqb_spec in E. subst n. rewrite (Hval p v Hin Hk) in Hc.
      eapply encode_path_safe; eauto. now apply (proj1 Hproper p).
    + now destruct (p_kind p).
Qed.

Lemma request_seen : exists val r, path_values (e_args e) val /\ (forall n c, In c (val n) -> delimiter c = false)
  /\ seen (c_base_url (e_client e)) q r
  /\ mr_path r = expand val (squeeze_pieces false (e_path e))
  /\ (forall kv, In kv (mr_query r) <-> contributes (e_args e) kv).
Proof.
  destruct path_valuation as (val & Hval & Hd). exists val.
  pose proof (method_and_url_sent _ _ _ _ _ _ _ _ _ _ _ _ _ _ _ _ _ _ _ _ _ G C R q val Hq Hval) as (_ & query & hs & Hu & Hs).
  destruct (Hkept val Hval) as (hs' & E). rewrite E in Hu. injection Hu as Eu <- <-. specialize (Hs eq_refl).
  destruct (send_queries_pairs _ _ Hs) as (pss & HF).
  assert (HV : Forall (Forall valid_pair) pss).
  { apply Forall_forall. intros ps Hps. apply Forall_forall. intros kv Hkv.
    destruct (forall2_In_r _ _ _ _ HF Hps) as (nv & Hnv & E1). apply (proj2 Hproper). exists nv, ps. auto. }
  destruct (send_queries_decode _ _ HF HV) as (q' & E1 & E2). rewrite Hs in E1. injection E1 as <-.
  exists (MockRequest (q_method q) (expand val (squeeze_pieces false (e_path e))) (concat pss)
            (match q_body q with Some b => b | None => [] end)).
  repeat split; auto; cbn [mr_query].
  - intro Hin. apply in_concat in Hin as (ps & Hps & Hkv). destruct (forall2_In_r _ _ _ _ HF Hps) as (nv & Hnv & E1).
    exists nv, ps. auto.
  - intros (nv & ps & Hnv & E1 & Hkv). apply in_concat. exists ps. split; auto.
    clear - HF Hnv E1. induction HF as [|a b l l' Hab HF IH]; [easy|]. destruct Hnv as [->|Hnv]; [left; congruence|right; auto].
Qed.

Lemma seen_unique base r r' : seen base q r -> seen base q r' -> r = r'.
Proof.
  intros (E1 & E2 & E3 & E4) (F1 & F2 & F3 & F4). destruct r, r'; cbn in *.
  rewrite E2 in F2. apply app_inv_head in F2. congruence.
Qed.

Lemma query_contributes p v : In (p, Some v) (e_args e) -> (exists r, p_kind p = KQuery r) ->
  scalar_text (v_serde v) (v_text v) -> contributes (e_args e) (p_api_name p, v_text v).
Proof.
  intros Hin (r & Hk) Hs. exists (p_api_name p, if r then v_serde v else VSome (v_serde v)), [(p_api_name p, v_text v)].
  split; [|split].
  - unfold query_arguments. apply in_flat_map. exists (p, Some v). split; auto. cbn [fst snd]. rewrite Hk.
    destruct r; now left.
  - cbn [fst snd]. assert (E : query_param (p_api_name p) (v_serde v) = Some [(p_api_name p, v_text v)]) by now apply scalar_query.
    destruct r; exact E.
  - now left.
Qed.

Lemma existsb_pair k v l : existsb (fun kv : str * str => str_eqb (fst kv) k && str_eqb (snd kv) v) l = true <-> In (k, v) l.
Proof.
  rewrite existsb_exists. split.
  - intros ([k' v'] & Hin & E). apply andb_true_iff in E as (E1 & E2). apply str_eqb_spec in E1, E2. cbn in *. now subst.
  - intro Hin. exists (k, v). split; auto. cbn [fst snd]. now rewrite !str_eqb_refl.
Qed.

(** C53. *)
Lemma mock_query types p v w r json_is : In (p, Some v) (e_args e) -> (exists b, p_kind p = KQuery b) ->
  p_name p = p_api_name p -> scalar_text (v_serde v) (v_text v) ->
  when_method_of types (m_path (e_method e)) p = Ok w -> seen (c_base_url (e_client e)) q r ->
  exists ex, when_call (wm_body w) (Some v) = Some ex
    /\ meets json_is r ex = true
    /\ forall r', meets json_is r' ex = true <-> In (p_api_name p, v_text v) (mr_query r').
Proof.
  intros Hin Hk Hn Hs Hw Hr. exists (ExQuery (p_name p) (v_text v)).
  assert (Hiff : forall r', meets json_is r' (ExQuery (p_name p) (v_text v)) = true <-> In (p_api_name p, v_text v) (mr_query r')).
  { intro r'. cbn [meets]. rewrite existsb_pair, Hn. reflexivity. }
  split; [|split; auto].
  - destruct Hk as (b & Hk). unfold when_method_of in Hw. apply obind_ok in Hw as (? & _ & Hw). rewrite Hk in Hw.
    destruct b; cbn in Hw; injection Hw as <-; reflexivity.
  - apply Hiff. destruct request_seen as (val & r' & _ & _ & Hr' & _ & Hc). rewrite (seen_unique _ _ _ Hr Hr').
    apply Hc. now apply query_contributes.
Qed.

Lemma in_args_param p a : In (p, a) (e_args e) -> In p (m_params (e_method e)).
Proof. intro Hin. destruct C as [(Hm & _) _ _]. rewrite <- Hm. now apply (in_map fst) in Hin. Qed.

Lemma body_is p v ct : In (p, Some v) (e_args e) -> p_kind p = KBody ct -> body_argument (e_args e) = Some (ct, v).
Proof.
  intros Hin Hk. pose proof (one_body _ _ _ _ _ _ _ _ _ (g_process _ _ _ _ _ _ _ _ _ _ _ G)) as Hone.
  destruct C as [(Hm & _) _ _]. rewrite <- Hm in Hone. clear - Hin Hk Hone.
  induction (e_args e) as [|[p1 a1] l IH]; [easy|]. cbn [map filter fst] in Hone.
  unfold body_argument. cbn [fold_right fst snd]. fold (body_argument l). destruct Hin as [[= -> ->]|Hin].
  - now rewrite Hk.
  - assert (Hb : is_body p1 = false).
    { destruct (is_body p1) eqn:E; auto. cbn in Hone.
      assert (Hp : In p (filter is_body (map fst l))).
      { apply filter_In. split; [now apply (in_map fst) in Hin|]. unfold is_body. now rewrite Hk. }
      destruct (filter is_body (map fst l)); [easy|cbn in Hone; lia]. }
    rewrite Hb in Hone. unfold is_body in Hb. rewrite (IH Hin Hone). destruct (p_kind p1); easy.
Qed.

(** C65. *)
Lemma mock_accepts U types o cs json_is : httpmock_method U types (e_method e) = Ok o ->
  NoDup (vars (e_path e)) -> plain_template (e_path e) ->
  incl cs (e_args e) -> Forall (mockable json_is (e_path e) (e_args e)) cs ->
  exists es, when_calls o (map (fun c => (p_name (fst c), snd c)) cs) = Some es
    /\ (exists r, seen (c_base_url (e_client e)) q r)
    /\ forall r, seen (c_base_url (e_client e)) q r -> matched json_is es r = true.
Proof.
  intros Ho Hnd Hpl Hincl Hcs.
  destruct (process_operation_params _ _ _ _ _ _ _ _ _ (g_process _ _ _ _ _ _ _ _ _ _ _ G))
    as (oid & pi' & ops' & qs & body & _ & _ & _ & _ & _ & Hparse & _).
  pose proof (g_strict _ _ _ _ _ _ _ _ _ _ _ G) as Hstrict.
  pose proof (g_names _ _ _ _ _ _ _ _ _ _ _ G) as Hnames.
  pose proof (body_types _ _ _ _ _ _ _ _ _ (g_process _ _ _ _ _ _ _ _ _ _ _ G)) as Hbt.
  destruct request_seen as (val & r & Hval & Hdel & Hr & Hpath & Hquery).
  assert (Hsf : slash_free (e_path e) val).
  { intros n _ Hin. now apply Hdel in Hin. }
  assert (Hex : exists exs, Forall2 (fun c ex => In (fst c) (m_params (e_method e))
    /\ (forall w, when_method_of types (m_path (e_method e)) (fst c) = Ok w -> when_call (wm_body w) (snd c) = Some ex)
    /\ meets json_is r ex = true) cs exs).
  { clear Ho. induction cs as [|[p a] cs IH]; [exists []; constructor|].
    inversion Hcs as [|? ? Hc Hcs']; subst. destruct IH as (exs & IH); auto; [intros x Hx; apply Hincl; now right|].
    assert (Hin : In (p, a) (e_args e)) by (apply Hincl; now left).
    enough (exists ex, (forall w, when_method_of types (m_path (e_method e)) p = Ok w -> when_call (wm_body w) a = Some ex)
      /\ meets json_is r ex = true) as (ex & H1 & H2).
    { exists (ex :: exs). constructor; auto. split; [now apply in_args_param in Hin|auto]. }
    assert (Hb : body_typed p) by (rewrite Forall_forall in Hbt; apply Hbt; eapply in_args_param; eauto).
    clear IH Hcs'. unfold mockable in Hc. cbn [fst snd] in Hc. unfold body_typed in Hb.
    destruct (p_kind p) as [|req|req|ct] eqn:Hk.
    - destruct a as [v|]; [|easy]. destruct Hc as (Hvar & Hplain & Henc).
      exists (ExPath (param_items (e_path e) (p_api_name p) (v_text v))). split.
      + intros w Hw. eapply path_call; eauto.
      + cbn [meets]. rewrite Hpath.
        assert (Hv : val (p_api_name p) = v_text v) by (rewrite (Hval p v Hin Hk); exact Henc).
        apply param_match; auto. exists val. split; auto. split; auto.
        intros n _ _ Hnl. now apply Hdel in Hnl.
    - destruct a as [v|].
      + assert (Hc' : p_name p = p_api_name p /\ scalar_text (v_serde v) (v_text v)) by now destruct req.
        destruct Hc' as (Hn & Hs). exists (ExQuery (p_name p) (v_text v)). split.
        * intros w Hw. unfold when_method_of in Hw. apply obind_ok in Hw as (? & _ & Hw). rewrite Hk in Hw.
          destruct req; cbn in Hw; injection Hw as <-; reflexivity.
        * cbn [meets]. rewrite existsb_pair, Hn. apply Hquery. apply query_contributes; eauto.
      + destruct req; [easy|]. exists (ExNoQuery (p_name p)). split.
        * intros w Hw. unfold when_method_of in Hw. apply obind_ok in Hw as (? & _ & Hw). rewrite Hk in Hw.
          cbn in Hw; injection Hw as <-; reflexivity.
        * cbn [meets]. apply negb_true_iff. destruct (existsb _ _) eqn:E; auto.
          apply existsb_exists in E as ([k t] & Hkt & E). apply str_eqb_spec in E. cbn in E. subst k.
          apply Hquery in Hkt. now apply Hc in Hkt.
    - destruct a; easy.
    - destruct a as [v|]; [|now destruct ct].
      pose proof (body_is _ _ _ Hin Hk) as Hba.
      pose proof (body_sent _ _ _ _ _ _ _ _ _ _ _ _ _ _ _ _ _ _ _ _ _ G C R q ct v Hq Hba) as ((b & Henc & Eb) & _).
      destruct Hr as (_ & _ & _ & Hbody). rewrite Eb in Hbody.
      destruct ct; try easy; destruct (p_typ p) eqn:Ht; try easy.
      + exists (ExJson v). split.
        * intros w Hw. unfold when_method_of in Hw. apply obind_ok in Hw as (? & _ & Hw). rewrite Hk, Ht in Hw.
          cbn in Hw; injection Hw as <-; reflexivity.
        * cbn [meets]. assert (Em : b = v_bytes v) by now inversion Henc. rewrite Hbody, Em. exact Hc.
      + exists (ExJson v). split.
        * intros w Hw. unfold when_method_of in Hw. apply obind_ok in Hw as (? & _ & Hw). rewrite Hk, Ht in Hw.
          cbn in Hw; injection Hw as <-; reflexivity.
        * cbn [meets]. assert (Em : v_json v = Some b) by now inversion Henc. rewrite Hbody. now apply Hc.
      + exists (ExBody (v_bytes v)). split.
        * intros w Hw. unfold when_method_of in Hw. apply obind_ok in Hw as (? & _ & Hw). rewrite Hk, Ht in Hw.
          cbn in Hw; injection Hw as <-; reflexivity.
        * cbn [meets]. assert (Em : b = v_bytes v) by now inversion Henc. rewrite Hbody, Em. apply str_eqb_refl. }
  destruct Hex as (exs & Hex).
  eexists. split; [|split].
  - apply (when_calls_ok U types (e_method e) o Ho Hnames (wildcard_items (e_path e)) cs exs).
    + now apply (wildcard_regex (e_path e)).
    + clear - Hex. induction Hex as [|c ex cs exs (H1 & H2 & _) _ IH]; constructor; auto.
  - eauto.
  - intros r' Hr'. rewrite (seen_unique _ _ _ Hr' Hr). apply matched_rev. split; [|split].
    + destruct Hr as (-> & _). now apply (method_and_url_sent _ _ _ _ _ _ _ _ _ _ _ _ _ _ _ _ _ _ _ _ _ G C R q val Hq Hval).
    + apply wildcard_match; auto. exists val. split; auto.
    + clear - Hex. induction Hex as [|c ex cs exs (_ & _ & H3) _ IH]; constructor; auto.
Qed.

Lemma query_expected types p a w : (exists b, p_kind p = KQuery b) -> restrictable (e_path e) (p, a) ->
  when_method_of types (m_path (e_method e)) p = Ok w ->
  when_call (wm_body w) a = Some (match a with Some v => ExQuery (p_name p) (v_text v) | None => ExNoQuery (p_name p) end).
Proof.
  intros (b & Hk) Hr Hw. unfold restrictable in Hr. cbn [fst snd] in Hr. unfold when_method_of in Hw.
  apply obind_ok in Hw as (? & _ & Hw). rewrite Hk in Hw, Hr. destruct a, b; try easy; cbn in Hw; injection Hw as <-; reflexivity.
Qed.

Lemma query_met json_is p a r : (exists b, p_kind p = KQuery b) -> seen (c_base_url (e_client e)) q r ->
  meets json_is r (match a with Some v => ExQuery (p_name p) (v_text v) | None => ExNoQuery (p_name p) end) = true
  <-> restriction_met json_is (e_path e) (e_args e) r (p, a).
Proof.
  intros (b & Hk) Hr. destruct request_seen as (val & r' & _ & _ & Hr' & _ & Hc). rewrite (seen_unique _ _ _ Hr Hr').
  unfold restriction_met. cbn [fst snd]. rewrite Hk. destruct a as [v|]; cbn [meets].
  - rewrite existsb_pair. apply Hc.
  - rewrite negb_true_iff. split.
    + intros E t Ht. apply Hc in Ht. assert (X : existsb (fun kv : str * str => str_eqb (fst kv) (p_name p)) (mr_query r') = true).
      { apply existsb_exists. exists (p_name p, t). split; auto. cbn. apply str_eqb_refl. }
      congruence.
    + intro Hn. destruct (existsb _ _) eqn:E; auto. apply existsb_exists in E as ([k t] & Hkt & E).
      apply str_eqb_spec in E. cbn in E. subst k. apply Hc in Hkt. now apply Hn in Hkt.
Qed.

(** C53, exactly. *)
Lemma mock_query_iff types p a w json_is : (exists b, p_kind p = KQuery b) -> restrictable (e_path e) (p, a) ->
  when_method_of types (m_path (e_method e)) p = Ok w ->
  exists ex, when_call (wm_body w) a = Some ex
    /\ forall r, seen (c_base_url (e_client e)) q r ->
       (meets json_is r ex = true <->
        match a with
        | Some v => contributes (e_args e) (p_name p, v_text v)
        | None => forall t, ~ contributes (e_args e) (p_name p, t)
        end).
Proof.
  intros Hk Hr Hw. eexists. split; [apply (query_expected types p a w Hk Hr Hw)|]. intros r Hs. rewrite (query_met json_is p a r Hk Hs).
  unfold restriction_met. cbn [fst snd]. destruct Hk as (b & ->). destruct a; reflexivity.
Qed.

(** C65, exactly. *)
Lemma mock_accepts_iff U types o cs json_is : httpmock_method U types (e_method e) = Ok o ->
  NoDup (vars (e_path e)) -> plain_template (e_path e) ->
  Forall (fun c => In (fst c) (m_params (e_method e)) /\ restrictable (e_path e) c) cs ->
  exists es, when_calls o (map (fun c => (p_name (fst c), snd c)) cs) = Some es
    /\ (exists r, seen (c_base_url (e_client e)) q r)
    /\ forall r, seen (c_base_url (e_client e)) q r ->
       (matched json_is es r = true <-> Forall (restriction_met json_is (e_path e) (e_args e) r) cs).
Proof.
  intros Ho Hnd Hpl Hcs.
  destruct (process_operation_params _ _ _ _ _ _ _ _ _ (g_process _ _ _ _ _ _ _ _ _ _ _ G))
    as (oid & pi' & ops' & qs & body & _ & _ & _ & _ & _ & Hparse & _).
  pose proof (g_strict _ _ _ _ _ _ _ _ _ _ _ G) as Hstrict.
  pose proof (g_names _ _ _ _ _ _ _ _ _ _ _ G) as Hnames.
  pose proof (body_types _ _ _ _ _ _ _ _ _ (g_process _ _ _ _ _ _ _ _ _ _ _ G)) as Hbt.
  destruct request_seen as (val & r & Hval & Hdel & Hr & Hpath & Hquery).
  assert (Hsf : slash_free (e_path e) val).
  { intros n _ Hin. now apply Hdel in Hin. }
  assert (Hex : exists exs, Forall2 (fun c ex => (In (fst c) (m_params (e_method e))
    /\ (forall w, when_method_of types (m_path (e_method e)) (fst c) = Ok w -> when_call (wm_body w) (snd c) = Some ex))
    /\ (meets json_is r ex = true <-> restriction_met json_is (e_path e) (e_args e) r c)) cs exs).
  { clear Ho. induction Hcs as [|[p a] cs (Hin & Hc) Hcs' (exs & IH)]; [exists []; constructor|]. cbn [fst] in Hin.
    enough (exists ex, (forall w, when_method_of types (m_path (e_method e)) p = Ok w -> when_call (wm_body w) a = Some ex)
      /\ (meets json_is r ex = true <-> restriction_met json_is (e_path e) (e_args e) r (p, a))) as (ex & H1 & H2).
    { exists (ex :: exs). constructor; auto. }
    assert (Hb : body_typed p) by (rewrite Forall_forall in Hbt; now apply Hbt).
    clear IH Hcs'. destruct (p_kind p) as [|req|req|ct] eqn:Hk.
    - unfold restrictable in Hc. cbn [fst snd] in Hc. rewrite Hk in Hc. destruct a as [v|]; [|easy]. destruct Hc as (Hvar & Hplain).
      exists (ExPath (param_items (e_path e) (p_api_name p) (v_text v))). split.
      + intros w Hw. eapply path_call; eauto.
      + cbn [meets]. unfold restriction_met. cbn [fst snd]. rewrite Hk. now apply param_match.
    - eexists. split; [intros w Hw; apply (query_expected types); eauto|]. apply query_met; eauto.
    - unfold restrictable in Hc. cbn [fst snd] in Hc. rewrite Hk in Hc. now destruct a.
    - unfold restrictable in Hc. cbn [fst snd] in Hc. rewrite Hk in Hc. destruct a as [v|]; [|easy].
      unfold body_typed in Hb. rewrite Hk in Hb. unfold restriction_met. cbn [fst snd]. rewrite Hk.
      destruct ct; destruct (p_typ p) eqn:Ht; try easy.
      + exists (ExJson v). split; [|reflexivity].
        intros w Hw. unfold when_method_of in Hw. apply obind_ok in Hw as (? & _ & Hw). rewrite Hk, Ht in Hw.
        cbn in Hw; injection Hw as <-; reflexivity.
      + exists (ExJson v). split; [|reflexivity].
        intros w Hw. unfold when_method_of in Hw. apply obind_ok in Hw as (? & _ & Hw). rewrite Hk, Ht in Hw.
        cbn in Hw; injection Hw as <-; reflexivity.
      + exists (ExJson v). split; [|reflexivity].
        intros w Hw. unfold when_method_of in Hw. apply obind_ok in Hw as (? & _ & Hw). rewrite Hk, Ht in Hw.
        cbn in Hw; injection Hw as <-; reflexivity.
      + exists (ExBody (v_bytes v)). split; [|cbn [meets]; apply str_eqb_spec].
        intros w Hw. unfold when_method_of in Hw. apply obind_ok in Hw as (? & _ & Hw). rewrite Hk, Ht in Hw.
        cbn in Hw; injection Hw as <-; reflexivity. }
  destruct Hex as (exs & Hex).
  eexists. split; [|split].
  - apply (when_calls_ok U types (e_method e) o Ho Hnames (wildcard_items (e_path e)) cs exs).
    + now apply (wildcard_regex (e_path e)).
    + clear - Hex. induction Hex as [|c ex cs exs (H1 & _) _ IH]; constructor; auto.
  - eauto.
  - intros r' Hr'. rewrite (seen_unique _ _ _ Hr' Hr). rewrite matched_rev.
    assert (H1 : mr_method r = m_method (e_method e)).
    { destruct Hr as (-> & _). now apply (method_and_url_sent _ _ _ _ _ _ _ _ _ _ _ _ _ _ _ _ _ _ _ _ _ G C R q val Hq Hval). }
    assert (H2 : is_match (wildcard_items (e_path e)) (mr_path r) = true) by (apply wildcard_match; auto; exists val; split; auto).
    assert (H3 : Forall (fun ex => meets json_is r ex = true) exs <-> Forall (restriction_met json_is (e_path e) (e_args e) r) cs).
    { clear - Hex. induction Hex as [|c ex cs exs (_ & Hm) _ IH]; [split; constructor|].
      split; intro HF; inversion HF; subst; constructor; tauto. }
    tauto.
Qed.
End Ep.

(** When a call of a method panics. *)
From Verif Require Import Base Utf8 Utf8Proofs SerdeModel HeaderModel HeaderProofs ClientModel TemplateModel TemplateSpec TemplateProofs
  MethodModel RunModel NameProofs ResponseSpec ResponseProofs RequestSpec RequestProofs RunProofs PanicSpec.
From Coq Require Import ZifyBool ZifyN.
Local Open Scope N_scope.

Lemma printable_iff s : header_value_static s <> None <-> printable s.
Proof.
  unfold header_value_static. transitivity (forallb is_visible_ascii (utf8 s) = true).
  { destruct (forallb _ _); split; easy. }
  rewrite forallb_forall. unfold printable. rewrite Forall_forall. split.
  - intros H c Hc. destruct (utf8_char_ascii_or_high c) as [[Hlt E]|[Hge Hh]].
    + assert (Hb : is_visible_ascii c = true). { apply H. apply in_flat_map. exists c. rewrite E. cbn. auto. }
      unfold is_visible_ascii in Hb. lia.
    + exfalso. destruct (utf8_char c) as [|b r] eqn:E.
      { unfold utf8_char in E. repeat destruct (_ <? _); discriminate. }
      assert (Hb : is_visible_ascii b = true). { apply H. apply in_flat_map. exists c. rewrite E. cbn. auto. }
      apply Forall_inv in Hh. unfold is_visible_ascii in Hb. lia.
  - intros H b Hb. apply in_flat_map in Hb as (c & Hc & Hb). specialize (H c Hc).
    destruct (utf8_char_ascii_or_high c) as [[_ E]|[Hge _]]; [|lia]. rewrite E in Hb. destruct Hb as [<-|[]].
    unfold is_visible_ascii. lia.
Qed.
Lemma token_char_iff c : header_char c <> None <-> token_char c.
Proof.
  unfold header_char, token_char. change (ch "A") with 65. change (ch "Z") with 90. change (ch "a") with 97. change (ch "z") with 122.
  change (ch "0") with 48. change (ch "9") with 57.
  destruct ((65 <=? c) && (c <=? 90)) eqn:E1; [split; [intros _; left; lia|easy]|].
  destruct (existsb (N.eqb c) (lit "!#$%&'*+-.^_`|~")) eqn:E2.
  - rewrite orb_true_r. split; [|easy]. intros _. right. right. right. apply existsb_exists in E2 as (x & Hx & Hc). apply N.eqb_eq in Hc. now subst.
  - assert (Hn : ~ In c (lit "!#$%&'*+-.^_`|~")).
    { intro H. assert (existsb (N.eqb c) (lit "!#$%&'*+-.^_`|~") = true); [|congruence]. apply existsb_exists. exists c. split; auto. apply N.eqb_refl. }
    rewrite orb_false_r. destruct (_ || _) eqn:E3; split; try easy; intros H; try lia.
    destruct H as [H|[H|[H|H]]]; [lia|lia|lia|]. now elim Hn.
Qed.
Lemma token_iff s : header_name s <> None <-> token s.
Proof.
  assert (H : header_chars s <> None <-> Forall token_char s).
  { induction s as [|c s IH]; cbn [header_chars]; [split; [constructor|easy]|]. rewrite Forall_cons_iff, <- IH, <- token_char_iff.
    destruct (header_char c), (header_chars s); split; try easy; try (intros [H1 H2]; congruence); split; congruence. }
  unfold header_name, token. destruct s as [|c s]; [split; [easy|intros [H' _]; congruence]|].
  destruct (65535 <? N.of_nat (length (c :: s))) eqn:E.
  - split; [easy|]. intros (_ & Hl & _). lia.
  - rewrite H. split; [|tauto]. intro Hf. split; [easy|]. split; [lia|exact Hf].
Qed.
Lemma header_text_iff s : header_value s <> None <-> header_text s.
Proof.
  split.
  - intro H. destruct (header_value s) as [v|] eqn:E; [|easy]. exact (proj2 (header_value_some _ _ E)).
  - intros H E. exact (header_value_none _ E H).
Qed.

Section Headers.
Context (V : Type).
Lemma add_legal l : forall h r, Forall (fun ht => token (fst ht) /\ header_text (snd ht)) l ->
  exists h', add_headers V h (l ++ r) = add_headers V h' r.
Proof.
  induction l as [|[n t] l IH]; intros h r Hl; [eauto|]. apply Forall_cons_iff in Hl as [[Hn Ht] Hl]. cbn [app add_headers]. cbn in Hn, Ht.
  unfold append_header. apply header_text_iff in Ht. apply token_iff in Hn.
  destruct (header_value t) as [v|]; [|easy]. destruct (header_name n) as [n'|]; [|easy]. cbn [ebind]. apply IH, Hl.
Qed.
(** All headers can be sent, or there is a first one that cannot. *)
Lemma first_problem (l : list (str * str)) : Forall (fun ht => token (fst ht) /\ header_text (snd ht)) l
  \/ exists pre n t post, l = pre ++ (n, t) :: post /\ Forall (fun ht => token (fst ht) /\ header_text (snd ht)) pre
       /\ (~ header_text t \/ (header_text t /\ ~ token n)).
Proof.
  induction l as [|[n t] l IH]; [left; constructor|].
  assert (Ht : header_text t \/ ~ header_text t).
  { destruct (header_value t) eqn:E; [left|right]; [apply header_text_iff; congruence|intro H; apply header_text_iff in H; congruence]. }
  assert (Hn : token n \/ ~ token n).
  { destruct (header_name n) eqn:E; [left|right]; [apply token_iff; congruence|intro H; apply token_iff in H; congruence]. }
  destruct Ht as [Ht|Ht]; [|right; exists [], n, t, l; auto].
  destruct Hn as [Hn|Hn]; [|right; exists [], n, t, l; auto].
  destruct IH as [IH|(pre & n' & t' & post & -> & Hp & Hx)]; [left; constructor; auto|].
  right. exists ((n, t) :: pre), n', t', post. split; [reflexivity|]. split; [constructor; auto|exact Hx].
Qed.
Lemma first_unique pre n t post pre' n' t' post' : pre ++ (n, t) :: post = pre' ++ (n', t') :: post' ->
  Forall (fun ht => token (fst ht) /\ header_text (snd ht)) pre -> Forall (fun ht => token (fst ht) /\ header_text (snd ht)) pre' ->
  ~ header_text t -> header_text t' -> ~ token n' -> False.
Proof.
  revert pre'. induction pre as [|x pre IH]; intros [|x' pre'] E Hp Hp' Ht Ht' Hn'; cbn in E.
  - injection E as -> -> _. contradiction.
  - injection E as <- _. apply Forall_inv in Hp'. now apply Ht.
  - injection E as -> _. apply Forall_inv in Hp. now apply Hn'.
  - injection E as _ E. apply Forall_inv_tail in Hp, Hp'. exact (IH pre' E Hp Hp' Ht Ht' Hn').
Qed.
End Headers.

Section Whole.
Context (ctx : context) (V : Type) (fs : N -> list N -> result V jerr) (W : Type) (ops : world_ops W) (h : hooks).

(** The beginning of a call. *)
Lemma run_starts m sb ps args w :
  method_sig_body h m = Ok sb -> strict ps -> parse (show ps) = Ok (m_path m) ->
  well_named (m_params m) -> no_header_map (m_params m) -> no_encode_path ps (m_params m) -> arguments_for (m_params m) args ->
  (header_value_static (c_api_version ctx) = None -> run V ctx fs W ops sb (variables args) w = (Panicked (lit "invalid header value"), [], w))
  /\ forall v, header_value_static (c_api_version ctx) = Some v ->
     (forall msg, add_headers V (h_append (lit "api-version") v []) (present_headers args) = Pan msg ->
        run V ctx fs W ops sb (variables args) w = (Panicked msg, [], w))
     /\ (forall e, add_headers V (h_append (lit "api-version") v []) (present_headers args) = Ret e ->
        run V ctx fs W ops sb (variables args) w = (Returned (RErr e), [], w)).
Proof.
  intros Hm Hst Hpa Hwn Hnh Hne Haf.
  unfold method_sig_body in Hm. cbv zeta in Hm.
  set (names := map p_name (m_params m)) in *.
  pose proof (unique_ident_spec (lit "url") names) as (ku & Hurl & Hufresh & _).
  set (url := unique_ident_from (lit "url") names) in *.
  set (xq := unique_ident_from (lit "request") names) in *.
  set (xs := unique_ident_from (lit "response") names) in *.
  set (xr := unique_ident_from (lit "result") names) in *.
  apply obind_ok in Hm as (u & Hu & Hm). apply obind_ok in Hm as (bs & Hbs & Hm).
  destruct (1 <? N.of_nat (length bs)) eqn:Hlen; [easy|].
  apply obind_ok in Hm as ([si sk] & Hs & Hm). apply obind_ok in Hm as ([ei ek] & He & Hm).
  apply obind_ok in Hm as (eas & Ha & Hm).
  set (arms := map success_arm si ++ eas ++ default_arm (m_responses m)) in *.
  injection Hm as <-. unfold run. cbn [sb_success sb_error sb_body].
  destruct Haf as (Hmap & Hg). pose proof Hwn as (Hnd & Hapi & Hwf).
  destruct (path_values_exist args) as (val & Hval).
  { now rewrite Hmap. } { rewrite Hmap. exact Hnd. }
  change ([?a; ?b; ?c] ++ ?l) with (a :: b :: c :: l).
  cbn [exec]. rewrite (eval_url_ok ctx V ps (m_path m) (m_params m) args u val Hst Hpa Hu (conj Hmap Hg) Hwn Hne Hval).
  set (ur := c_base_url ctx ++ _).
  unfold eval_headers. split; [now intros ->|]. intros v ->. cbv zeta.
  assert (Hbinds : forall bh, binds ((lit "header_map", bh) :: (url, BUrl ur) :: variables args) args).
  { intros bh [p o] Hi Hk. cbn [fst] in *. cbn [assoc].
    assert (Hin : In p (m_params m)). { rewrite <- Hmap. apply in_map_iff. now exists (p, o). }
    destruct (str_eqb (p_name p) (lit "header_map")) eqn:E1.
    { apply str_eqb_spec in E1. unfold no_header_map in Hnh. rewrite Forall_forall in Hnh. apply Hnh in Hin.
      destruct (p_kind p); congruence. }
    destruct (str_eqb (p_name p) url) eqn:E2.
    { apply str_eqb_spec in E2. exfalso. apply Hufresh. rewrite <- Hurl, <- E2. now apply in_map. }
    change (p_name p) with (p_name (fst (p, o))). apply lookup_variable; auto. now rewrite Hmap. }
  replace (header_stmts (m_params m)) with (header_stmts (map fst args)) by now rewrite Hmap.
  rewrite header_stmts_eval; auto. split; intros x ->; reflexivity.
Qed.

(** A call panics so, or it is as it should be. *)
Theorem run_total m sb ps args ws t w :
  method_sig_body h m = Ok sb ->
  strict ps -> parse (show ps) = Ok (m_path m) ->
  well_named (m_params m) -> no_header_map (m_params m) ->
  no_encode_path ps (m_params m) -> startable (m_method m) ->
  arguments_for (m_params m) args ->
  ws = m_websocket m -> lists ws t (m_responses m) ->
  (ws = true -> exists pre, m_responses m = pre ++ [OpResponse (SCode 101) RUpgrade]) ->
  (ws = false -> forall key k, In (key, k) t -> k <> RUpgrade) ->
  (exists msg, panics (c_api_version ctx) args msg /\ run V ctx fs W ops sb (variables args) w = (Panicked msg, [], w))
  \/ ((forall msg, ~ panics (c_api_version ctx) args msg)
      /\ exists out tr w', run V ctx fs W ops sb (variables args) w = (Returned out, tr, w') /\
    ((exists e, refused ctx ps args e /\ out = RErr e /\ tr = [] /\ w' = w) \/
     (encodable args /\ exists q, is_request ctx m (sb_success sb) (sb_error sb) ps args q /\
        call h ops (interpreted fs ws t) q w out tr w'))).
Proof.
  intros Hm Hst Hpa Hwn Hnh Hne Hsm Haf Hws Hli Hla Hup.
  destruct (run_starts m sb ps args w Hm Hst Hpa Hwn Hnh Hne Haf) as [Hv0 Hv].
  destruct (header_value_static (c_api_version ctx)) as [v|] eqn:Ev.
  2:{ left. exists (lit "invalid header value"). split; [|auto]. apply pn_version. intro H. apply printable_iff in H. congruence. }
  assert (Hpv : printable (c_api_version ctx)) by (apply printable_iff; congruence).
  destruct (Hv v eq_refl) as [Hpan Hret]. clear Hv0 Hv.
  destruct (first_problem (present_headers args)) as [Hall|(pre & n & t' & post & El & Hpre & Hx)].
  - right. split.
    + intros msg [H|pre n t' post _ El _ _ Hn]; [contradiction|]. rewrite El in Hall. apply Forall_app in Hall as [_ Hall].
      apply Forall_inv in Hall. now apply Hn.
    + apply run_present; auto; [congruence|]. eapply Forall_impl; [|exact Hall]. intros ht [H _]. now apply token_iff.
  - destruct (add_legal V pre (h_append (lit "api-version") v []) ((n, t') :: post) Hpre) as (h' & Eh). rewrite <- El in Eh.
    cbn [add_headers] in Eh. unfold append_header in Eh. destruct Hx as [Hx|[Hx Hn]].
    + right. split.
      * intros msg [H|pre' n' t'' post' _ El' Hp' Ht' Hn']; [contradiction|]. rewrite El in El'.
        apply (first_unique _ _ _ _ _ _ _ _ El' Hpre Hp' Hx Ht' Hn').
      * destruct (header_value t') eqn:Et; [elim Hx; apply header_text_iff; congruence|]. cbn [ebind] in Eh.
        rewrite (Hret _ Eh). do 3 eexists. split; [reflexivity|]. left. eexists. split; [|repeat split].
        apply rf_header. exists (n, t'). split; [rewrite El; apply in_elt|exact Hx].
    + left. exists (lit "static str is invalid name"). split; [eapply pn_name; eauto|].
      destruct (header_value t') eqn:Et; [|apply header_text_iff in Hx; congruence].
      destruct (header_name n) eqn:En; [elim Hn; apply token_iff; congruence|]. cbn [ebind] in Eh. auto.
Qed.
End Whole.

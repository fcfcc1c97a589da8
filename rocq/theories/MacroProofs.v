(** Facts about MacroModel.v. *)
From Coq Require Import Sorting.Sorted Sorting.Permutation.
From Verif Require Import Base OasModel OpModel ParamProofs SanitizeModel MacroModel MacroSpec.
Local Open Scope N_scope.

(** ** Crates *)

Lemma is_crate_spec : forall U s, is_crate U s = true <-> plain_name U s.
Proof.
  intros U s. unfold is_crate, plain_name. induction s as [|c s IH]; cbn; [split; auto|].
  rewrite negb_orb, andb_true_iff, IH. split.
  - intros [H1 H2]. constructor; auto. destruct (alphanumeric U c), (N.eqb_spec c (ch "_")), (N.eqb_spec c (ch "-")); cbn in H1; auto; discriminate.
  - intro H. inversion H as [|? ? H1 H2]; subst. split; auto. destruct H1 as [H1|[H1|H1]].
    + now rewrite H1.
    + subst c. rewrite N.eqb_refl. cbn. now rewrite andb_false_r.
    + subst c. rewrite N.eqb_refl. cbn. now rewrite andb_false_r.
Qed.
Lemma name_iff : forall U s n, parse_crate_name U s = Some n <-> n = s /\ plain_name U s.
Proof.
  intros U s n. unfold parse_crate_name. rewrite <- is_crate_spec. destruct (is_crate U s); intuition congruence.
Qed.

Section Crates.
Context {V : Type}.
Variable U : unicode.
Variable semver : str -> option V.

Lemma vers_spec : forall s v, vers_parse semver s = Some v <-> version_text semver s v.
Proof.
  intros s v. unfold vers_parse. split.
  - destruct (str_eqb s (lit "!")) eqn:E1.
    + intros [= <-]. apply str_eqb_spec in E1 as ->. constructor.
    + destruct (str_eqb s (lit "*")) eqn:E2.
      * intros [= <-]. apply str_eqb_spec in E2 as ->. constructor.
      * destruct (semver s) as [w|] eqn:E3; [|discriminate]. intros [= <-].
        apply str_eqb_neq in E1, E2. now constructor.
  - intros [| |s' w H1 H2 H3]; auto. apply str_eqb_neq in H1, H2. now rewrite H1, H2, H3.
Qed.
Lemma vers_unique : forall s v v', version_text semver s v -> version_text semver s v' -> v = v'.
Proof. intros s v v' H H'. apply vers_spec in H, H'. congruence. Qed.


Lemma split_spec : forall s a b, split_at_sign s = Some (a, b) <-> s = a ++ [ch "@"] ++ b /\ ~ In (ch "@") a.
Proof.
  induction s as [|c s IH]; cbn; intros a b.
  - split; [discriminate|]. intros [H _]. now destruct a.
  - destruct (N.eqb_spec c (ch "@")) as [->|Hne].
    + split.
      * intros [= <- <-]. auto.
      * intros [H Hin]. destruct a as [|x a]; cbn in H; injection H as H; subst; auto. exfalso. apply Hin. now left.
    + destruct (split_at_sign s) as [[a' b']|] eqn:E.
      * split.
        -- intros [= <- <-]. destruct (proj1 (IH a' b') eq_refl) as [-> Hin]. split; auto. intros [H|H]; auto.
        -- intros [H Hin]. destruct a as [|x a]; cbn in H; injection H as H1 H2; [now subst|]. subst x.
           assert (Some (a', b') = Some (a, b)) as [= <- <-].
           { apply (proj2 (IH a b)). split; auto. intro. apply Hin. now right. } auto.
      * split; [discriminate|]. intros [H Hin]. destruct a as [|x a]; cbn in H; injection H as H1 H2; [now subst|]. subst x.
        assert (None = Some (a, b)); [|discriminate]. apply (proj2 (IH a b)). split; auto. intro. apply Hin. now right.
Qed.
Lemma split_none : forall s, split_at_sign s = None <-> ~ In (ch "@") s.
Proof.
  intro s. split.
  - intros H Hin. apply in_split in Hin as (l1 & l2 & ->).
    induction l1 as [|c l1 IH]; cbn in H; [now rewrite N.eqb_refl in H|].
    destruct (c =? ch "@"); [discriminate|]. destruct (split_at_sign (l1 ++ ch "@" :: l2)) as [[]|]; [discriminate|auto].
  - intro H. destruct (split_at_sign s) as [[a b]|] eqn:E; auto. apply split_spec in E as [-> _].
    exfalso. apply H. rewrite !in_app_iff. cbn. tauto.
Qed.

Lemma spec_iff : forall s o v, parse_crate_spec U semver s = Some (MacroCrateSpec o v) <-> value_text U semver s o v.
Proof.
  intros s o v. unfold parse_crate_spec. split.
  - destruct (split_at_sign s) as [[a b]|] eqn:E.
    + destruct (is_crate U a) eqn:Ec; [|discriminate]. destruct (vers_parse semver b) as [w|] eqn:Ew; [|discriminate].
      intros [= <- <-]. apply split_spec in E as [-> Ha]. constructor; auto; [now apply is_crate_spec|now apply vers_spec].
    + destruct (vers_parse semver s) as [w|] eqn:Ew; [|discriminate]. intros [= <- <-].
      apply split_none in E. constructor; auto. now apply vers_spec.
  - intros [s' w Hn Hv|o' s' w Hn Hp Hv].
    + apply split_none in Hn. apply vers_spec in Hv. now rewrite Hn, Hv.
    + assert (E : split_at_sign (o' ++ [ch "@"] ++ s') = Some (o', s')) by now apply split_spec.
      rewrite E. apply is_crate_spec in Hp. apply vers_spec in Hv. now rewrite Hp, Hv.
Qed.

Definition entry_crate (e : str * macro_crate_spec V) : str * crate_spec V :=
  match mc_original (snd e) with
  | Some o => (o, CrateSpec (mc_version (snd e)) (Some (fst e)))
  | None => (fst e, CrateSpec (mc_version (snd e)) None)
  end.
Lemma apply_inserts : forall es m, apply_crates es m = bt_inserts (map entry_crate es) m.
Proof.
  induction es as [|[k [o v]] es IH]; cbn; intro m; auto. unfold apply_crates in IH. rewrite IH.
  unfold bt_inserts. cbn [entry_crate mc_original mc_version snd fst]. now destruct o.
Qed.

(** The crates that are configured, in the order of the section. *)
Definition about (e : str * str) (kv : str * crate_spec V) : Prop :=
  plain_name U (fst e) /\ configures U semver e (fst kv) (cs_version (snd kv)) (cs_rename (snd kv)).

Lemma crates_iff : forall l es, parse_crates U semver l = Some es -> Forall2 about l (map entry_crate es).
Proof.
  induction l as [|[k s] l IH]; cbn; intros es H; [injection H as <-; constructor|].
  destruct (parse_crate_name U k) as [n|] eqn:E1; [|discriminate].
  destruct (parse_crate_spec U semver s) as [[o v]|] eqn:E2; [|discriminate].
  destruct (parse_crates U semver l) as [es'|]; [|discriminate]. injection H as <-. cbn. constructor; auto.
  apply name_iff in E1 as [-> Hn]. apply spec_iff in E2. split; auto. unfold entry_crate. cbn.
  destruct o; cbn; now constructor.
Qed.
Lemma configures_entry : forall k s c v r, configures U semver (k, s) c v r ->
  exists o, parse_crate_spec U semver s = Some (MacroCrateSpec o v)
    /\ (c, CrateSpec v r) = entry_crate (k, MacroCrateSpec o v).
Proof.
  intros k s c v r H. inversion H as [k' s' v' Hv|k' s' o v' Hv]; subst; apply spec_iff in Hv; eauto.
Qed.
Lemma configures_unique : forall e c v r c' v' r', configures U semver e c v r -> configures U semver e c' v' r' ->
  c = c' /\ v = v' /\ r = r'.
Proof.
  intros [k s] c v r c' v' r' H H'. apply configures_entry in H as (o & E & F), H' as (o' & E' & F').
  rewrite E in E'. injection E' as <- <-. rewrite <- F in F'. now injection F'.
Qed.
Lemma crates_readable : forall l, (exists es, parse_crates U semver l = Some es) <-> readable U semver l.
Proof.
  intro l. split.
  - intros (es & H). apply crates_iff in H. unfold readable.
    remember (map entry_crate es) as kvs eqn:E. clear E. induction H as [|e kv l kvs [Hn H] _ IH]; constructor; eauto.
  - induction 1 as [|[k s] l (Hn & c & v & r & Hc) _ (es & IH)]; cbn; [eauto|].
    apply configures_entry in Hc as (o & E & _). cbn [fst] in Hn.
    rewrite (proj2 (name_iff U k k)) by auto. rewrite E, IH. eauto.
Qed.

Lemma sorted_ext : forall {A} (a b : list (str * A)), StronglySorted key_lt a -> StronglySorted key_lt b ->
  (forall k, assoc k a = assoc k b) -> a = b.
Proof.
  intros A a b Ha. revert b. induction Ha as [|[k v] a Ha IH Hf]; intros b Hb H.
  - destruct b as [|[k v] b]; auto. specialize (H k). cbn in H. now rewrite str_eqb_refl in H.
  - assert (Hmin : forall (l : list (str * A)) x y, StronglySorted key_lt l -> Forall (key_lt (x, y)) l -> assoc x l = None).
    { clear. intros l x y Hs Hf. destruct (assoc x l) as [v|] eqn:E; auto. apply assoc_In in E.
      rewrite Forall_forall in Hf. apply Hf in E. unfold key_lt in E. cbn in E. now rewrite str_cmp_refl in E. }
    inversion Hb as [E|[k' v'] b' Hb' Hf' E]; subst.
    { specialize (H k). cbn in H. now rewrite str_eqb_refl in H. }
    assert (k = k').
    { destruct (str_cmp k k') eqn:C.
      - now apply str_cmp_eq in C.
      - pose proof (H k) as Hk. cbn in Hk. rewrite str_eqb_refl in Hk.
        assert (str_eqb k k' = false) as En by (apply str_eqb_neq; intros ->; now rewrite str_cmp_refl in C).
        rewrite En in Hk. symmetry in Hk. apply assoc_In in Hk. rewrite Forall_forall in Hf'. apply Hf' in Hk.
        unfold key_lt in Hk. cbn in Hk. pose proof (str_cmp_lt_trans _ _ _ C Hk) as X. now rewrite str_cmp_refl in X.
      - apply str_cmp_gt in C. pose proof (H k') as Hk. cbn in Hk. rewrite str_eqb_refl in Hk.
        assert (str_eqb k' k = false) as En by (apply str_eqb_neq; intros ->; now rewrite str_cmp_refl in C).
        rewrite En in Hk. apply assoc_In in Hk. rewrite Forall_forall in Hf. apply Hf in Hk.
        unfold key_lt in Hk. cbn in Hk. pose proof (str_cmp_lt_trans _ _ _ C Hk) as X. now rewrite str_cmp_refl in X. }
    subst k'. assert (v = v') by (specialize (H k); cbn in H; rewrite str_eqb_refl in H; congruence). subst v'. f_equal.
    apply IH; auto. intro x. specialize (H x). cbn in H. destruct (str_eqb x k) eqn:E; auto.
    apply str_eqb_spec in E as ->. now rewrite (Hmin a k v), (Hmin b' k v).
Qed.

Lemma last_unique : forall {A} (kvs : list (str * A)) c v, NoDup (map fst kvs) ->
  (assoc_last c kvs = Some v <-> In (c, v) kvs).
Proof.
  intros A kvs c v Hnd. split; [apply assoc_last_In|]. induction kvs as [|[k w] kvs IH]; [easy|].
  inversion Hnd as [|? ? Hni Hnd']; subst. cbn. intros [[= -> ->]|H].
  - apply assoc_last_None in Hni. now rewrite Hni, str_eqb_refl.
  - now rewrite IH.
Qed.

Lemma separate_nodup : forall l es, parse_crates U semver l = Some es ->
  (separate_crates U semver l <-> NoDup (map fst (map entry_crate es))).
Proof.
  intros l es H. apply crates_iff in H. remember (map entry_crate es) as kvs eqn:E. clear E es.
  split.
  - intro Hs. induction H as [|e [c [v r]] l kvs [Hn He] Hl IH]; cbn; constructor.
    + intro Hin. apply in_map_iff in Hin as ((c' & v') & Ec & Hin). cbn in Ec. subst c'.
      assert (exists e', In e' l /\ about e' (c, v')) as (e' & He' & Ha).
      { clear - Hl Hin. induction Hl; [easy|]. destruct Hin as [->|Hin]; [exists x; cbn; auto|].
        destruct IHHl as (e' & ? & ?); auto. exists e'. cbn; auto. }
      apply in_split in He' as (l2 & l3 & ->). destruct Ha as [_ Ha].
      exact (Hs [] e l2 e' l3 c _ _ _ _ eq_refl He Ha).
    + apply IH. intros l1 e1 l2 e2 l3 c' v1 r1 v2 r2 -> H1 H2.
      exact (Hs (e :: l1) e1 l2 e2 l3 _ _ _ _ _ eq_refl H1 H2).
  - intros Hnd l1 e l2 e' l3 c v r v' r' -> H1 H2.
    apply Forall2_app_inv_l in H as (k1 & k2 & H11 & H & ->). inversion H as [|? kv ? k3 [_ Ha] Hr]; subst.
    apply Forall2_app_inv_l in Hr as (k4 & k5 & H41 & Hr & ->). inversion Hr as [|? kv' ? k6 [_ Ha'] Hr']; subst.
    destruct (configures_unique _ _ _ _ _ _ _ H1 Ha) as (Ec & _), (configures_unique _ _ _ _ _ _ _ H2 Ha') as (Ec' & _).
    rewrite map_app in Hnd. cbn in Hnd. apply NoDup_remove_2 in Hnd. apply Hnd. rewrite map_app. cbn.
    rewrite !in_app_iff. cbn. rewrite <- Ec, <- Ec'. tauto.
Qed.

Lemma crates_configured : forall l es, parse_crates U semver l = Some es -> separate_crates U semver l ->
  forall c v r, assoc c (apply_crates es []) = Some (CrateSpec v r)
    <-> exists e, In e l /\ configures U semver e c v r.
Proof.
  intros l es H Hs c v r. pose proof (proj1 (separate_nodup l es H) Hs) as Hnd. rewrite apply_inserts.
  rewrite bt_inserts_assoc by constructor. cbn [assoc]. apply crates_iff in H.
  assert (Hl : match assoc_last c (map entry_crate es) with Some v => Some v | None => None end = assoc_last c (map entry_crate es))
    by (now destruct (assoc_last c (map entry_crate es))). rewrite Hl. clear Hl. rewrite last_unique by auto.
  remember (map entry_crate es) as kvs eqn:E. clear E es Hs Hnd. split.
  - intro Hin. induction H as [|e kv l kvs [Hn Ha] Hl IH]; [easy|]. destruct Hin as [->|Hin].
    + exists e. split; [now left|exact Ha].
    + destruct (IH Hin) as (e' & ? & ?). exists e'. split; [now right|auto].
  - intros (e & Hin & Hc). induction H as [|e' [c' [v' r']] l kvs [Hn Ha] Hl IH]; [easy|]. destruct Hin as [->|Hin].
    + left. cbn in Ha. destruct (configures_unique _ _ _ _ _ _ _ Hc Ha) as (-> & -> & ->). reflexivity.
    + right. auto.
Qed.

Lemma crates_permuted : forall l l' es es', Permutation l l' -> separate_crates U semver l ->
  parse_crates U semver l = Some es -> parse_crates U semver l' = Some es' -> apply_crates es [] = apply_crates es' [].
Proof.
  intros l l' es es' Hp Hs H H'.
  assert (Hpm : Permutation (map entry_crate es) (map entry_crate es')).
  { apply Permutation_map. clear Hs. revert es es' H H'. induction Hp as [|[k s] l l' Hp IH|[k s] [k' s'] l|l l' l'' H1 IH1 H2 IH2];
      cbn; intros es es' H H'.
    - injection H as <-. injection H' as <-. constructor.
    - destruct (parse_crate_name U k) as [n|]; [|discriminate]. destruct (parse_crate_spec U semver s) as [sp|]; [|discriminate].
      destruct (parse_crates U semver l) as [e1|] eqn:E1; [|discriminate].
      destruct (parse_crates U semver l') as [e2|] eqn:E2; [|discriminate]. injection H as <-. injection H' as <-.
      constructor. auto.
    - destruct (parse_crate_name U k) as [n|]; [|discriminate]. destruct (parse_crate_spec U semver s) as [sp|]; [|discriminate].
      destruct (parse_crate_name U k') as [n'|]; [|discriminate]. destruct (parse_crate_spec U semver s') as [sp'|]; [|discriminate].
      destruct (parse_crates U semver l) as [e1|]; [|discriminate]. injection H as <-. injection H' as <-. constructor.
    - assert (exists e, parse_crates U semver l' = Some e) as (e & E).
      { apply crates_readable. assert (readable U semver l) as Hr by (apply crates_readable; eauto).
        unfold readable in *. rewrite Forall_forall in *. intros x Hx. apply Hr. eapply Permutation_in; [symmetry; exact H1|auto]. }
      transitivity e; eauto. }
  rewrite !apply_inserts. apply sorted_ext; try (apply bt_inserts_sorted; constructor).
  intro k. rewrite !bt_inserts_assoc by constructor. cbn [assoc].
  pose proof (proj1 (separate_nodup l es H) Hs) as Hnd.
  assert (Hnd' : NoDup (map fst (map entry_crate es'))) by (eapply Permutation_NoDup; [apply Permutation_map; exact Hpm|auto]).
  replace (assoc_last k (map entry_crate es)) with (assoc_last k (map entry_crate es')); auto.
  destruct (assoc_last k (map entry_crate es')) as [v|] eqn:E.
  - symmetry. apply last_unique; auto. apply last_unique in E; auto. eapply Permutation_in; [symmetry; exact Hpm|auto].
  - destruct (assoc_last k (map entry_crate es)) as [v|] eqn:E'; auto. apply last_unique in E'; auto.
    assert (In (k, v) (map entry_crate es')) as Hin by (eapply Permutation_in; [exact Hpm|auto]).
    apply last_unique in Hin; auto. congruence.
Qed.

(** Entries of different names that are about one crate differ, and the last of them counts. *)
Lemma last_counts : forall l e es c v r, parse_crates U semver (l ++ [e]) = Some es -> configures U semver e c v r ->
  assoc c (apply_crates es []) = Some (CrateSpec v r).
Proof.
  intros l e es c v r H Hc. rewrite apply_inserts, bt_inserts_assoc by constructor. cbn [assoc]. apply crates_iff in H.
  apply Forall2_app_inv_l in H as (k1 & k2 & _ & H & ->). inversion H as [|? [c' [v' r']] ? ? [_ Ha] Hn]; subst. inversion Hn; subst.
  cbn in Ha. destruct (configures_unique _ _ _ _ _ _ _ Hc Ha) as (-> & -> & ->).
  rewrite assoc_last_app. cbn. now rewrite str_eqb_refl.
Qed.
Lemma order_iff : forall l es, NoDup (map fst l) -> parse_crates U semver l = Some es ->
  (forall l' es', Permutation l l' -> parse_crates U semver l' = Some es' -> apply_crates es [] = apply_crates es' [])
  <-> separate_crates U semver l.
Proof.
  intros l es Hnd H. split; [|intros Hs l' es' Hp H'; exact (crates_permuted l l' es es' Hp Hs H H')].
  intros Hall l1 e l2 e' l3 c v r v' r' -> Hc Hc'.
  assert (Hlast : forall rest x cv cr, Permutation (l1 ++ e :: l2 ++ e' :: l3) (rest ++ [x]) -> configures U semver x c cv cr ->
    assoc c (apply_crates es []) = Some (CrateSpec cv cr)).
  { intros rest x cv cr Hp Hx. assert (exists es', parse_crates U semver (rest ++ [x]) = Some es') as (es' & E).
    { apply crates_readable. assert (readable U semver (l1 ++ e :: l2 ++ e' :: l3)) as Hr by (apply crates_readable; eauto).
      unfold readable in *. rewrite Forall_forall in *. intros y Hy. apply Hr. eapply Permutation_in; [symmetry; exact Hp|auto]. }
    rewrite (Hall _ _ Hp E). exact (last_counts _ _ _ _ _ _ E Hx). }
  assert (E1 : assoc c (apply_crates es []) = Some (CrateSpec v r)).
  { apply (Hlast (l1 ++ l2 ++ e' :: l3) e); auto. rewrite <- Permutation_middle. apply Permutation_cons_append. }
  assert (E2 : assoc c (apply_crates es []) = Some (CrateSpec v' r')).
  { apply (Hlast (l1 ++ e :: l2 ++ l3) e'); auto.
    transitivity (e' :: l1 ++ e :: l2 ++ l3); [|apply Permutation_cons_append].
    change (l1 ++ e :: l2 ++ e' :: l3) with (l1 ++ (e :: l2) ++ e' :: l3).
    change (l1 ++ e :: l2 ++ l3) with (l1 ++ (e :: l2) ++ l3). rewrite !app_assoc. symmetry. apply Permutation_middle. }
  rewrite E1 in E2. injection E2 as _ Er.
  assert (Hk : fst e = fst e').
  { inversion Hc as [k s w Hw|k s o w Hw]; inversion Hc' as [k' s' w' Hw'|k' s' o' w' Hw']; subst; try discriminate; cbn; [reflexivity|congruence]. }
  rewrite map_app in Hnd. cbn in Hnd. apply NoDup_remove_2 in Hnd. apply Hnd. rewrite map_app. cbn. rewrite Hk, !in_app_iff. cbn. tauto.
Qed.

End Crates.

(** ** Traits *)

Section Impls.
Context {I : Type}.
Variable impl_of : str -> option I.
Variable impl_eqb : I -> I -> bool.
Hypothesis eqb_ok : forall i j, impl_eqb i j = true <-> i = j.

(** What is read from a written trait. *)
Definition as_impl (w : bool * str) : impl_trait I :=
  ImplTrait (if fst w then BmMaybe else BmNone) (snd w) (impl_of (snd w)).

Definition no_sep (ts : list tok) : Prop := forall r, ts <> TkPathSep :: r.

Lemma segments_written : forall l n r, (length l < n)%nat -> no_sep r ->
  parse_segments n (flat_map (fun s => [TkPathSep; TkIdent s]) l ++ r) = Some (l, r).
Proof.
  induction l as [|s l IH]; intros n r Hn Hr; (destruct n as [|n]; [cbn in Hn; lia|]).
  - cbn. destruct r as [|[] r]; auto. now destruct (Hr r).
  - cbn in *. rewrite IH; auto. lia.
Qed.
Lemma segments_read : forall n ts l r, parse_segments n ts = Some (l, r) ->
  ts = flat_map (fun s => [TkPathSep; TkIdent s]) l ++ r /\ no_sep r.
Proof.
  induction n as [|n IH]; cbn; intros ts l r H; [discriminate|].
  destruct ts as [|[s| | | | |c] ts]; try (injection H as <- <-; split; [reflexivity|now intros r' [=]]).
  destruct ts as [|[s| | | | |c] ts]; try discriminate. destruct (parse_segments n ts) as [[l' r']|] eqn:E; [|discriminate].
  injection H as <- <-. apply IH in E as [-> Hr]. split; auto.
Qed.

Lemma written_path_cons : forall s l, written_path (s :: l) = TkIdent s :: flat_map (fun s => [TkPathSep; TkIdent s]) l.
Proof.
  intros s l. revert s. induction l as [|t l IH]; intro s; auto.
  change (written_path (s :: t :: l)) with ([TkIdent s; TkPathSep] ++ written_path (t :: l)). rewrite IH. reflexivity.
Qed.

Lemma path_written : forall (leading : bool) s l r, no_sep r ->
  parse_path ((if leading then [TkPathSep] else []) ++ written_path (s :: l) ++ r) = Some (TypePath leading s l, r).
Proof.
  intros leading s l r Hr. rewrite written_path_cons. unfold parse_path.
  assert (E : parse_segments (S (length (flat_map (fun s => [TkPathSep; TkIdent s]) l ++ r)))
            (flat_map (fun s => [TkPathSep; TkIdent s]) l ++ r) = Some (l, r)).
  { apply segments_written; auto. rewrite app_length.
    assert (length l <= length (flat_map (fun s => [TkPathSep; TkIdent s]) l))%nat; [|lia].
    clear. induction l; cbn; auto. lia. }
  destruct leading; cbn [app]; now rewrite E.
Qed.
Lemma path_read : forall ts p r, parse_path ts = Some (p, r) ->
  ts = (if tp_leading p then [TkPathSep] else []) ++ written_path (tp_first p :: tp_rest p) ++ r /\ no_sep r.
Proof.
  intros ts p r. unfold parse_path.
  assert (forall (b : bool) (ts' : list tok), match ts' with
     | TkIdent s :: r0 => match parse_segments (S (length r0)) r0 with
                          | Some (l, r') => Some (TypePath b s l, r') | None => None end
     | _ => None end = Some (p, r) ->
     ts' = written_path (tp_first p :: tp_rest p) ++ r /\ b = tp_leading p /\ no_sep r) as Hb.
  { intros b ts' H. destruct ts' as [|[s| | | | |c] ts']; try discriminate.
    destruct (parse_segments (S (length ts')) ts') as [[l r']|] eqn:E; [|discriminate]. injection H as <- <-.
    apply segments_read in E as [-> Hr]. cbn [tp_first tp_rest tp_leading]. now rewrite written_path_cons. }
  destruct ts as [|[s| | | | |c] ts]; intro H; try discriminate H;
    [apply (Hb false (TkIdent s :: ts)) in H|apply (Hb true ts) in H]; destruct H as (E & <- & Hr); rewrite E; auto.
Qed.

Definition no_plus (ts : list tok) : Prop := forall r, ts <> TkPlus :: r.

Lemma impl_written : forall w r, parse_impl_trait impl_of (written_trait w ++ r) = Some (as_impl w, r).
Proof. intros [[] s] r; reflexivity. Qed.
Lemma impl_read : forall ts i r, parse_impl_trait impl_of ts = Some (i, r) -> exists w, ts = written_trait w ++ r /\ i = as_impl w.
Proof.
  intros ts i r. unfold parse_impl_trait. destruct ts as [|[s| | | | |c] ts]; try discriminate.
  - intros [= <- <-]. now exists (false, s).
  - destruct ts as [|[s| | | | |c] ts]; try discriminate. intros [= <- <-]. now exists (true, s).
Qed.

Lemma impls_written : forall ws n r, ws <> [] -> (length ws <= n)%nat -> no_plus r ->
  parse_impls impl_of n (written_traits ws ++ r) = Some (map as_impl ws, r).
Proof.
  induction ws as [|w ws IH]; intros n r Hne Hn Hr; [easy|]. destruct n as [|n]; [cbn in Hn; lia|].
  destruct ws as [|w' ws].
  - cbn [written_traits parse_impls]. rewrite impl_written. destruct r as [|[] r]; auto. now destruct (Hr r).
  - change (written_traits (w :: w' :: ws)) with (written_trait w ++ [TkPlus] ++ written_traits (w' :: ws)).
    rewrite <- !app_assoc. cbn [parse_impls]. rewrite impl_written. cbn [app]. rewrite IH; auto; [easy|cbn in *; lia].
Qed.
Lemma impls_read : forall n ts l r, parse_impls impl_of n ts = Some (l, r) ->
  exists ws, ws <> [] /\ l = map as_impl ws /\ ts = written_traits ws ++ r /\ no_plus r.
Proof.
  induction n as [|n IH]; cbn; intros ts l r H; [discriminate|].
  destruct (parse_impl_trait impl_of ts) as [[i r0]|] eqn:E; [|discriminate]. apply impl_read in E as (w & -> & ->).
  assert (Hsingle : forall r0, no_plus r0 -> Some ([as_impl w], r0) = Some (l, r) ->
    exists ws, ws <> [] /\ l = map as_impl ws /\ written_trait w ++ r0 = written_traits ws ++ r /\ no_plus r).
  { intros r1 Hr1 [= <- <-]. exists [w]. now repeat split. }
  destruct r0 as [|[s| | | | |c] r0]; try (apply Hsingle in H; [exact H|now intros r' [=]]).
  destruct (parse_impls impl_of n r0) as [[l' r']|] eqn:E; [|discriminate]. injection H as <- <-.
  apply IH in E as (ws & Hne & -> & -> & Hr). exists (w :: ws). split; [easy|]. split; auto. split; auto.
  destruct ws as [|w' ws]; [easy|]. change (written_traits (w :: w' :: ws)) with (written_trait w ++ [TkPlus] ++ written_traits (w' :: ws)).
  now rewrite <- !app_assoc.
Qed.

Definition read_type (leading : bool) (s : str) (l : list str) (ws : list (bool * str)) : type_and_impls I :=
  TypeAndImpls (TypePath leading s l) (match ws with [] => None | _ => Some (map as_impl ws) end).

Lemma all_written : forall leading s l ws, parse_all impl_of (written leading (s :: l) ws) = Some (read_type leading s l ws).
Proof.
  intros leading s l ws. unfold parse_all, written, parse_type_and_impls. rewrite path_written by (destruct ws; now intros r [=]).
  destruct ws as [|w ws]; auto. cbn [app].
  pose proof (impls_written (w :: ws) (S (length (written_traits (w :: ws)))) []) as H. rewrite app_nil_r in H.
  rewrite H; auto; [easy| |now intros r [=]].
  assert (forall ws, (length ws <= length (written_traits ws))%nat) as Hl.
  { clear. induction ws as [|w ws IH]; auto. destruct ws as [|w' ws]; [destruct w as [[] ?]; cbn; lia|].
    change (written_traits (w :: w' :: ws)) with (written_trait w ++ [TkPlus] ++ written_traits (w' :: ws)).
    rewrite !app_length. cbn [length] in *. lia. }
  specialize (Hl (w :: ws)). lia.
Qed.
Lemma all_read : forall ts ty, parse_all impl_of ts = Some ty ->
  exists leading s l ws, ts = written leading (s :: l) ws /\ ty = read_type leading s l ws.
Proof.
  intros ts ty. unfold parse_all, parse_type_and_impls. destruct (parse_path ts) as [[p r]|] eqn:E; [|discriminate].
  apply path_read in E as [-> Hr]. destruct p as [leading s l]. cbn [tp_leading tp_first tp_rest].
  intro H. exists leading, s, l. unfold written. destruct r as [|[x| | | | |c] r]; try discriminate.
  - injection H as <-. now exists [].
  - destruct (parse_impls impl_of (S (length r)) r) as [[impls [|]]|] eqn:E; try discriminate. injection H as <-.
    apply impls_read in E as (ws & Hne & -> & -> & _). exists ws. rewrite app_nil_r. unfold read_type.
    destruct ws; [easy|]. auto.
Qed.

Lemma print_read : forall ts ty, parse_all impl_of ts = Some ty -> type_tokens ty = ts.
Proof.
  intros ts ty H. apply all_read in H as (leading & s & l & ws & -> & ->). unfold type_tokens, written, read_type.
  cbn [ti_name ti_impls]. unfold path_tokens. cbn [tp_leading tp_first tp_rest]. rewrite written_path_cons, <- app_assoc.
  do 2 f_equal. f_equal. destruct ws as [|w ws]; auto. cbn [app]. f_equal.
  generalize (w :: ws). clear. intro ws. induction ws as [|w ws IH]; auto.
  assert (E : impl_tokens (as_impl w) = written_trait w) by now destruct w as [[] ?].
  destruct ws as [|w' ws]; [exact E|]. cbn [map] in *.
  change (written_traits (w :: w' :: ws)) with (written_trait w ++ [TkPlus] ++ written_traits (w' :: ws)). rewrite <- E, <- IH.
  reflexivity.
Qed.

(** The fold. *)
Definition step (impls : list I) (i : impl_trait I) : list I :=
  match it_name i with
  | Some impl_name => match it_modifier i with
                      | BmNone => set_insert impl_eqb impl_name impls
                      | BmMaybe => set_remove impl_eqb impl_name impls end
  | None => impls
  end.
Lemma insert_In : forall x l i, In i (set_insert impl_eqb x l) <-> i = x \/ In i l.
Proof.
  intros x l i. unfold set_insert. destruct (existsb (impl_eqb x) l) eqn:E.
  - apply existsb_exists in E as (y & Hy & E). apply eqb_ok in E. subst y. split; auto. intros [->|H]; auto.
  - cbn. split; intros [H|H]; auto.
Qed.
Lemma remove_In : forall x l i, In i (set_remove impl_eqb x l) <-> i <> x /\ In i l.
Proof.
  intros x l i. unfold set_remove. rewrite filter_In, negb_true_iff. split.
  - intros [H E]. split; auto. intros ->. assert (impl_eqb x x = true) by now apply eqb_ok. congruence.
  - intros [Hne H]. split; auto. destruct (impl_eqb x i) eqn:E; auto. apply eqb_ok in E. now subst.
Qed.

Lemma fold_decided : forall ws defaults i,
  In i (fold_left step (map as_impl ws) defaults) <-> decided impl_of defaults ws i.
Proof.
  induction ws as [|w ws IH] using rev_ind; intros defaults i.
  - cbn. unfold decided. split; [auto|]. intros [(l1 & s & l2 & E & _)|[_ H]]; auto. now destruct l1.
  - rewrite map_app, fold_left_app. cbn [map fold_left]. set (acc := fold_left step (map as_impl ws) defaults) in *.
    specialize (IH defaults). fold acc in IH.
    assert (Hnot : impl_of (snd w) <> Some i -> (decided impl_of defaults (ws ++ [w]) i <-> decided impl_of defaults ws i)).
    { intro Hne. unfold decided. split.
      - intros [(l1 & s & l2 & E & H1 & H2)|[H Hd]].
        + left. destruct l2 as [|w' l2] using rev_ind.
          * apply app_inj_tail in E as [_ ->]. now destruct Hne.
          * clear IHl2. change (l1 ++ (false, s) :: l2 ++ [w']) with (l1 ++ ((false, s) :: l2) ++ [w']) in E.
            rewrite app_assoc in E. apply app_inj_tail in E as [-> ->]. apply Forall_app in H2. exists l1, s, l2. tauto.
        + right. apply Forall_app in H. tauto.
      - intros [(l1 & s & l2 & -> & H1 & H2)|[H Hd]].
        + left. exists l1, s, (l2 ++ [w]). rewrite <- app_assoc. repeat split; auto. apply Forall_app. auto.
        + right. split; auto. apply Forall_app. auto. }
    unfold step at 1, as_impl. cbn [it_name it_modifier]. destruct w as [q s]. cbn [fst snd] in *.
    destruct (impl_of s) as [j|] eqn:E.
    + destruct q.
      * rewrite remove_In, IH. split.
        -- intros [Hne H]. apply Hnot; auto. congruence.
        -- intro H. assert (i <> j).
           { intros ->. destruct H as [(l1 & s' & l2 & E' & H1 & H2)|[H _]].
             - destruct l2 as [|w' l2] using rev_ind; [apply app_inj_tail in E' as [_ E']; discriminate|]. clear IHl2.
               change (l1 ++ (false, s') :: l2 ++ [w']) with (l1 ++ ((false, s') :: l2) ++ [w']) in E'.
               rewrite app_assoc in E'. apply app_inj_tail in E' as [_ <-]. apply Forall_app in H2 as [_ H2].
               inversion H2. cbn in *. congruence.
             - apply Forall_app in H as [_ H]. inversion H. cbn in *. congruence. }
           split; auto. apply Hnot; auto. congruence.
      * rewrite insert_In, IH. split.
        -- intros [->|H]; [left; now exists ws, s, []|]. destruct (impl_eqb j i) eqn:Ej.
           ++ apply eqb_ok in Ej as ->. left. now exists ws, s, [].
           ++ apply Hnot; auto. intros [= ->]. assert (impl_eqb i i = true) by now apply eqb_ok. congruence.
        -- intro H. destruct (impl_eqb j i) eqn:Ej; [left; symmetry; now apply eqb_ok|]. right. apply Hnot; auto.
           intros [= ->]. assert (impl_eqb i i = true) by now apply eqb_ok. congruence.
    + rewrite IH. symmetry. apply Hnot. discriminate.
Qed.
Lemma fold_nodup : forall l defaults, NoDup defaults -> NoDup (fold_left step l defaults).
Proof.
  induction l as [|i l IH]; cbn; intros d Hd; auto. apply IH. unfold step. destruct (it_name i) as [x|]; auto.
  destruct (it_modifier i).
  - unfold set_insert. destruct (existsb (impl_eqb x) d) eqn:E; auto. constructor; auto. intro H.
    assert (existsb (impl_eqb x) d = true); [|congruence]. apply existsb_exists. exists x. split; auto. now apply eqb_ok.
  - unfold set_remove. now apply NoDup_filter.
Qed.

Lemma traits_decided : forall defaults leading s l ws, NoDup defaults ->
  exists ty, parse_all impl_of (written leading (s :: l) ws) = Some ty
    /\ ti_name ty = TypePath leading s l
    /\ NoDup (impls_of impl_eqb defaults ty)
    /\ forall i, In i (impls_of impl_eqb defaults ty) <-> decided impl_of defaults ws i.
Proof.
  intros defaults leading s l ws Hd. exists (read_type leading s l ws). split; [apply all_written|]. split; auto.
  assert (E : impls_of impl_eqb defaults (read_type leading s l ws) = fold_left step (map as_impl ws) defaults).
  { unfold impls_of, read_type. cbn [ti_impls]. destruct ws; reflexivity. }
  rewrite E. split; [now apply fold_nodup|]. intro i. apply fold_decided.
Qed.

Lemma syntax : forall ts, (exists ty, parse_all impl_of ts = Some ty)
  <-> exists leading segments ws, segments <> [] /\ ts = written leading segments ws.
Proof.
  intro ts. split.
  - intros (ty & H). apply all_read in H as (leading & s & l & ws & -> & _). exists leading, (s :: l), ws. auto.
    split; auto. easy.
  - intros (leading & [|s l] & ws & Hne & ->); [easy|]. rewrite all_written. eauto.
Qed.

End Impls.

(** Parameter maps and parameter order. *)
From Verif Require Import Base OasModel TemplateModel MethodModel OpModel RefSpec RefProofs ParamSpec.
From Coq Require Import ZifyBool ZifyN.
Local Open Scope N_scope.

(** ** BTreeMap *)

Definition key_lt {A} (a b : str * A) : Prop := str_cmp (fst a) (fst b) = Lt.

Lemma str_cmp_gt a b : str_cmp a b = Gt <-> str_cmp b a = Lt.
Proof. rewrite (str_cmp_antisym a b). destruct (str_cmp a b); cbn; split; easy. Qed.

Lemma bt_insert_In {A} k (v : A) m x : In x (bt_insert k v m) -> fst x = k \/ In x m.
Proof.
  induction m as [|[k' v'] m IH]; cbn.
  - intros [<-|[]]. auto.
  - destruct (str_cmp k k') eqn:E; cbn.
    + intros [<-|H]; auto. apply str_cmp_eq in E. subst. auto.
    + intros [<-|[H|H]]; auto.
    + intros [H|H]; auto. apply IH in H. tauto.
Qed.

Lemma bt_insert_sorted {A} k (v : A) m : StronglySorted key_lt m -> StronglySorted key_lt (bt_insert k v m).
Proof.
  induction 1 as [|[k' v'] m Hs IH Hf]; cbn.
  - repeat constructor.
  - destruct (str_cmp k k') eqn:E.
    + constructor; auto. 
    + constructor; [constructor; auto|]. constructor; auto.
      eapply Forall_impl; [|exact Hf]. intros x Hx. unfold key_lt in *. cbn in *.
      eapply str_cmp_lt_trans; eauto.
    + constructor; auto. apply Forall_forall. intros x Hx. apply bt_insert_In in Hx as [Hx|Hx].
      * unfold key_lt. cbn. rewrite Hx. now apply str_cmp_gt.
      * rewrite Forall_forall in Hf. auto.
Qed.

Lemma sorted_nodup {A} (m : list (str * A)) : StronglySorted key_lt m -> NoDup (map fst m).
Proof.
  induction 1 as [|[k v] m Hs IH Hf]; cbn; constructor; auto.
  intro H. apply in_map_iff in H as ([k' v'] & E & Hi). cbn in E. subst k'.
  rewrite Forall_forall in Hf. apply Hf in Hi. unfold key_lt in Hi. cbn in Hi. now rewrite str_cmp_refl in Hi.
Qed.

Lemma bt_insert_assoc {A} k (v : A) m n : StronglySorted key_lt m ->
  assoc n (bt_insert k v m) = if str_eqb n k then Some v else assoc n m.
Proof.
  induction 1 as [|[k' v'] m Hs IH Hf]; cbn; auto.
  destruct (str_cmp k k') eqn:E; cbn.
  - apply str_cmp_eq in E. subst k'. destruct (str_eqb n k); auto.
  - reflexivity.
  - rewrite IH. destruct (str_eqb n k') eqn:E1, (str_eqb n k) eqn:E2; auto.
    apply str_eqb_spec in E1, E2. subst. now rewrite str_cmp_refl in E.
Qed.

Lemma bt_inserts_sorted {A} (kvs : list (str * A)) : forall m,
  StronglySorted key_lt m -> StronglySorted key_lt (bt_inserts kvs m).
Proof. unfold bt_inserts. induction kvs; cbn; intros; auto using bt_insert_sorted. Qed.

Lemma bt_inserts_assoc {A} (kvs : list (str * A)) n : forall m, StronglySorted key_lt m ->
  assoc n (bt_inserts kvs m) = match assoc_last n kvs with Some v => Some v | None => assoc n m end.
Proof.
  unfold bt_inserts. induction kvs as [|[k v] kvs IH]; cbn; intros m Hs; auto.
  rewrite IH by now apply bt_insert_sorted. rewrite bt_insert_assoc by auto.
  destruct (assoc_last n kvs); auto. destruct (str_eqb n k); auto.
Qed.

(** Sorted maps with the same lookups are equal. *)
Lemma sorted_ext {A} (m m' : list (str * A)) : StronglySorted key_lt m -> StronglySorted key_lt m' ->
  (forall n, assoc n m = assoc n m') -> m = m'.
Proof.
  intro Hs. revert m'; induction Hs as [|[k v] m Hs IH Hf]; intros m' Hs' H.
  - destruct m' as [|[k v] m']; auto. specialize (H k). cbn in H. now rewrite str_eqb_refl in H.
  - inversion Hs' as [|[k' v'] m0 Hs0 Hf']; subst.
    { specialize (H k). cbn in H. now rewrite str_eqb_refl in H. }
    assert (Hlt : forall k0 k1 (v1 : A) l, Forall (key_lt (k1, v1)) l -> str_cmp k0 k1 = Lt -> assoc k0 ((k1, v1) :: l) = None).
    { intros k0 k1 v1 l HF HL. cbn. destruct (str_eqb k0 k1) eqn:E.
      - apply str_eqb_spec in E. subst. now rewrite str_cmp_refl in HL.
      - apply assoc_None. intro Hin. apply in_map_iff in Hin as ([a b] & E2 & Hi). cbn in E2. subst a.
        rewrite Forall_forall in HF. apply HF in Hi. unfold key_lt in Hi. cbn in Hi.
        pose proof (str_cmp_lt_trans _ _ _ HL Hi) as E3. now rewrite str_cmp_refl in E3. }
    assert (k = k') as <-.
    { destruct (str_cmp k k') eqn:E.
      - now apply str_cmp_eq.
      - pose proof (H k) as Hk. rewrite (Hlt _ _ _ _ Hf' E) in Hk. cbn in Hk. now rewrite str_eqb_refl in Hk.
      - apply str_cmp_gt in E. pose proof (H k') as Hk. rewrite (Hlt _ _ _ _ Hf E) in Hk. cbn in Hk.
        now rewrite str_eqb_refl in Hk. }
    assert (v = v') as <-.
    { specialize (H k). cbn in H. rewrite str_eqb_refl in H. congruence. }
    f_equal. apply IH; auto. intro n. destruct (str_eqb n k) eqn:E.
    + apply str_eqb_spec in E. subst n. pose proof (sorted_nodup _ (SSorted_cons _ Hs Hf)) as N1.
      pose proof (sorted_nodup _ (SSorted_cons _ Hs0 Hf')) as N2. cbn in N1, N2.
      inversion N1; inversion N2; subst. assert (assoc k m = None) as -> by now apply assoc_None.
      symmetry. now apply assoc_None.
    + specialize (H n). cbn in H. now rewrite E in H.
Qed.

Lemma assoc_last_perm {A} (l l' : list (str * A)) n : Permutation l l' -> NoDup (map fst l) ->
  assoc_last n l = assoc_last n l'.
Proof.
  intros Hp Hn. assert (Hn' : NoDup (map fst l')).
  { eapply Permutation_NoDup; [|exact Hn]. now apply Permutation_map. }
  assert (H : forall (m : list (str * A)) v, NoDup (map fst m) -> In (n, v) m -> assoc_last n m = Some v).
  { clear. induction m as [|[k w] m IH]; cbn; [easy|]. intros v Hn [E|Hi]; inversion Hn as [|? ? Hk Hm]; subst.
    - injection E as -> ->. destruct (assoc_last n m) eqn:E.
      + apply assoc_last_In in E. apply (in_map fst) in E. easy.
      + now rewrite str_eqb_refl.
    - now rewrite (IH v). }
  destruct (assoc_last n l) as [v|] eqn:E.
  - apply assoc_last_In in E. symmetry. apply H; auto. eapply Permutation_in; eauto.
  - symmetry. apply assoc_last_None. apply assoc_last_None in E. intro Hi. apply E.
    apply Permutation_sym in Hp. eapply Permutation_in; [apply Permutation_map; exact Hp|auto].
Qed.

(** ** The combined parameter map *)

Definition combined (pi op : list parameter) : list (str * parameter) :=
  bt_inserts (map param_entry op) (bt_inserts (map param_entry pi) []).

Lemma combined_sorted pi op : StronglySorted key_lt (combined pi op).
Proof. unfold combined. apply bt_inserts_sorted, bt_inserts_sorted. constructor. Qed.

Lemma entry_names l : map fst (map param_entry l) = map param_name l.
Proof. rewrite map_map. reflexivity. Qed.

Lemma assoc_last_entry n l p : assoc_last n (map param_entry l) = Some p <->
  last_of_name l p /\ param_name p = n.
Proof.
  unfold last_of_name. induction l as [|q l IH]; cbn.
  - split; [easy|]. intros ((pre & post & E & _) & _). now destruct pre.
  - destruct (assoc_last n (map param_entry l)) as [x|] eqn:E.
    + rewrite IH. clear IH. pose proof E as E'. apply assoc_last_In in E'.
      apply (in_map fst) in E'. rewrite entry_names in E'. cbn in E'. split.
      * intros ((pre & post & -> & Hn) & Hx). split; auto. exists (q :: pre), post. auto.
      * intros ((pre & post & E2 & Hn) & Hx). split; auto. destruct pre as [|y pre]; cbn in E2.
        -- injection E2 as -> ->. exfalso. apply Hn. now rewrite Hx.
        -- injection E2 as -> ->. exists pre, post. auto.
    + assert (Hnone : ~ In n (map param_name l)) by (rewrite <- entry_names; now apply assoc_last_None).
      fold (param_name q). destruct (str_eqb n (param_name q)) eqn:Eq.
      * apply str_eqb_spec in Eq. split.
        -- intros [= <-]. split; auto. exists [], l. split; auto. congruence.
        -- intros ((pre & post & E2 & Hn) & Hp). destruct pre as [|y pre]; cbn in E2; [congruence|].
           injection E2 as -> ->. exfalso. apply Hnone. rewrite map_app. apply in_or_app. right. left. auto.
      * apply str_eqb_neq in Eq. split; [easy|].
        intros ((pre & post & E2 & Hn) & Hp). destruct pre as [|y pre]; cbn in E2.
        { injection E2 as -> ->. congruence. }
        injection E2 as -> ->. exfalso. apply Hnone. rewrite map_app. apply in_or_app. right. left. auto.
Qed.

Lemma combined_In pi op n p : In (n, p) (combined pi op) <-> effective pi op p /\ param_name p = n.
Proof.
  assert (H : In (n, p) (combined pi op) <-> assoc n (combined pi op) = Some p).
  { split; [|apply assoc_In]. apply assoc_nodup_In. apply sorted_nodup, combined_sorted. }
  rewrite H. unfold combined. rewrite !bt_inserts_assoc by (try apply bt_inserts_sorted; constructor).
  cbn [assoc]. unfold effective.
  destruct (assoc_last n (map param_entry op)) as [x|] eqn:E.
  - pose proof E as E'. apply assoc_last_entry in E' as (Hl & Hn). split.
    + intros [= <-]. auto.
    + intros ([Ho|(_ & Ho)] & Hp).
      * rewrite <- E. now apply assoc_last_entry.
      * exfalso. apply Ho. destruct Hl as (pre & post & -> & _). rewrite Hp, <- Hn, map_app.
        apply in_or_app. right. now left.
  - assert (Hnone : ~ In n (map param_name op)) by (rewrite <- entry_names; now apply assoc_last_None).
    destruct (assoc_last n (map param_entry pi)) as [y|] eqn:E2.
    + pose proof E2 as E3. apply assoc_last_entry in E3 as (Hl & Hn). split.
      * intros [= <-]. split; auto. right. split; auto. congruence.
      * intros ([Ho|(Ho & _)] & Hp).
        -- exfalso. apply Hnone. destruct Ho as (pre & post & -> & _). rewrite map_app, <- Hp.
           apply in_or_app. right. now left.
        -- assert (assoc_last n (map param_entry pi) = Some p) by now apply assoc_last_entry. congruence.
    + split; [easy|]. intros ([Ho|(Ho & _)] & Hp).
      * exfalso. apply Hnone. destruct Ho as (pre & post & -> & _). rewrite map_app, <- Hp.
        apply in_or_app. right. now left.
      * assert (assoc_last n (map param_entry pi) = Some p) by now apply assoc_last_entry. congruence.
Qed.

Lemma combined_names pi op : map fst (combined pi op) = map param_name (map snd (combined pi op)).
Proof.
  rewrite map_map. apply map_ext_in. intros [n p] Hi. apply combined_In in Hi. cbn. symmetry. tauto.
Qed.

Lemma combined_nodup pi op : NoDup (map param_name (map snd (combined pi op))).
Proof. rewrite <- combined_names. apply sorted_nodup, combined_sorted. Qed.

Lemma combined_effective pi op p : In p (map snd (combined pi op)) <-> effective pi op p.
Proof.
  rewrite in_map_iff. split.
  - intros ([n q] & <- & Hi). apply combined_In in Hi. tauto.
  - intro H. exists (param_name p, p). split; auto. now apply combined_In.
Qed.

Lemma combined_perm pi op pi' op' : Permutation pi pi' -> Permutation op op' ->
  NoDup (map param_name pi) -> NoDup (map param_name op) -> combined pi op = combined pi' op'.
Proof.
  intros Hpi Hop Npi Nop. apply sorted_ext; auto using combined_sorted.
  intro n. unfold combined. rewrite !bt_inserts_assoc by (try apply bt_inserts_sorted; constructor). cbn [assoc].
  rewrite (assoc_last_perm (map param_entry op) (map param_entry op')), (assoc_last_perm (map param_entry pi) (map param_entry pi'));
    auto using Permutation_map; now rewrite entry_names.
Qed.

(** ** Sorting *)

Lemma position_occurs l a i : position l a = Some i <-> occurs_at l a (N.to_nat i).
Proof.
  split.
  - revert i; induction l as [|x l IH]; cbn; intros i H; [easy|].
    destruct (str_eqb x a) eqn:E.
    + apply str_eqb_spec in E. subst. injection H as <-. constructor.
    + apply str_eqb_neq in E. destruct (position l a) as [j|]; [|easy]. injection H as <-.
      rewrite N2Nat.inj_succ. constructor; auto.
  - intro H. remember (N.to_nat i) as n. revert i Heqn. induction H as [x l|x y l n Hne H IH]; intros i E; cbn.
    + rewrite str_eqb_refl. f_equal. lia.
    + apply str_eqb_neq in Hne. rewrite Hne. rewrite (IH (N.of_nat n)) by lia. cbn. f_equal. lia.
Qed.

Lemma position_In l a : position l a <> None <-> In a l.
Proof.
  induction l as [|x l IH]; cbn; [easy|]. destruct (str_eqb x a) eqn:E.
  - apply str_eqb_spec in E. split; auto. easy.
  - apply str_eqb_neq in E. rewrite <- IH. destruct (position l a); cbn; split; intro H; auto; try easy.
    right. easy. destruct H; [easy|exact H].
Qed.

Lemma occurs_at_inj l a b n : occurs_at l a n -> occurs_at l b n -> a = b.
Proof.
  intro H; revert b; induction H as [x l|x y l n Hne H IH]; intros b Hb; inversion Hb; subst; auto.
Qed.

(** The comparison agrees with [precedes] on distinct parameters, except that
    it does not look right of a body. *)
Definition comparable (names : list str) (a b : op_param) : Prop :=
  match p_kind a, p_kind b with
  | KPath, KPath => In (p_api_name a) names /\ In (p_api_name b) names /\ p_api_name a <> p_api_name b
  | KQuery _, KQuery _ | KHeader _, KHeader _ => p_api_name a <> p_api_name b
  | _, KBody _ => False
  | _, _ => True
  end.

Lemma cmp_params_spec names a b : comparable names a b ->
  (cmp_params names a b = Ok Lt /\ precedes names a b) \/
  (cmp_params names a b = Ok Gt /\ precedes names b a).
Proof.
  unfold comparable, cmp_params, precedes.
  destruct (p_kind a) eqn:Ka, (p_kind b) eqn:Kb; cbn; intro H; try easy;
    try (left; split; [reflexivity|left; lia]); try (right; split; [reflexivity|left; lia]).
  - destruct H as (Ha & Hb & Hne). apply position_In in Ha, Hb.
    destruct (position names (p_api_name a)) as [i|] eqn:Ei; [|easy].
    destruct (position names (p_api_name b)) as [j|] eqn:Ej; [|easy].
    apply position_occurs in Ei, Ej. destruct (i ?= j) eqn:E.
    + exfalso. apply Hne. apply N.compare_eq_iff in E. subst j. eapply occurs_at_inj; eauto.
    + left. split; auto. right. split; auto. exists (N.to_nat i), (N.to_nat j). repeat split; auto.
      change (i < j) in E. lia.
    + right. split; auto. right. split; auto. exists (N.to_nat j), (N.to_nat i). repeat split; auto.
      apply N.compare_gt_iff in E. change (j < i) in E. lia.
  - destruct (str_cmp (p_api_name a) (p_api_name b)) eqn:E.
    + exfalso. apply H. now apply str_cmp_eq.
    + left. auto.
    + right. split; auto. right. split; auto. now apply str_cmp_gt.
  - destruct (str_cmp (p_api_name a) (p_api_name b)) eqn:E.
    + exfalso. apply H. now apply str_cmp_eq.
    + left. auto.
    + right. split; auto. right. split; auto. now apply str_cmp_gt.
Qed.

Lemma occurs_at_fun l a n n' : occurs_at l a n -> occurs_at l a n' -> n = n'.
Proof.
  intro H; revert n'; induction H as [x l|x y l n Hne H IH]; intros n' Hn'; inversion Hn'; subst; auto; easy.
Qed.

Lemma precedes_trans names a b c : precedes names a b -> precedes names b c -> precedes names a c.
Proof.
  unfold precedes. intros [H1|(H1 & P1)] [H2|(H2 & P2)]; try (left; lia).
  right. split; [lia|].
  destruct (p_kind a), (p_kind b), (p_kind c); cbn in *; try lia; try easy; try (eapply str_cmp_lt_trans; eauto).
  destruct P1 as (i & j & Hi & Hj & Hlt), P2 as (j' & k & Hj' & Hk & Hlt').
  exists i, k. repeat split; auto. assert (j = j') by (eapply occurs_at_fun; eauto). lia.
Qed.

Lemma precedes_irrefl names a : ~ precedes names a a.
Proof.
  unfold precedes. intros [H|(_ & H)]; [lia|]. destruct (p_kind a).
  - destruct H as (i & j & Hi & Hj & Hlt). assert (i = j) by (eapply occurs_at_fun; eauto). lia.
  - now rewrite str_cmp_refl in H.
  - now rewrite str_cmp_refl in H.
  - easy.
Qed.

(** The prefix is kept in reverse order. *)
Definition follows names a b := precedes names b a.

Lemma insert_tail_ok names x rp :
  (forall y, In y rp -> comparable names x y) ->
  StronglySorted (follows names) rp ->
  exists rp', insert_tail names x rp = Ok rp' /\ Permutation rp' (x :: rp) /\
    StronglySorted (follows names) rp'.
Proof.
  induction rp as [|y rp IH]; cbn; intros Hc Hs.
  - exists [x]. repeat split; auto. repeat constructor.
  - inversion Hs as [|? ? Hs' Hf]; subst.
    destruct (cmp_params_spec names x y) as [(-> & Hp)|(-> & Hp)]; auto; cbn.
    + destruct IH as (rp' & -> & Hperm & Hsort); auto. cbn. exists (y :: rp'). split; auto. split.
      * rewrite Hperm. apply perm_swap.
      * constructor; auto. apply Forall_forall. intros z Hz.
        apply (Permutation_in _ Hperm) in Hz as [<-|Hz]; auto. rewrite Forall_forall in Hf. auto.
    + exists (x :: y :: rp). repeat split; auto. constructor; auto. constructor; auto.
      eapply Forall_impl; [|exact Hf]. intros z Hz. unfold follows in *. eapply precedes_trans; eauto.
Qed.

Lemma strongly_sorted_app {A} (R : A -> A -> Prop) l x : StronglySorted R l -> Forall (fun y => R y x) l ->
  StronglySorted R (l ++ [x]).
Proof.
  induction 1 as [|a l Hs IH Hf]; cbn; intro H.
  - repeat constructor.
  - inversion H; subst. constructor; auto. apply Forall_app. auto.
Qed.

Lemma sorted_rev names l : StronglySorted (follows names) l -> StronglySorted (precedes names) (rev l).
Proof.
  induction 1 as [|a l Hs IH Hf]; cbn.
  - constructor.
  - apply strongly_sorted_app; auto. apply Forall_rev. exact Hf.
Qed.

Lemma sort_from_ok names l : forall rp,
  StronglySorted (follows names) rp ->
  (forall x y, In x l -> In y rp -> comparable names x y) ->
  ForallOrdPairs (fun a b => comparable names b a) l ->
  exists l', sort_params_from names rp l = Ok l' /\ Permutation l' (rev rp ++ l) /\
    StronglySorted (precedes names) l'.
Proof.
  induction l as [|x l IH]; cbn; intros rp Hs Hx Hc.
  - exists (rev rp). rewrite app_nil_r. repeat split; auto. now apply sorted_rev.
  - inversion Hc as [|? ? Hf Hc']; subst.
    destruct (insert_tail_ok names x rp) as (rp' & -> & Hperm & Hs'); auto. cbn.
    destruct (IH rp') as (l' & -> & Hp & Hsort); auto.
    + intros a y Ha Hy. apply (Permutation_in _ Hperm) in Hy as [<-|Hy]; auto.
      rewrite Forall_forall in Hf. auto.
    + exists l'. repeat split; auto. rewrite Hp.
      transitivity (rp' ++ l); [apply Permutation_app_tail, Permutation_sym, Permutation_rev|].
      rewrite Hperm. transitivity (x :: rev rp ++ l); [|apply Permutation_middle].
      cbn. constructor. apply Permutation_app_tail, Permutation_rev.
Qed.

Lemma nodup_ord_pairs {A B} (f : A -> B) l : NoDup (map f l) -> ForallOrdPairs (fun a b => f a <> f b) l.
Proof.
  induction l as [|a l IH]; cbn; intro H; constructor; inversion H; subst; auto.
  apply Forall_forall. intros b Hb E. apply H2. rewrite E. now apply in_map.
Qed.

Lemma ord_pairs_impl {A} (R R' : A -> A -> Prop) l :
  (forall a b, In a l -> In b l -> R a b -> R' a b) -> ForallOrdPairs R l -> ForallOrdPairs R' l.
Proof.
  intros H HF. induction HF as [|a l Hf HF IH]; constructor.
  - apply Forall_forall. intros b Hb. rewrite Forall_forall in Hf. apply H; auto; [now left|now right].
  - apply IH. intros x y Hx Hy. apply H; now right.
Qed.

Lemma ord_pairs_snoc {A} (R : A -> A -> Prop) l x :
  ForallOrdPairs R l -> Forall (fun a => R a x) l -> ForallOrdPairs R (l ++ [x]).
Proof.
  induction 1 as [|a l Hf HF IH]; cbn; intro H; [repeat constructor|].
  inversion H; subst. constructor; auto. apply Forall_app. auto.
Qed.

Definition non_body (p : op_param) : Prop := match p_kind p with KBody _ => False | _ => True end.

(** At most one path parameter, or all of them in the template. *)
Definition paths_known (names : list str) (l : list op_param) : Prop :=
  (length (filter is_path l) <= 1)%nat \/ Forall (fun p => In (p_api_name p) names) (filter is_path l).

Lemma filter_two {A} (f : A -> bool) l a b : In a l -> In b l -> a <> b -> f a = true -> f b = true ->
  (2 <= length (filter f l))%nat.
Proof.
  intros Ha Hb Hne Fa Fb. assert (In a (filter f l)) by (apply filter_In; auto).
  assert (In b (filter f l)) by (apply filter_In; auto).
  destruct (filter f l) as [|x [|y r]]; cbn in *; try lia; try easy. 
  destruct H as [->|[]], H0 as [->|[]]. easy.
Qed.

Lemma presented_comparable names l : presented l -> paths_known names l ->
  ForallOrdPairs (fun a b => comparable names b a) l.
Proof.
  intros (front & body & -> & Hf & Hn & Hb) Hk.
  assert (Hfront : ForallOrdPairs (fun a b => comparable names b a) front).
  { apply nodup_ord_pairs in Hn. revert Hn. apply ord_pairs_impl. intros a b Ha Hb' Hne.
    rewrite Forall_forall in Hf. pose proof (Hf _ Ha) as Na. pose proof (Hf _ Hb') as Nb.
    unfold comparable. destruct (p_kind a) eqn:Ka, (p_kind b) eqn:Kb; auto; try easy.
    destruct Hk as [Hk|Hk].
    - exfalso. assert (2 <= length (filter is_path (front ++ body)))%nat; [|lia].
      apply (filter_two is_path (front ++ body) a b); try (apply in_or_app; auto); unfold is_path; try now rewrite ?Ka, ?Kb.
      congruence.
    - rewrite Forall_forall in Hk. repeat split; auto; apply Hk, filter_In; unfold is_path; rewrite ?Ka, ?Kb;
        split; auto; apply in_or_app; auto. }
  destruct Hb as [->|(b & ct & -> & Kb)]; [now rewrite app_nil_r|].
  apply ord_pairs_snoc; auto. eapply Forall_impl; [|exact Hf]. intros a Na. unfold comparable. rewrite Kb.
  exact Na.
Qed.

Lemma sort_params_ok names l : presented l -> paths_known names l ->
  exists l', sort_params l names = Ok l' /\ Permutation l' l /\ StronglySorted (precedes names) l'.
Proof.
  intros Hp Hk. destruct (sort_from_ok names l []) as (l' & H & Hperm & Hs); auto.
  - constructor.
  - intros x y _ [].
  - now apply presented_comparable.
  - exists l'. auto.
Qed.

(** Sorting succeeds only when the path parameters are in the template (or
    there is just one). *)
Lemma insert_tail_cases names x rp :
  match insert_tail names x rp with
  | Ok rp' => Permutation rp' (x :: rp)
  | Err _ => False
  | Panic _ => True
  end.
Proof.
  induction rp as [|y rp IH]; cbn; auto. 
  destruct (cmp_params names x y) as [c|e|m] eqn:E; cbn; auto.
  - destruct c; auto. destruct (insert_tail names x rp) as [r| |]; cbn in *; auto.
    rewrite IH. apply perm_swap.
  - unfold cmp_params in E. destruct (p_kind x), (p_kind y); try easy.
    destruct (position _ _); [|easy]. destruct (position _ _); easy.
Qed.

Lemma insert_tail_path names x rp rp' : insert_tail names x rp = Ok rp' -> p_kind x = KPath ->
  Forall (fun y => match p_kind y with KBody _ => False | _ => True end) rp ->
  filter is_path rp <> [] ->
  In (p_api_name x) names /\ exists y, In y (filter is_path rp) /\ In (p_api_name y) names.
Proof.
  revert rp'; induction rp as [|y rp IH]; cbn; intros rp' H Kx Hf Hne; [easy|].
  inversion Hf as [|? ? Hy Hf']; subst. unfold cmp_params in H at 1. rewrite Kx in H.
  assert (Hpy : is_path y = match p_kind y with KPath => true | _ => false end) by reflexivity.
  rewrite Hpy in Hne |- *. clear Hpy. destruct (p_kind y) eqn:Ky; try easy; cbn in H.
  - destruct (position names (p_api_name x)) eqn:E1; [|easy].
    destruct (position names (p_api_name y)) eqn:E2; [|easy].
    assert (position names (p_api_name x) <> None) as H1 by congruence.
    assert (position names (p_api_name y) <> None) as H2 by congruence.
    apply position_In in H1, H2. split; auto. exists y. split; auto. now left.
  - destruct (insert_tail names x rp) as [r| |] eqn:E; try easy. eapply IH; eauto.
  - destruct (insert_tail names x rp) as [r| |] eqn:E; try easy. eapply IH; eauto.
Qed.

(** The invariant of a sort that succeeds. *)
Definition checked (names : list str) (l : list op_param) : Prop :=
  (length (filter is_path l) <= 1)%nat \/ forall p, In p l -> p_kind p = KPath -> In (p_api_name p) names.

Lemma filter_perm {A} (f : A -> bool) l l' : Permutation l l' -> Permutation (filter f l) (filter f l').
Proof.
  induction 1 as [|x l l' H IH|x y l|l l' l'' H1 IH1 H2 IH2]; cbn.
  - constructor.
  - destruct (f x); auto.
  - destruct (f x), (f y); auto. constructor.
  - eapply perm_trans; eauto.
Qed.

Lemma checked_perm names l l' : Permutation l l' -> checked names l -> checked names l'.
Proof.
  intros Hp [H|H].
  - left. now rewrite <- (Permutation_length (filter_perm is_path _ _ Hp)).
  - right. intros p Hi. apply H. apply Permutation_sym in Hp. eapply Permutation_in; eauto.
Qed.

Lemma insert_checked names x rp rp' : insert_tail names x rp = Ok rp' ->
  Forall non_body rp -> checked names rp -> checked names rp'.
Proof.
  intros H Hf Hc. pose proof (insert_tail_cases names x rp) as Hp. rewrite H in Hp.
  apply (checked_perm names (x :: rp)); [now apply Permutation_sym|].
  destruct (p_kind x) eqn:Kx.
  2-4: destruct Hc as [Hc|Hc]; [left; cbn; unfold is_path at 1; rewrite Kx; auto
                               |right; intros p [<-|Hi] Kp; [congruence|auto]].
  destruct (filter is_path rp) as [|z zs] eqn:Ez.
  - left. cbn. unfold is_path at 1. rewrite Kx, Ez. auto.
  - destruct (insert_tail_path names x rp rp' H Kx Hf) as (Hx & y & Hy & Hyn); [now rewrite Ez|].
    right. intros p [<-|Hi] Kp; auto. destruct Hc as [Hc|Hc]; auto.
    rewrite Ez in Hc, Hy. cbn in Hc. destruct zs; [|cbn in Hc; lia].
    destruct Hy as [->|[]]. assert (Hin : In p (filter is_path rp)).
    { apply filter_In. unfold is_path. now rewrite Kp. }
    rewrite Ez in Hin. destruct Hin as [<-|[]]. exact Hyn.
Qed.

Lemma sort_from_checked names front : forall rp body l',
  sort_params_from names rp (front ++ body) = Ok l' ->
  Forall non_body front -> (body = [] \/ exists b ct, body = [b] /\ p_kind b = KBody ct) ->
  Forall non_body rp -> checked names rp -> checked names l' /\ Permutation l' (rp ++ front ++ body).
Proof.
  induction front as [|x front IH]; intros rp body l' H Hf Hb Hrp Hc; cbn [app] in H.
  - destruct Hb as [->|(b & ct & -> & Kb)]; cbn in H.
    + injection H as <-. cbn. rewrite app_nil_r. split; [|apply Permutation_sym, Permutation_rev].
      eapply checked_perm; [apply Permutation_rev|auto].
    + apply obind_ok in H as (rp' & Hi & H). injection H as <-.
      pose proof (insert_tail_cases names b rp) as Hp. rewrite Hi in Hp. split.
      * eapply checked_perm; [apply Permutation_rev|]. eapply insert_checked; eauto.
      * rewrite <- Permutation_rev, Hp. cbn. apply Permutation_cons_append.
  - cbn in H. apply obind_ok in H as (rp' & Hi & H). inversion Hf as [|? ? Hx Hf']; subst.
    pose proof (insert_tail_cases names x rp) as Hp. rewrite Hi in Hp.
    destruct (IH rp' body l') as (Hc' & Hp'); auto.
    + apply Forall_forall. intros y Hy. apply (Permutation_in _ Hp) in Hy as [<-|Hy]; auto.
      rewrite Forall_forall in Hrp. auto.
    + eapply insert_checked; eauto.
    + split; auto. rewrite Hp', Hp. cbn. apply Permutation_middle.
Qed.

Lemma checked_known names l : checked names l <-> paths_known names l.
Proof.
  unfold checked, paths_known. split; (intros [H|H]; [now left|right]).
  - apply Forall_forall. intros p Hp. apply filter_In in Hp as (Hi & Hk). apply H; auto.
    unfold is_path in Hk. now destruct (p_kind p).
  - intros p Hi Hk. rewrite Forall_forall in H. apply H, filter_In. unfold is_path. now rewrite Hk.
Qed.

Lemma sort_params_checked names l l' : presented l -> sort_params l names = Ok l' -> paths_known names l.
Proof.
  intros (front & body & -> & Hf & Hn & Hb) H.
  destruct (sort_from_checked names front [] body l') as (Hc & Hp); auto.
  - left. cbn. lia.
  - apply checked_known. cbn in Hp. eapply checked_perm; eauto.
Qed.

Lemma sort_params_iff names l : presented l ->
  ((exists l', sort_params l names = Ok l') <-> paths_known names l).
Proof.
  intro Hp. split.
  - intros (l' & H). eapply sort_params_checked; eauto.
  - intro Hk. destruct (sort_params_ok names l Hp Hk) as (l' & H & _). eauto.
Qed.

Lemma sort_params_sorted names l l' : presented l -> sort_params l names = Ok l' ->
  Permutation l' l /\ StronglySorted (precedes names) l'.
Proof.
  intros Hp H. destruct (sort_params_ok names l Hp) as (l'' & E & H1 & H2).
  - eapply sort_params_checked; eauto.
  - rewrite E in H. injection H as <-. auto.
Qed.

(** The order is determined by the set of parameters. *)
Lemma sorted_unique names l l' : StronglySorted (precedes names) l -> StronglySorted (precedes names) l' ->
  Permutation l l' -> l = l'.
Proof.
  intro Hs; revert l'; induction Hs as [|a l Hs IH Hf]; intros l' Hs' Hp.
  - apply Permutation_nil in Hp. auto.
  - destruct l' as [|b l'].
    { apply Permutation_sym, Permutation_nil in Hp. easy. }
    inversion Hs' as [|? ? Hs0 Hf']; subst. assert (a = b) as <-.
    { assert (Ha : In a (b :: l')) by (eapply Permutation_in; [exact Hp|now left]).
      assert (Hb : In b (a :: l)) by (eapply Permutation_in; [apply Permutation_sym; exact Hp|now left]).
      destruct Ha as [->|Ha]; auto. destruct Hb as [->|Hb]; auto. exfalso.
      rewrite Forall_forall in Hf, Hf'. apply (precedes_irrefl names a).
      eapply precedes_trans; [apply Hf|apply Hf']; eauto. }
    f_equal. apply IH; auto. eapply Permutation_cons_inv; eauto.
Qed.

(** ** From the document *)

Lemma forall2_impl {A B} (P Q : A -> B -> Prop) l l' :
  (forall a b, P a b -> Q a b) -> Forall2 P l l' -> Forall2 Q l l'.
Proof. intros H. induction 1; constructor; auto. Qed.

Section Doc.
Variables (snake pascal : str -> str) (ts : type_space).

Lemma process_param_ok oid p q : process_param snake pascal ts oid p = Ok q ->
  p_api_name q = param_name p /\ p_name q = snake (param_name p) /\ non_body q /\
  p_description q = pd_description (parameter_data p) /\
  (match p with ParPath _ _ => p_kind q = KPath | ParQuery _ _ => exists r, p_kind q = KQuery r
   | ParHeader d => p_kind q = KHeader (pd_required d) | ParCookie _ => False end).
Proof.
  unfold process_param, param_name. destruct p as [d []|d|d []|d]; cbn; intro H; try easy.
  - apply obind_ok in H as (s & _ & H). apply obind_ok in H as (t & _ & H).
    apply obind_ok in H as ([t' r] & _ & H). injection H as <-. cbn. repeat split; eauto.
  - apply obind_ok in H as (s & _ & H). apply obind_ok in H as (t & _ & H). injection H as <-. cbn. repeat split; eauto.
  - destruct (negb _); [easy|].
    apply obind_ok in H as (s & _ & H). apply obind_ok in H as (t & _ & H). injection H as <-. cbn. repeat split; eauto.
Qed.

Lemma get_body_param_ok oid body comps q : get_body_param pascal ts oid body comps = Ok (Some q) ->
  exists ct, p_kind q = KBody ct /\ p_name q = lit "body" /\ p_api_name q = lit "body" /\
    match ct with Text mime => mime = lit "text/plain" \/ mime = lit "text/x-markdown" | _ => True end.
Proof.
  unfold get_body_param. destruct body as [b|]; [|easy]. intro H.
  apply obind_ok in H as (b' & _ & H). destruct (rb_content b') as [|[cs md] [|]]; try easy.
  destruct (mt_schema md); [|easy]. apply obind_ok in H as (ct & Hct & H).
  apply obind_ok in H as (typ & _ & H). injection H as <-. exists ct. cbn. repeat split; auto.
  destruct ct; auto. unfold body_content_type_of in Hct.
  repeat match type of Hct with (if ?b then _ else _) = _ => destruct b eqn:?E; try easy end.
  injection Hct as <-. apply orb_true_iff in E2 as [E2|E2]; apply str_eqb_spec in E2; auto.
Qed.

(** What [process_operation] does with the parameters. *)
Lemma process_operation_params op comps path method pp m :
  process_operation snake pascal ts op comps path method pp = Ok m ->
  exists oid pi ops qs body,
    op_id op = Some oid /\
    Forall2 (resolves co_parameters comps) pp pi /\
    Forall2 (resolves co_parameters comps) (op_parameters op) ops /\
    Forall2 (fun p q => process_param snake pascal ts oid p = Ok q) (map snd (combined pi ops)) qs /\
    get_body_param pascal ts oid (op_request_body op) comps = Ok body /\
    parse path = Ok (m_path m) /\
    sort_params (qs ++ match body with Some b => [b] | None => [] end) (names (m_path m)) = Ok (m_params m) /\
    presented (qs ++ match body with Some b => [b] | None => [] end) /\
    m_websocket m = (match assoc (lit "x-dropshot-websocket") (op_extensions op) with Some _ => true | None => false end) /\
    process_responses pascal ts oid (m_websocket m) comps op = Ok (m_responses m) /\
    m_paginated m = dropshot_pagination_data ts (op_extensions op) (m_params m) (m_responses m) /\
    (m_websocket m = true -> m_paginated m = None) /\
    http_method_of method = Ok (m_method m) /\
    m_operation_id m = snake oid /\ m_tags m = op_tags op.
Proof.
  unfold process_operation. destruct (op_id op) as [oid|] eqn:Eid; [|easy]. cbv zeta. intro H.
  apply obind_ok in H as (m0 & Hm0 & H). apply obind_ok in H as (ops & Hops & H).
  apply obind_ok in H as (qs & Hqs & H). apply obind_ok in H as (body & Hbody & H).
  apply obind_ok in H as (tmp & Htmp & H). apply obind_ok in H as (params & Hpar & H).
  apply obind_ok in H as (rs & Hrs & H).
  match type of H with (if ?b then _ else _) = _ => destruct b eqn:Ews; [easy|] end.
  apply obind_ok in H as (mt & Hmt & H). injection H as <-. cbn.
  unfold parameter_map in Hm0. apply obind_ok in Hm0 as (pi & Hpi & Hm0). injection Hm0 as <-.
  unfold items in Hpi, Hops. apply mapM_ok_iff in Hpi, Hops, Hqs.
  exists oid, pi, ops, qs, body. repeat split; auto.
  - eapply forall2_impl; [|exact Hpi]. intros a b Hab. now apply item_ok_iff.
  - eapply forall2_impl; [|exact Hops]. intros a b Hab. now apply item_ok_iff.
  - exists qs, (match body with Some b => [b] | None => [] end). split; auto. 
    change (bt_inserts _ _) with (combined pi ops) in Hqs. repeat split.
    + clear -Hqs. induction Hqs as [|p q ps qs Hp _ IH]; constructor; auto.
      apply process_param_ok in Hp. unfold non_body in Hp. tauto.
    + assert (E : map p_api_name qs = map param_name (map snd (combined pi ops))).
      { clear -Hqs. induction Hqs as [|p q ps qs Hp _ IH]; cbn; auto.
        apply process_param_ok in Hp. f_equal; tauto. }
      rewrite E. apply combined_nodup.
    + destruct body as [b|]; auto. right. apply get_body_param_ok in Hbody as (ct & Hk & _). eauto.
  - intro Hw. rewrite Hw in Ews. now destruct (dropshot_pagination_data _ _ _ _).
Qed.
End Doc.

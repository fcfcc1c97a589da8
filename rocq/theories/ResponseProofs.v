(** Proofs about response dispatch. *)
From Coq Require Import ZifyBool ZifyN Permutation.
From Verif Require Import Base OasModel HeaderModel ClientModel ClientSpec ClientProofs MethodModel
  OpModel RunModel RefSpec RefProofs ResponseSpec.
Local Open Scope N_scope.

(** ** Sorting and popping *)

Lemma insert_response_In x y l : In x (insert_response y l) <-> x = y \/ In x l.
Proof.
  induction l as [|z l IH]; cbn; [intuition|].
  destruct (_ <=? _); cbn; [rewrite IH|]; intuition.
Qed.

Lemma sort_responses_In x l : In x (sort_responses l) <-> In x l.
Proof.
  unfold sort_responses.
  assert (H : forall acc, In x (fold_left (fun acc x => insert_response x acc) l acc) <-> In x l \/ In x acc).
  { induction l as [|y l IH]; cbn; intro acc; [intuition|].
    rewrite IH, insert_response_In. intuition. }
  rewrite H. cbn. intuition.
Qed.

Lemma pop_default_In x l : In x (pop_default l) -> In x l.
Proof.
  unfold pop_default. destruct (rev l) as [|d [|s r]] eqn:E; auto.
  destruct (o_status s); auto. destruct (o_status d); auto. destruct (_ =? _); auto.
  intro H. apply in_rev in H. apply in_rev. rewrite E. now right.
Qed.

Lemma pop_default_keeps x l : In x l ->
  In x (pop_default l) \/
  (o_status x = SDefault /\ exists y, In y (pop_default l) /\ o_status y = SRange 2).
Proof.
  unfold pop_default. intro H. destruct (rev l) as [|d [|s r]] eqn:E; auto.
  destruct (o_status s) eqn:Es; auto. destruct (o_status d) eqn:Ed; auto.
  destruct (r0 =? 2) eqn:E2; auto. apply N.eqb_eq in E2. subst r0.
  apply in_rev in H. rewrite E in H. destruct H as [<-|H].
  - right. split; auto. exists s. split; auto. rewrite <- in_rev. now left.
  - left. now rewrite <- in_rev.
Qed.

Lemma pop_default_no_range l : (forall x, In x l -> o_status x <> SRange 2) -> pop_default l = l.
Proof.
  unfold pop_default. intro H. destruct (rev l) as [|d [|s r]] eqn:E; auto.
  destruct (o_status s) eqn:Es; auto. destruct (o_status d) eqn:Ed; auto.
  destruct (r0 =? 2) eqn:E2; auto. apply N.eqb_eq in E2. subst r0.
  exfalso. apply (H s); auto. apply in_rev. rewrite E. right. now left.
Qed.

Lemma resp_kind_eqb_eq a b : resp_kind_eqb a b = true <-> a = b.
Proof.
  destruct a, b; cbn; try (split; [easy|congruence]); try easy.
  rewrite N.eqb_eq. split; congruence.
Qed.

(** ** What [extract_responses] returns *)

Lemma extract_ok m f items k : extract_responses m f = Ok (items, k) ->
  items = pop_default (sort_responses (List.filter (fun r => f (o_status r)) (m_responses m))) /\
  (forall x, In x items -> o_typ x = k) /\ (items = [] -> k = RNone).
Proof.
  unfold extract_responses. destruct (_ && _); [easy|].
  set (l := pop_default _). destruct l as [|x r] eqn:E.
  - intros [= <- <-]. repeat split; auto. intros x [].
  - destruct (forallb _ r) eqn:Ef; [|easy]. intros [= <- <-]. repeat split; try easy.
    intros y [<-|H]; auto. rewrite forallb_forall in Ef. apply Ef in H. now apply resp_kind_eqb_eq in H.
Qed.

(** ** Selection among arms with one right-hand side *)

Lemma select_app a b s : select (a ++ b) s = match select a s with Some r => Some r | None => select b s end.
Proof. induction a as [|[p r] a IH]; cbn; auto. destruct (pat_matches p s); auto. Qed.

Lemma select_const {A} (f : A -> pat * rhs) c l s :
  (forall x, In x l -> snd (f x) = c) ->
  (select (map f l) s = Some c /\ exists x, In x l /\ pat_matches (fst (f x)) s = true) \/
  (select (map f l) s = None /\ forall x, In x l -> pat_matches (fst (f x)) s = false).
Proof.
  induction l as [|x l IH]; cbn; intro H; [right; split; [easy|intros ? []]|].
  destruct (f x) as [p r] eqn:Ef. assert (r = c) by (specialize (H x (or_introl eq_refl)); rewrite Ef in H; exact H).
  subst r. destruct (pat_matches p s) eqn:Ep.
  - left. split; auto. exists x. split; auto. now rewrite Ef.
  - destruct IH as [(Hs & y & Hy & Hm)|(Hs & Hm)].
    + intros y Hy. apply H. now right.
    + left. split; auto. exists y. auto.
    + right. split; auto. intros y [<-|Hy]; auto. now rewrite Ef.
Qed.

(** The error arms: one per item, except upgrade items. *)
Lemma error_arms_shape items arms : concat_arms (mapM error_arm items) = Ok arms ->
  arms = map (fun r => (match o_status r with
                        | SCode c => PatCode c
                        | SRange n => PatRange (n * 100) (n * 100 + 99)
                        | SDefault => PatAny
                        end, RhsErr (decode_of (o_typ r))))
             (List.filter (fun r => negb (resp_kind_eqb (o_typ r) RUpgrade)) items) /\
  (forall x, In x items -> o_typ x = RUpgrade -> o_status x = SDefault).
Proof.
  unfold concat_arms, omap. intro H. apply obind_ok in H as (l & Hl & H). injection H as <-.
  revert l Hl; induction items as [|x items IH]; cbn; intros l Hl.
  - injection Hl as <-. split; [easy|intros ? []].
  - apply obind_ok in Hl as (a & Ha & Hl). apply obind_ok in Hl as (b & Hb & Hl). injection Hl as <-.
    apply IH in Hb as (Hb & Hd). cbn. rewrite Hb. unfold error_arm in Ha.
    destruct (o_typ x) eqn:Ek; cbn.
    1-3: injection Ha as <-; cbn; rewrite Ek; split; [easy|];
      intros y [<-|Hy]; [congruence|auto].
    destruct (o_status x) eqn:Es; try easy. injection Ha as <-. cbn. split; auto.
    intros y [<-|Hy]; auto.
Qed.

(** ** The table and the list of responses *)

Lemma key_eqb_eq a b : key_eqb a b = true <-> a = b.
Proof. destruct a, b; cbn; try (split; [easy|congruence]); try easy; rewrite N.eqb_eq; split; congruence. Qed.

Lemma kind_at_In key t k : kind_at key t = Some k -> In (key, k) t.
Proof.
  induction t as [|[key' k'] t IH]; cbn; [easy|].
  destruct (key_eqb key key') eqn:E; [|auto]. intros [= ->]. apply key_eqb_eq in E. subst. now left.
Qed.

Lemma kind_at_None key t : kind_at key t = None <-> forall k, ~ In (key, k) t.
Proof.
  induction t as [|[key' k'] t IH]; cbn; [firstorder|].
  destruct (key_eqb key key') eqn:E.
  - split; [easy|]. intro H. exfalso. apply key_eqb_eq in E. subst. apply (H k'). now left.
  - rewrite IH. split.
    + intros H k [[= -> ->]|Hk]; [|now apply (H k)].
      assert (key_eqb key key = true) by now apply key_eqb_eq. congruence.
    + intros H k Hk. apply (H k). now right.
Qed.

(** [rs] lists the table and the two added responses. *)
Definition lists (ws : bool) (t : list (resp_status * resp_kind)) (rs : list op_response) : Prop :=
  forall key k, In (OpResponse key k) rs <->
    In (key, k) t \/ (~ documents_success t /\ key = SRange 2 /\ k = RRaw) \/
    (ws = true /\ key = SCode 101 /\ k = RUpgrade).

(** What an arm does, as an action. *)
Definition rhs_is (sk ek : resp_kind) (x : rhs) (a : action) : Prop :=
  match a with
  | AOk k => x = RhsOk (decode_of k) /\ k = sk
  | AErr k => x = RhsErr (decode_of k) /\ k = ek /\ k <> RUpgrade
  | AUnexpected => x = RhsUnexpected
  end.

Section Dispatch.
Variables (m : op_method) (ws : bool) (t : list (resp_status * resp_kind)).
Hypothesis Hlists : lists ws t (m_responses m).
Hypothesis Hlast : ws = true -> exists pre, m_responses m = pre ++ [OpResponse (SCode 101) RUpgrade].
Hypothesis Hup : ws = false -> forall key k, In (key, k) t -> k <> RUpgrade.
Variables (si ei : list op_response) (sk ek : resp_kind) (eas : list (pat * rhs)).
Hypothesis Hs : extract_responses m is_success_or_default = Ok (si, sk).
Hypothesis He : extract_responses m is_error_or_default = Ok (ei, ek).
Hypothesis Ha : concat_arms (mapM error_arm ei) = Ok eas.

Let arms := map success_arm si ++ eas ++ default_arm (m_responses m).

Lemma resp_eta x : OpResponse (o_status x) (o_typ x) = x.
Proof. now destruct x. Qed.

Lemma si_in x : In x si -> In x (m_responses m) /\ is_success_or_default (o_status x) = true.
Proof.
  apply extract_ok in Hs as (-> & _ & _). intro H.
  apply pop_default_In, sort_responses_In, filter_In in H. exact H.
Qed.

Lemma si_kind x : In x si -> o_typ x = sk.
Proof. apply extract_ok in Hs as (_ & H & _). auto. Qed.

Lemma in_si x : In x (m_responses m) -> is_success_or_default (o_status x) = true ->
  In x si \/ (o_status x = SDefault /\ exists y, In y si /\ o_status y = SRange 2).
Proof.
  apply extract_ok in Hs as (-> & _ & _). intros H1 H2.
  apply pop_default_keeps. apply sort_responses_In, filter_In. auto.
Qed.

Lemma ei_iff x : In x ei <-> In x (m_responses m) /\ is_error_or_default (o_status x) = true.
Proof.
  apply extract_ok in He as (-> & _ & _). rewrite pop_default_no_range.
  - rewrite sort_responses_In, filter_In. reflexivity.
  - intros y Hy. apply sort_responses_In, filter_In in Hy as (_ & Hy).
    intro E. rewrite E in Hy. easy.
Qed.

Lemma ei_kind x : In x ei -> o_typ x = ek.
Proof. apply extract_ok in He as (_ & H & _). auto. Qed.

(** Which statuses the success arms catch. *)
Definition success_covers (s : N) : Prop :=
  exists x, In x (m_responses m) /\ is_success_or_default (o_status x) = true /\
    match o_status x with SCode c => s = c | _ => 200 <= s <= 299 end.

Lemma select_success s :
  (success_covers s /\ select (map success_arm si) s = Some (RhsOk (decode_of sk))) \/
  (~ success_covers s /\ select (map success_arm si) s = None).
Proof.
  destruct (select_const success_arm (RhsOk (decode_of sk)) si s) as [(Hsel & x & Hx & Hm)|(Hsel & Hm)].
  - intros x Hx. cbn. now rewrite (si_kind _ Hx).
  - left. split; auto. exists x. pose proof (si_in _ Hx) as (H1 & H2). repeat split; auto.
    cbn in Hm. destruct (o_status x); cbn in Hm; lia.
  - right. split; auto. intros (x & Hx & Hsd & Hst).
    destruct (in_si _ Hx Hsd) as [Hi|(Hd & y & Hy & Hr)].
    + apply Hm in Hi. cbn in Hi. destruct (o_status x); cbn in Hi; lia.
    + apply Hm in Hy. cbn in Hy. rewrite Hd in Hst. rewrite Hr in Hy. cbn in Hy. lia.
Qed.

Definition error_covers (s : N) : Prop :=
  exists x, In x (m_responses m) /\ is_error_or_default (o_status x) = true /\
    o_typ x <> RUpgrade /\
    match o_status x with SCode c => s = c | SRange n => n * 100 <= s <= n * 100 + 99 | SDefault => True end.

Lemma select_error s :
  (error_covers s /\ select eas s = Some (RhsErr (decode_of ek)) /\ ek <> RUpgrade) \/
  (~ error_covers s /\ select eas s = None).
Proof.
  destruct (error_arms_shape _ _ Ha) as (Hshape & Hd). rewrite Hshape.
  match goal with |- context [map ?f ?l] =>
    destruct (select_const f (RhsErr (decode_of ek)) l s) as [(Hsel & x & Hx & Hm)|(Hsel & Hm)] end.
  - intros x Hx. apply filter_In in Hx as (Hx & _). cbn. now rewrite (ei_kind _ Hx).
  - left. apply filter_In in Hx as (Hx & Hu). pose proof (ei_kind _ Hx) as Hk.
    apply ei_iff in Hx as (H1 & H2).
    assert (o_typ x <> RUpgrade).
    { intro E. rewrite E in Hu. easy. }
    repeat split; auto.
    + exists x. repeat split; auto. cbn in Hm. destruct (o_status x); cbn in Hm; auto; lia.
    + now rewrite <- Hk.
  - right. split; auto. intros (x & Hx & Hed & Hu & Hst).
    assert (Hi : In x ei) by (apply ei_iff; auto).
    assert (Hf : In x (List.filter (fun r => negb (resp_kind_eqb (o_typ r) RUpgrade)) ei)).
    { apply filter_In. split; auto. destruct (resp_kind_eqb (o_typ x) RUpgrade) eqn:E; auto.
      now apply resp_kind_eqb_eq in E. }
    apply Hm in Hf. cbn in Hf. destruct (o_status x); cbn in Hf; auto; try lia; easy.
Qed.

(** The default arm is there whenever no default arm precedes it. *)
Lemma default_arm_cases :
  (default_arm (m_responses m) = [(PatAny, RhsUnexpected)]) \/
  (default_arm (m_responses m) = [] /\ ws = false /\ exists k, In (SDefault, k) t).
Proof.
  unfold default_arm. destruct (rev (m_responses m)) as [|r l] eqn:E; auto.
  destruct (is_default (o_status r)) eqn:Ed; auto. right.
  assert (Hr : In r (m_responses m)) by (apply in_rev; rewrite E; now left).
  destruct ws eqn:Ew.
  { destruct (Hlast eq_refl) as (pre & Hp). rewrite Hp, rev_app_distr in E. injection E as <- _. easy. }
  repeat split; auto. exists (o_typ r). rewrite <- (resp_eta r) in Hr. apply Hlists in Hr.
  destruct (o_status r); try easy. destruct Hr as [H|[(_ & H & _)|(_ & H & _)]]; easy.
Qed.

Lemma in_rs key k : In (key, k) t -> In (OpResponse key k) (m_responses m).
Proof. intro H. apply Hlists. auto. Qed.

(** Covering statuses in terms of the table. *)
Lemma success_covers_iff s :
  success_covers s <->
  (200 <= s < 300 /\ (lookup t s <> None \/ ~ documents_success t)) \/
  (s = 101 /\ (ws = true \/ kind_at (SCode 101) t <> None)).
Proof.
  split.
  - intros (x & Hx & Hsd & Hst). rewrite <- (resp_eta x) in Hx. apply Hlists in Hx.
    destruct Hx as [Hx|[(Hn & Hk & _)|(Hw & Hk & _)]].
    + destruct (o_status x) as [c|n|] eqn:E; cbn in Hsd.
      * subst c. destruct (N.eq_dec s 101) as [->|n].
        -- right. split; auto. right. intro H. rewrite kind_at_None in H. now apply H in Hx.
        -- left. split; [lia|]. left. unfold lookup.
           destruct (kind_at (SCode s) t) eqn:Ek; [easy|]. rewrite kind_at_None in Ek. now apply Ek in Hx.
      * left. split; [lia|]. left. assert (n = 2) by lia. subst n. unfold lookup.
        destruct (kind_at (SCode s) t); [easy|].
        assert (s / 100 = 2) as ->.
        { assert (Hd := N.div_mod s 100). pose proof (N.mod_lt s 100). lia. }
        destruct (kind_at (SRange 2) t) eqn:Ek; [easy|]. rewrite kind_at_None in Ek. now apply Ek in Hx.
      * left. split; [lia|]. left. unfold lookup.
        destruct (kind_at (SCode s) t); [easy|]. destruct (kind_at (SRange _) t); [easy|].
        intro Ek. rewrite kind_at_None in Ek. now apply Ek in Hx.
    + rewrite Hk in Hst. left. split; [lia|auto].
    + rewrite Hk in Hst. right. auto.
  - intros [(Hr & [Hl|Hn])|(-> & [Hw|Hk])].
    + unfold lookup in Hl. destruct (kind_at (SCode s) t) as [k|] eqn:E1.
      { apply kind_at_In in E1. exists (OpResponse (SCode s) k). split; [now apply in_rs|]. cbn. lia. }
      destruct (kind_at (SRange (s / 100)) t) as [k|] eqn:E2.
      { apply kind_at_In in E2. assert (s / 100 = 2) as E.
        { assert (Hd := N.div_mod s 100). pose proof (N.mod_lt s 100). lia. }
        rewrite E in E2. exists (OpResponse (SRange 2) k). split; [now apply in_rs|]. cbn. lia. }
      destruct (kind_at SDefault t) as [k|] eqn:E3; [|easy].
      apply kind_at_In in E3. exists (OpResponse SDefault k). split; [now apply in_rs|]. cbn. lia.
    + exists (OpResponse (SRange 2) RRaw). split; [apply Hlists; auto|]. cbn. lia.
    + exists (OpResponse (SCode 101) RUpgrade). split; [apply Hlists; auto|]. cbn. lia.
    + destruct (kind_at (SCode 101) t) as [k|] eqn:E1; [|easy]. apply kind_at_In in E1.
      exists (OpResponse (SCode 101) k). split; [now apply in_rs|]. cbn. lia.
Qed.

Lemma error_covers_default s k : In (SDefault, k) t -> k <> RUpgrade -> error_covers s.
Proof. intros H Hk. exists (OpResponse SDefault k). split; [now apply in_rs|]. cbn. auto. Qed.

(** The kind found by [lookup] is the common one. *)
Lemma success_kind_code c k : In (SCode c, k) t -> (c = 101 \/ 200 <= c < 300) -> k = sk.
Proof.
  intros H Hc. apply in_rs in H. destruct (in_si _ H) as [Hi|(Hd & _)]; [cbn; lia| |easy].
  now apply si_kind in Hi.
Qed.
Lemma success_kind_range k : In (OpResponse (SRange 2) k) (m_responses m) -> k = sk.
Proof.
  intros H. destruct (in_si _ H) as [Hi|(Hd & _)]; [easy| |easy]. now apply si_kind in Hi.
Qed.
Lemma success_kind_default k : In (SDefault, k) t -> (forall k', ~ In (SRange 2, k') t) -> k = sk.
Proof.
  intros H Hn. pose proof (in_rs _ _ H) as H'. destruct (in_si _ H') as [Hi|(Hd & y & Hy & E)]; [easy| |].
  - now apply si_kind in Hi.
  - apply si_in in Hy as (Hy & _). rewrite <- (resp_eta y), E in Hy. apply Hlists in Hy.
    destruct Hy as [Hy|[(Hds & _)|(_ & Hy & _)]]; [now apply Hn in Hy| |easy].
    exfalso. apply Hds. right. right. eauto.
Qed.
Lemma error_kind key k : In (key, k) t -> is_error_or_default key = true -> k = ek.
Proof. intros H Hk. apply in_rs in H. apply (ei_kind (OpResponse key k)). apply ei_iff. auto. Qed.

Lemma lookup_success_kind s k : 200 <= s < 300 -> lookup t s = Some k -> k = sk.
Proof.
  intros Hr H. unfold lookup in H. destruct (kind_at (SCode s) t) as [k1|] eqn:E1.
  { injection H as ->. apply kind_at_In in E1. eapply success_kind_code; eauto. }
  assert (s / 100 = 2) as E.
  { assert (Hd := N.div_mod s 100). pose proof (N.mod_lt s 100). lia. }
  rewrite E in H. destruct (kind_at (SRange 2) t) as [k2|] eqn:E2.
  { injection H as ->. apply kind_at_In in E2. apply success_kind_range. now apply in_rs. }
  apply kind_at_In in H. rewrite kind_at_None in E2. now apply success_kind_default.
Qed.

Lemma div_class s n : s / 100 = n <-> n * 100 <= s <= n * 100 + 99.
Proof.
  assert (Hd := N.div_mod s 100). pose proof (N.mod_lt s 100). split; intro; [lia|].
  symmetry. apply (N.div_unique s 100 n (s - n * 100)); lia.
Qed.

Lemma lookup_error s k : 400 <= s < 600 -> lookup t s = Some k ->
  k = ek /\ (k <> RUpgrade -> error_covers s).
Proof.
  intros Hr H. unfold lookup in H. destruct (kind_at (SCode s) t) as [k1|] eqn:E1.
  { injection H as ->. apply kind_at_In in E1. split; [eapply error_kind; eauto; cbn; lia|].
    intro Hu. exists (OpResponse (SCode s) k). split; [now apply in_rs|]. cbn. repeat split; auto; lia. }
  destruct (kind_at (SRange (s / 100)) t) as [k2|] eqn:E2.
  { injection H as ->. apply kind_at_In in E2.
    pose proof (proj1 (div_class s (s / 100)) eq_refl) as Hc.
    split; [eapply error_kind; eauto; cbn; lia|].
    intro Hu. exists (OpResponse (SRange (s / 100)) k). split; [now apply in_rs|]. cbn.
    repeat split; auto; lia. }
  apply kind_at_In in H. split; [eapply error_kind; eauto|]. intro. eapply error_covers_default; eauto.
Qed.

Lemma error_covers_lookup s : 400 <= s < 600 -> error_covers s -> lookup t s <> None.
Proof.
  intros Hr (x & Hx & Hed & Hu & Hst) Hl. rewrite <- (resp_eta x) in Hx. apply Hlists in Hx.
  destruct Hx as [Hx|[(Hn & Hk & _)|(Hw & Hk & _)]].
  2,3: rewrite Hk in Hed; easy.
  unfold lookup in Hl. destruct (kind_at (SCode s) t) eqn:E1; [easy|].
  destruct (kind_at (SRange (s / 100)) t) eqn:E2; [easy|].
  rewrite kind_at_None in E1, E2, Hl.
  destruct (o_status x) as [c|n|] eqn:E; cbn in Hed.
  - subst c. now apply E1 in Hx.
  - apply div_class in Hst. subst n. now apply E2 in Hx.
  - now apply Hl in Hx.
Qed.

(** Other statuses reach only the default. *)
Lemma error_covers_other s : ~ (400 <= s < 600) -> error_covers s -> exists k, In (SDefault, k) t.
Proof.
  intros Hr (x & Hx & Hed & Hu & Hst). rewrite <- (resp_eta x) in Hx. apply Hlists in Hx.
  destruct Hx as [Hx|[(Hn & Hk & _)|(Hw & Hk & _)]].
  2,3: rewrite Hk in Hed; easy.
  destruct (o_status x) as [c|n|] eqn:E; cbn in Hed; eauto; lia.
Qed.

Lemma select_arms s : select arms s =
  match select (map success_arm si) s with
  | Some x => Some x
  | None => match select eas s with
            | Some x => Some x
            | None => select (default_arm (m_responses m)) s
            end
  end.
Proof. unfold arms. now rewrite !select_app. Qed.

Lemma fallthrough s : ~ success_covers s -> ~ error_covers s -> select arms s = Some RhsUnexpected.
Proof.
  intros Hns Hne. rewrite select_arms.
  destruct (select_success s) as [(H & _)|(_ & ->)]; [easy|].
  destruct (select_error s) as [(H & _)|(_ & ->)]; [easy|].
  destruct default_arm_cases as [->|(_ & Hw & k & Hk)]; [reflexivity|].
  exfalso. apply Hne. eapply error_covers_default; eauto.
Qed.

Lemma to_success s : success_covers s -> select arms s = Some (RhsOk (decode_of sk)).
Proof.
  intro H. rewrite select_arms. now destruct (select_success s) as [(_ & ->)|(Hn & _)].
Qed.

Lemma to_error s : ~ success_covers s -> error_covers s ->
  select arms s = Some (RhsErr (decode_of ek)) /\ ek <> RUpgrade.
Proof.
  intros Hn H. rewrite select_arms. destruct (select_success s) as [(? & _)|(_ & ->)]; [easy|].
  destruct (select_error s) as [(_ & -> & Hu)|(? & _)]; easy.
Qed.

Lemma to_err_action s k : ~ success_covers s -> k = ek -> (k <> RUpgrade -> error_covers s) ->
  (error_covers s -> k <> RUpgrade) ->
  exists x, select arms s = Some x /\ rhs_is sk ek x (err_action k).
Proof.
  intros Hn -> Hc Hu.
  assert (Hdec : ek = RUpgrade \/ ek <> RUpgrade) by (destruct ek; [right|right|right|left]; congruence).
  destruct Hdec as [E|E].
  - exists RhsUnexpected. rewrite E. cbn. split; auto. apply fallthrough; auto.
    intro Hcov. now apply Hu in Hcov.
  - exists (RhsErr (decode_of ek)). destruct (to_error s Hn (Hc E)) as (Hsel & _). split; auto.
    assert (err_action ek = AErr ek) as -> by (destruct ek; cbn; congruence). cbn. auto.
Qed.

(** The central lemma: the arm selected does what is expected. *)
Lemma dispatch s a : expected ws t s a ->
  exists x, select arms s = Some x /\ rhs_is sk ek x a.
Proof.
  intros [k Hr Hl|Hr Hl Hd|Hr Hl Hd|k Hr Hl|Hr Hl|Hs1 Hw|k Hs1 Hw Hk|k H1 H2 H3 Hk|H1 H2 H3 Hk].
  - exists (RhsOk (decode_of k)). pose proof (lookup_success_kind _ _ Hr Hl) as E. cbn. split; auto. rewrite E.
    apply to_success. apply success_covers_iff. left. split; auto. left. congruence.
  - exists RhsUnexpected. cbn. split; auto. apply fallthrough.
    + intro H. apply success_covers_iff in H as [(_ & [H|H])|(H & _)]; try easy; lia.
    + intro H. apply error_covers_other in H as (k & Hk); [|lia].
      unfold lookup in Hl. destruct (kind_at (SCode s) t); [easy|]. destruct (kind_at (SRange _) t); [easy|].
      rewrite kind_at_None in Hl. now apply Hl in Hk.
  - exists (RhsOk (decode_of RRaw)). cbn.
    assert (RRaw = sk) as E. { apply success_kind_range. apply Hlists. auto. }
    split; auto. rewrite to_success; [now rewrite <- E|].
    apply success_covers_iff. left. auto.
  - destruct (lookup_error _ _ Hr Hl) as (Hk & Hc).
    assert (Hn : ~ success_covers s).
    { intro H. apply success_covers_iff in H as [(H & _)|(H & _)]; lia. }
    apply to_err_action; auto. intros Hcov. subst k. now destruct (to_error s Hn Hcov) as (_ & H).
  - exists RhsUnexpected. cbn. split; auto. apply fallthrough.
    + intro H. apply success_covers_iff in H as [(H & _)|(H & _)]; lia.
    + intro H. now apply error_covers_lookup in H.
  - exists (RhsOk (decode_of RUpgrade)). cbn.
    assert (RUpgrade = sk) as E.
    { assert (Hin : In (OpResponse (SCode 101) RUpgrade) (m_responses m)) by (apply Hlists; auto).
      destruct (in_si _ Hin) as [Hi|(Hd & _)]; [easy| |easy]. now apply si_kind in Hi. }
    split; auto. rewrite to_success; [now rewrite <- E|]. apply success_covers_iff. auto.
  - exists (RhsOk (decode_of k)). cbn.
    assert (k = sk) as E.
    { apply kind_at_In in Hk. eapply success_kind_code; eauto. }
    split; auto. rewrite to_success; [now rewrite <- E|]. apply success_covers_iff. right.
    split; auto. right. congruence.
  - assert (Hn : ~ success_covers s).
    { intro H. apply success_covers_iff in H as [(H & _)|H]; [lia|auto]. }
    apply kind_at_In in Hk as Hin. apply to_err_action; auto.
    + eapply error_kind; eauto.
    + intro Hu. eapply error_covers_default; eauto.
    + intros Hcov Hu. destruct (to_error s Hn Hcov) as (_ & H). apply H.
      rewrite <- Hu. symmetry. eapply error_kind; eauto.
  - exists RhsUnexpected. cbn. split; auto. apply fallthrough.
    + intro H. apply success_covers_iff in H as [(H & _)|H]; [lia|auto].
    + intro H. apply error_covers_other in H as (k & Hk'); [|lia].
      rewrite kind_at_None in Hk. now apply Hk in Hk'.
Qed.
End Dispatch.

(** ** [expected] is a total function *)

Lemma expected_total ws t s : exists a, expected ws t s a.
Proof.
  assert (Hds : documents_success t \/ ~ documents_success t).
  { assert (Hd : forall f : resp_status * resp_kind -> bool,
      (exists x, In x t /\ f x = true) \/ forall x, In x t -> f x = false).
    { intro f. destruct (existsb f t) eqn:E.
      - left. apply existsb_exists in E. exact E.
      - right. intros x Hx. destruct (f x) eqn:Ef; auto.
        assert (existsb f t = true) by (apply existsb_exists; eauto). congruence. }
    destruct (Hd (fun x => match fst x with SCode c => (200 <=? c) && (c <? 300) | SRange r => r =? 2 | SDefault => true end))
      as [([key k] & Hx & Hf)|Hn].
    - left. cbn in Hf. destruct key as [c|r|].
      + left. exists c, k. split; auto. lia.
      + right. left. apply N.eqb_eq in Hf. subst. eauto.
      + right. right. eauto.
    - right. intros [(c & k & Hx & Hr)|[(k & Hx)|(k & Hx)]]; apply Hn in Hx; cbn in Hx; lia. }
  destruct (N.ltb_spec s 200) as [H1|H1].
  - assert (H101 : (s = 101 /\ (ws = true \/ kind_at (SCode 101) t <> None)) \/
                   ~ (s = 101 /\ (ws = true \/ kind_at (SCode 101) t <> None))).
    { destruct (N.eq_dec s 101); [|right; tauto]. destruct ws; [left; auto|].
      destruct (kind_at (SCode 101) t); [left|right]; intuition congruence. }
    destruct H101 as [(E & [E'|E'])|H101].
    + eexists. now apply ex_upgrade.
    + destruct ws eqn:Ew; [eexists; apply ex_upgrade; auto|].
      destruct (kind_at (SCode 101) t) eqn:Ek; [|easy]. eexists. eapply ex_101; eauto.
    + destruct (kind_at SDefault t) eqn:Ek; eexists; [eapply ex_other_default|eapply ex_other]; eauto; lia.
  - destruct (N.ltb_spec s 300) as [H2|H2].
    + destruct (lookup t s) as [k|] eqn:El; [exists (AOk k); apply ex_success; auto|].
      destruct Hds; eexists; [apply ex_success_undocumented|apply ex_success_generic]; auto.
    + destruct (N.ltb_spec s 400) as [H3|H3]; [|destruct (N.ltb_spec s 600) as [H4|H4]].
      * destruct (kind_at SDefault t) eqn:Ek; eexists; [eapply ex_other_default|eapply ex_other]; eauto; lia.
      * destruct (lookup t s) as [k|] eqn:El; [exists (err_action k); apply ex_error; auto|eexists; apply ex_error_undocumented; auto].
      * destruct (kind_at SDefault t) eqn:Ek; eexists; [eapply ex_other_default|eapply ex_other]; eauto; lia.
Qed.

Lemma expected_fun ws t s a b : expected ws t s a -> expected ws t s b -> a = b.
Proof.
  intros H1 H2; destruct H1; destruct H2; try reflexivity; try congruence; try lia; try tauto;
    try (subst; exfalso; intuition congruence).
Qed.

(** ** Decoding *)

Lemma eval_decode_decoded {V} (fs : N -> list N -> result V jerr) k r :
  exists x, eval_decode V fs k (decode_of k) r = Some x /\ decoded fs r k x.
Proof.
  destruct k as [t| | |]; cbn.
  - eexists. split; [reflexivity|].
    destruct (from_response (fs t) r) as [v|e] eqn:E.
    + apply from_response_ok_inv in E as ((Hs & Hh) & b & Hd & Hf). rewrite Hs, Hh. econstructor; eauto.
    + apply from_response_err_inv in E as [(b & j & Hd & Hf & ->)|(e' & Hb & ->)].
      * eapply dc_payload; eauto.
      * now apply dc_broken.
  - eexists. split; [reflexivity|]. constructor.
  - eexists. split; [reflexivity|]. constructor.
  - eexists. split; [reflexivity|]. unfold upgrade.
    destruct (N.eqb_spec (r_status r) 101) as [E|E].
    + destruct (r_upgrade r) eqn:Eu; cbn; constructor; auto.
    + now constructor.
Qed.

Lemma eval_rhs_meaning {V} (fs : N -> list N -> result V jerr) sk ek x a r :
  rhs_is sk ek x a -> exists out, eval_rhs V fs sk ek x r = Some out /\ meaning fs r a out.
Proof.
  destruct a as [k|k|]; cbn.
  - intros (-> & ->). cbn. destruct (eval_decode_decoded fs sk r) as (out & -> & H).
    exists out. split; auto. now constructor.
  - intros (-> & -> & _). cbn. destruct (eval_decode_decoded fs ek r) as ([v|e] & -> & H).
    + eexists. split; [reflexivity|]. now constructor.
    + eexists. split; [reflexivity|]. now apply (mn_err_failed fs r ek).
  - intros ->. cbn. eexists. split; [reflexivity|]. constructor.
Qed.

(** ** From the document to the list of responses *)

Lemma is_json_name_iff x : is_json_name x = true <-> json_media x.
Proof.
  unfold is_json_name, json_media. rewrite orb_true_iff, str_eqb_spec, starts_with_spec. reflexivity.
Qed.

Lemma find_split {A} (f : A -> bool) l : 
  match find f l with
  | Some x => exists pre post, l = pre ++ x :: post /\ Forall (fun y => f y = false) pre /\ f x = true
  | None => Forall (fun y => f y = false) l
  end.
Proof.
  induction l as [|a l IH]; cbn; [constructor|]. destruct (f a) eqn:E.
  - exists [], l. auto.
  - destruct (find f l) as [x|].
    + destruct IH as (pre & post & -> & Hp & Hx). exists (a :: pre), post. auto.
    + auto.
Qed.

Lemma not_json_iff (l : list (str * media_type)) :
  Forall (fun y => is_json_name (fst y) = false) l <-> Forall (fun xm => ~ json_media (fst xm)) l.
Proof.
  split; apply Forall_impl; intros a H.
  - rewrite <- is_json_name_iff. congruence.
  - destruct (is_json_name (fst a)) eqn:E; auto. now apply is_json_name_iff in E.
Qed.

Lemma process_response_ok pascal ts oid ws comps v r :
  process_response pascal ts oid ws comps v = Ok r ->
  o_status r = fst v /\
  exists doc, resolves co_responses comps (snd v) doc /\
    body_kind ts (pascal (oid ++ lit "-response")) ws doc (o_typ r).
Proof.
  unfold process_response. intro H. apply obind_ok in H as (doc & Hd & H).
  apply obind_ok in H as (k & Hk & H). injection H as <-. cbn. split; auto.
  exists doc. split; [now apply item_ok_iff|].
  pose proof (find_split (fun xm => is_json_name (fst xm)) (rd_content doc)) as Hf.
  destruct (find _ _) as [[n mt]|].
  - destruct Hf as (pre & post & Hc & Hp & Hn). destruct (mt_encoding_empty mt); [|easy]. cbn in Hk.
    destruct (mt_schema mt) as [sch|] eqn:Es; [|easy].
    apply obind_ok in Hk as (t & Ht & Hk). injection Hk as <-.
    eapply bk_json; eauto. now apply not_json_iff. now apply is_json_name_iff in Hn.
  - apply not_json_iff in Hf. injection Hk as <-. destruct ws; [now constructor|].
    destruct (rd_content doc) eqn:E; [now constructor|]. apply bk_raw; rewrite ?E; auto. easy.
Qed.

Lemma body_kind_fun ts tn ws doc k k' : body_kind ts tn ws doc k -> body_kind ts tn ws doc k' -> k = k'.
Proof.
  assert (Hsplit : forall (pre pre' post post' : list (str * media_type)) n n' mt mt',
    pre ++ (n, mt) :: post = pre' ++ (n', mt') :: post' ->
    Forall (fun xm => ~ json_media (fst xm)) pre -> Forall (fun xm => ~ json_media (fst xm)) pre' ->
    json_media n -> json_media n' -> mt = mt').
  { induction pre as [|a pre IH]; intros [|b pre'] post post' n n' mt mt' H Hp Hp' Hn Hn'; cbn in H.
    - congruence.
    - injection H as <- _. inversion Hp' as [|? ? Hx]; subst. now cbn in Hx.
    - injection H as -> _. inversion Hp as [|? ? Hx]; subst. now cbn in Hx.
    - injection H as -> H. inversion Hp; inversion Hp'; subst. eapply IH; eauto. }
  assert (Hnone : forall (pre post : list (str * media_type)) n mt,
    json_media n -> ~ Forall (fun xm => ~ json_media (fst xm)) (pre ++ (n, mt) :: post)).
  { intros pre post n mt Hn H. apply Forall_app in H as (_ & H). inversion H as [|? ? Hx]; subst. now cbn in Hx. }
  intros H1 H2; destruct H1 as [pre n mt post sch t Hc Hp Hn Hs Ht|Hw Hc|Hw Hc|Hw Hc Hc'];
    destruct H2 as [pre' n' mt' post' sch' t' Hc2 Hp2 Hn2 Hs2 Ht2|Hw2 Hc2|Hw2 Hc2|Hw2 Hc2 Hc2'];
    try reflexivity; try congruence.
  - assert (mt = mt') by (rewrite Hc in Hc2; exact (Hsplit _ _ _ _ _ _ _ _ Hc2 Hp Hp2 Hn Hn2)). subst. congruence.
  - rewrite Hc in Hc2. now apply Hnone in Hc2.
  - rewrite Hc in Hc2. now destruct pre.
  - rewrite Hc in Hc2'. now apply Hnone in Hc2'.
  - rewrite Hc2 in Hc. now apply Hnone in Hc.
  - rewrite Hc2 in Hc. now destruct pre'.
  - rewrite Hc2 in Hc'. now apply Hnone in Hc'.
Qed.

Lemma documented_iff op key r : In (key, r) (documented op) <-> doc_entry op key r.
Proof.
  unfold documented. rewrite in_app_iff, in_map_iff. split.
  - intros [H|([s x] & H & Hi)].
    + destruct (op_default op) eqn:E; [|easy]. destruct H as [[= <- <-]|[]]. now constructor.
    + cbn in H. injection H as <- <-. destruct s; now constructor.
  - intros [x H|c x H|n x H].
    + rewrite H. left. now left.
    + right. exists (ScCode c, x). auto.
    + right. exists (ScRange n, x). auto.
Qed.

Lemma forall2_In_l {A B} (P : A -> B -> Prop) l l' x :
  Forall2 P l l' -> In x l -> exists y, In y l' /\ P x y.
Proof. induction 1 as [|a b l l' H H' IH]; [easy|]. intros [<-|Hi]; [exists b; cbn; auto|].
  apply IH in Hi as (y & Hy & Hp). exists y. cbn. auto. Qed.
Lemma forall2_In_r {A B} (P : A -> B -> Prop) l l' y :
  Forall2 P l l' -> In y l' -> exists x, In x l /\ P x y.
Proof. induction 1 as [|a b l l' H H' IH]; [easy|]. intros [<-|Hi]; [exists a; cbn; auto|].
  apply IH in Hi as (z & Hz & Hp). exists z. cbn. auto. Qed.

Section Doc.
Variables (pascal : str -> str) (ts : type_space) (oid : str) (ws : bool)
  (comps : option components) (op : operation) (rs : list op_response).
Hypothesis Hok : process_responses pascal ts oid ws comps op = Ok rs.
Let tn := pascal (oid ++ lit "-response").

Lemma process_responses_shape : exists rs0,
  Forall2 (fun v r => process_response pascal ts oid ws comps v = Ok r) (documented op) rs0 /\
  rs = rs0 ++ (if existsb (fun r => covers_success (o_status r)) rs0 then [] else [OpResponse (SRange 2) RRaw])
          ++ (if ws then [OpResponse (SCode 101) RUpgrade] else []).
Proof.
  unfold process_responses in Hok. apply obind_ok in Hok as (rs0 & H & H0). injection H0 as <-.
  exists rs0. split; auto. now apply mapM_ok_iff.
Qed.

Definition table_of (rs0 : list op_response) : list (resp_status * resp_kind) :=
  map (fun r => (o_status r, o_typ r)) rs0.

Lemma tabulates_iff rs0 t :
  Forall2 (fun v r => process_response pascal ts oid ws comps v = Ok r) (documented op) rs0 ->
  tabulates ts tn ws comps op t ->
  forall key k, In (key, k) t <-> In (OpResponse key k) rs0.
Proof.
  intros HF Ht key k. rewrite (Ht key k). split.
  - intros (r & doc & He & Hr & Hb). apply documented_iff in He.
    destruct (forall2_In_l _ _ _ _ HF He) as (x & Hx & Hp).
    apply process_response_ok in Hp as (Hs & doc' & Hr' & Hb'). cbn in Hs, Hr'.
    assert (doc = doc') by (eapply resolves_fun; eauto). subst doc'.
    assert (k = o_typ x) by (eapply body_kind_fun; eauto). subst. now rewrite resp_eta.
  - intro Hi. destruct (forall2_In_r _ _ _ _ HF Hi) as ([key' r] & Hx & Hp).
    apply process_response_ok in Hp as (Hs & doc' & Hr' & Hb'). cbn in *. subst key'.
    exists r, doc'. rewrite <- documented_iff. auto.
Qed.

Lemma table_of_tabulates rs0 :
  Forall2 (fun v r => process_response pascal ts oid ws comps v = Ok r) (documented op) rs0 ->
  tabulates ts tn ws comps op (table_of rs0).
Proof.
  intros HF key k. unfold table_of. rewrite in_map_iff. split.
  - intros (x & [= <- <-] & Hx). destruct (forall2_In_r _ _ _ _ HF Hx) as ([key' r] & Hi & Hp).
    apply process_response_ok in Hp as (Hs & doc' & Hr' & Hb'). cbn in *. subst key'.
    exists r, doc'. rewrite <- documented_iff. auto.
  - intros (r & doc & He & Hr & Hb). apply documented_iff in He.
    destruct (forall2_In_l _ _ _ _ HF He) as (x & Hx & Hp).
    apply process_response_ok in Hp as (Hs & doc' & Hr' & Hb'). cbn in Hs, Hr'.
    assert (doc = doc') by (eapply resolves_fun; eauto). subst doc'.
    exists x. split; auto. f_equal; auto. symmetry. eapply body_kind_fun; eauto.
Qed.

Lemma table_exists : exists t, tabulates ts tn ws comps op t.
Proof.
  destruct process_responses_shape as (rs0 & HF & _). exists (table_of rs0). now apply table_of_tabulates.
Qed.

Lemma covers_success_iff (t : list (resp_status * resp_kind)) (rs0 : list op_response) :
  (forall key k, In (key, k) t <-> In (OpResponse key k) rs0) ->
  existsb (fun r => covers_success (o_status r)) rs0 = true <-> documents_success t.
Proof.
  intro H. rewrite existsb_exists. unfold documents_success. split.
  - intros (x & Hx & Hc). rewrite <- (resp_eta x) in Hx. apply H in Hx.
    destruct (o_status x) as [c|n|]; cbn in Hc.
    + left. exists c, (o_typ x). split; auto. lia.
    + right. left. apply N.eqb_eq in Hc. subst. eauto.
    + right. right. eauto.
  - intros [(c & k & Hx & Hc)|[(k & Hx)|(k & Hx)]]; apply H in Hx; eexists; split; eauto; cbn; lia.
Qed.

Lemma process_responses_lists t : tabulates ts tn ws comps op t -> lists ws t rs.
Proof.
  intro Ht. destruct process_responses_shape as (rs0 & HF & Hrs).
  pose proof (tabulates_iff _ _ HF Ht) as Hi. pose proof (covers_success_iff _ _ Hi) as Hc.
  intros key k. rewrite Hrs, !in_app_iff, <- Hi. split.
  - intros [H|[H|H]]; auto.
    + destruct (existsb _ rs0) eqn:E; [easy|]. destruct H as [[= <- <-]|[]]. right. left.
      repeat split; auto. rewrite <- Hc. congruence.
    + destruct ws; [|easy]. destruct H as [[= <- <-]|[]]. auto.
  - intros [H|[(Hn & -> & ->)|(Hw & -> & ->)]]; auto.
    + right. left. destruct (existsb _ rs0) eqn:E; [|now left].
      exfalso. apply Hn, Hc. reflexivity.
    + right. right. rewrite Hw. now left.
Qed.

Lemma process_responses_last : ws = true -> exists pre, rs = pre ++ [OpResponse (SCode 101) RUpgrade].
Proof.
  intro Hw. destruct process_responses_shape as (rs0 & _ & ->). rewrite Hw, app_assoc. eauto.
Qed.

Lemma table_no_upgrade t : tabulates ts tn ws comps op t ->
  ws = false -> forall key k, In (key, k) t -> k <> RUpgrade.
Proof.
  intros Ht Hw key k Hi. apply Ht in Hi as (r & doc & _ & _ & Hb). destruct Hb; congruence.
Qed.
End Doc.

(** Proofs about reference resolution. *)
From Verif Require Import Base OasModel OpModel RefSpec.

Lemma after_last_slash_None s : after_last_slash s = None <-> ~ In (ch "/") s.
Proof.
  induction s as [|c r IH]; cbn; [easy|].
  destruct (after_last_slash r) eqn:E.
  - split; [easy|]. intro H. exfalso. apply H. right.
    destruct (in_dec N.eq_dec (ch "/") r) as [i|n]; auto. apply IH in n. easy.
  - destruct (N.eqb_spec c (ch "/")) as [->|n].
    + split; [easy|]. intro H. exfalso. apply H. now left.
    + split; [|easy]. intros _ [->|H]; [easy|]. apply IH in H; auto.
Qed.

Lemma after_last_slash_Some s k : after_last_slash s = Some k <-> last_segment s k.
Proof.
  revert k; induction s as [|c r IH]; intro k; cbn.
  - split; [easy|]. intros ([|] & H & _); easy.
  - destruct (after_last_slash r) as [t|] eqn:E.
    + assert (Ht : last_segment r t) by now apply IH.
      split.
      * intros [= <-]. destruct Ht as (p & -> & Hn). now exists (c :: p).
      * intros (p & H & Hn). destruct p as [|x p]; cbn in H; injection H; intros; subst.
        -- exfalso. apply Hn. destruct Ht as (p & -> & _). apply in_or_app. right. now left.
        -- f_equal. assert (Some t = Some k) by (apply IH; now exists p). congruence.
    + apply after_last_slash_None in E.
      destruct (N.eqb_spec c (ch "/")) as [->|n].
      * split.
        -- intros [= <-]. now exists [].
        -- intros (p & H & Hn). destruct p as [|x p]; cbn in H; injection H; intros; subst; auto.
           exfalso. apply E. apply in_or_app. right. now left.
      * split; [easy|]. intros (p & H & Hn). destruct p as [|x p]; cbn in H; injection H; intros; subst; auto; try easy.
        exfalso. apply E. apply in_or_app. right. now left.
Qed.

Lemma last_segment_fun s k k' : last_segment s k -> last_segment s k' -> k = k'.
Proof. rewrite <- !after_last_slash_Some. congruence. Qed.

Section R.
Context {A : Type} (get : components -> list (str * ref_or A)) (comps : option components).

Lemma item_n_ok f r a : item_n f get comps r = Some (Ok a) -> resolves get comps r a.
Proof.
  revert r; induction f as [|f IH]; intros [reference|x]; cbn; try easy.
  - intros [= ->]. constructor.
  - destruct (after_last_slash reference) as [k|] eqn:E; [|easy].
    destruct comps as [c|] eqn:Ec; [|easy].
    destruct (assoc k (get c)) as [r'|] eqn:Ea; [|easy].
    intro H. apply IH in H. eapply res_ref; eauto. now apply after_last_slash_Some.
  - intros [= ->]. constructor.
Qed.

Lemma item_n_mono f g r o : item_n f get comps r = Some o -> f <= g -> item_n g get comps r = Some o.
Proof.
  revert g r; induction f as [|f IH]; intros g [reference|x] H Hle.
  - easy.
  - destruct g; exact H.
  - destruct g as [|g]; [lia|]. cbn in *.
    destruct (after_last_slash reference) as [k|]; auto.
    destruct comps as [c|]; auto.
    destruct (assoc k (get c)) as [r'|]; auto. apply IH; auto. lia.
  - destruct g; exact H.
Qed.

Lemma item_n_not_err f r e : item_n f get comps r <> Some (Err e).
Proof.
  revert r; induction f as [|f IH]; intros [reference|x]; cbn; try easy.
  destruct (after_last_slash reference); [|easy].
  destruct comps; [|easy]. destruct (assoc _ _); [|easy]. apply IH.
Qed.

Lemma item_n_panic f r m : item_n f get comps r = Some (Panic m) -> dangles get comps r.
Proof.
  revert r; induction f as [|f IH]; intros [reference|x]; cbn; try easy.
  destruct (after_last_slash reference) as [k|] eqn:E.
  2:{ intros _. apply dg_no_slash. now apply after_last_slash_None. }
  apply after_last_slash_Some in E.
  destruct comps as [c|] eqn:Ec; [|intros _; now apply dg_no_components].
  destruct (assoc k (get c)) as [r'|] eqn:Ea.
  - intro H. eapply dg_step; eauto.
  - intros _. eapply dg_missing; eauto.
Qed.

Lemma item_n_none f r : item_n f get comps r = None -> exists r', refers_n get comps f r r'.
Proof.
  revert r; induction f as [|f IH]; intros [reference|x]; cbn; try easy.
  - intros _. eexists. constructor.
  - destruct (after_last_slash reference) as [k|] eqn:E; [|easy].
    apply after_last_slash_Some in E.
    destruct comps as [c|] eqn:Ec; [|easy].
    destruct (assoc k (get c)) as [r'|] eqn:Ea; [|easy].
    intro H. apply IH in H as (r'' & Hr). exists r''. econstructor; eauto.
    exists reference, k, c. auto.
Qed.

(** The chain of keys visited. *)
Lemma refers_fun r r1 r2 : refers get comps r r1 -> refers get comps r r2 -> r1 = r2.
Proof.
  intros (s & k & c & -> & Hc & Hk & Ha) (s' & k' & c' & H & Hc' & Hk' & Ha').
  injection H as <-. assert (k = k') by (eapply last_segment_fun; eauto). congruence.
Qed.

Lemma refers_n_fun n r r1 r2 : refers_n get comps n r r1 -> refers_n get comps n r r2 -> r1 = r2.
Proof.
  revert r r1 r2; induction n as [|n IH]; intros r r1 r2 H1 H2; inversion H1; inversion H2; subst; auto.
  match goal with
  | [ Ha : refers get comps r ?x, Hb : refers get comps r ?y |- _ ] =>
      pose proof (refers_fun _ _ _ Ha Hb); subst
  end. eauto.
Qed.

Lemma refers_n_app n m a b c : refers_n get comps n a b -> refers_n get comps m b c ->
  refers_n get comps (n + m) a c.
Proof.
  intros H. revert c. induction H as [|n a a' b Ha H IH]; cbn; intros c Hc; auto.
  econstructor; eauto.
Qed.

Lemma refers_n_split n m a c : refers_n get comps (n + m) a c ->
  exists b, refers_n get comps n a b /\ refers_n get comps m b c.
Proof.
  revert a; induction n as [|n IH]; cbn; intros a H.
  - exists a. split; [constructor|auto].
  - inversion H as [|n' r1 r2 r3 H1 H2]; subst. apply IH in H2 as (b & Hb & Hc). exists b. split; auto. econstructor; eauto.
Qed.

(** A component that occurs twice on the chain makes it endless. *)
Lemma cycle_endless n r : refers_n get comps (S n) r r -> endless get comps r.
Proof.
  intro H. assert (Hk : forall k, refers_n get comps (k * S n) r r).
  { induction k as [|k IH]; [constructor|]. cbn [Nat.mul]. eapply refers_n_app; eauto. }
  intro k. specialize (Hk k).
  replace (k * S n) with (k + k * n) in Hk by nia.
  apply refers_n_split in Hk as (b & Hb & _). eauto.
Qed.

Lemma endless_step n r r' : refers_n get comps n r r' -> endless get comps r' -> endless get comps r.
Proof.
  intros H He k. destruct (He k) as (b & Hb).
  pose proof (refers_n_app _ _ _ _ _ H Hb) as Hx.
  rewrite Nat.add_comm in Hx. apply refers_n_split in Hx as (c & Hc & _). eauto.
Qed.

(** The keys looked up in n steps. *)
Fixpoint keys (n : nat) (r : ref_or A) : list str :=
  match n with
  | O => []
  | S n =>
      match r with
      | Item _ => []
      | Ref reference =>
          match after_last_slash reference, comps with
          | Some k, Some c => match assoc k (get c) with Some r' => k :: keys n r' | None => [] end
          | _, _ => []
          end
      end
  end.

Lemma keys_incl n r c : comps = Some c -> incl (keys n r) (map fst (get c)).
Proof.
  intro Hc. revert r; induction n as [|n IH]; intros [s|x]; cbn; try (intros y []).
  rewrite Hc. destruct (after_last_slash s) as [k|]; [|intros y []].
  destruct (assoc k (get c)) as [r'|] eqn:E; [|intros y []].
  apply incl_cons; auto. apply assoc_In in E. apply (in_map fst) in E. exact E.
Qed.

Lemma keys_refers n r pre k post : keys n r = pre ++ k :: post ->
  exists c r', comps = Some c /\ assoc k (get c) = Some r' /\
    refers_n get comps (S (length pre)) r r'.
Proof.
  revert r pre; induction n as [|n IH]; intros [s|x] pre; cbn; try (destruct pre; easy).
  destruct (after_last_slash s) as [k1|] eqn:E; [|destruct pre; easy].
  destruct comps as [c|] eqn:Ec; [|destruct pre; easy].
  destruct (assoc k1 (get c)) as [r1|] eqn:Ea; [|destruct pre; easy].
  assert (Hr : refers get (Some c) (Ref s) r1).
  { exists s, k1, c. rewrite after_last_slash_Some in E. auto. }
  destruct pre as [|y pre]; cbn; intros H; injection H as -> H.
  - exists c, r1. repeat split; auto. econstructor; [eassumption|constructor].
  - apply IH in H as (c' & r' & Hc & Ha & Hn). exists c', r'. repeat split; auto.
    econstructor; eauto.
Qed.

Lemma refers_keys_length n r r' : refers_n get comps n r r' -> length (keys n r) = n.
Proof.
  induction 1 as [|n r r1 r2 (s & k & c & -> & Hc & Hk & Ha) H IH]; cbn; auto.
  apply after_last_slash_Some in Hk. rewrite Hk. rewrite Hc at 1. rewrite Ha. cbn. now rewrite IH.
Qed.

Lemma nodup_or (l : list str) :
  NoDup l \/ exists a b c x, l = a ++ x :: b ++ x :: c.
Proof.
  induction l as [|x l [H|(a & b & c & y & ->)]].
  - left. constructor.
  - destruct (in_dec str_eq_dec x l) as [i|n].
    + right. apply in_split in i as (b & c & ->). now exists [], b, c, x.
    + left. now constructor.
  - right. now exists (x :: a), b, c, y.
Qed.

Definition comp_size : nat := match comps with Some c => length (get c) | None => O end.

Lemma long_chain_endless r r' : refers_n get comps (S comp_size) r r' -> endless get comps r.
Proof.
  intro H. pose proof (refers_keys_length _ _ _ H) as Hl.
  destruct (nodup_or (keys (S comp_size) r)) as [Hnd|(a & b & d & k & He)].
  - exfalso.
    assert (exists c, comps = Some c) as (c & Hc).
    { inversion H as [|n' r1 r2 r3 (s & k & c & -> & H1 & _) H2]; subst. eauto. }
    pose proof (NoDup_incl_length Hnd (keys_incl _ _ _ Hc)) as Hle.
    rewrite Hl, map_length in Hle. unfold comp_size in Hle. rewrite Hc in Hle. lia.
  - pose proof (keys_refers _ _ _ _ _ He) as (c & r1 & Hc & Ha & Hn1).
    rewrite app_comm_cons, app_assoc in He.
    pose proof (keys_refers _ _ _ _ _ He) as (c' & r2 & Hc' & Ha' & Hn2).
    assert (r1 = r2) by congruence. subst r2.
    rewrite app_length in Hn2. cbn [length] in Hn2.
    replace (S (length a + S (length b))) with (S (length a) + S (length b)) in Hn2 by lia.
    apply refers_n_split in Hn2 as (x & Hx1 & Hx2).
    pose proof (refers_n_fun _ _ _ _ Hn1 Hx1). subst x.
    eapply endless_step; [exact Hn1|]. eapply cycle_endless; eauto.
Qed.

Lemma resolves_item_n r a : resolves get comps r a ->
  exists f, item_n f get comps r = Some (Ok a).
Proof.
  induction 1 as [a|s k c r a Hc Hk Ha H (f & IH)].
  - now exists O.
  - exists (S f). cbn. apply after_last_slash_Some in Hk. rewrite Hk.
    rewrite Hc at 1. now rewrite Ha.
Qed.

Lemma dangles_item_n r : dangles get comps r -> exists f m, item_n f get comps r = Some (Panic m).
Proof.
  induction 1 as [s H|s H|s k c Hc Hk Ha|s k c r Hc Hk Ha H (f & m & IH)].
  - exists 1%nat. cbn. apply after_last_slash_None in H. rewrite H. eauto.
  - exists 1%nat. cbn. rewrite H. destruct (after_last_slash s); eauto.
  - exists 1%nat. cbn. apply after_last_slash_Some in Hk. rewrite Hk, Hc, Ha. eauto.
  - exists (S f), m. cbn. apply after_last_slash_Some in Hk. rewrite Hk. rewrite Hc at 1. now rewrite Ha.
Qed.

Lemma endless_item_n f r : endless get comps r -> item_n f get comps r = None.
Proof.
  revert r; induction f as [|f IH]; intros [s|x] H; cbn; auto.
  1,3: destruct (H 1%nat) as (r' & Hr);
    inversion Hr as [|n' r1 r2 r3 (s & k & c & H1 & _) H2]; easy.
  destruct (H 1%nat) as (r' & Hr).
  inversion Hr as [|n' r1 r2 r3 Hf H2]; subst.
  assert (He : endless get comps r2).
  { intro n. destruct (H (S n)) as (z & Hz).
    inversion Hz as [|n' y1 y2 y3 Hy1 Hy2]; subst.
    pose proof (refers_fun _ _ _ Hf Hy1). subst. eauto. }
  destruct Hf as (s' & k & c & H1 & Hc & Hk & Ha). injection H1 as <-.
  apply after_last_slash_Some in Hk. rewrite Hk. rewrite Hc at 1. rewrite Ha. auto.
Qed.

(** The three possible results of [item]. *)
Lemma item_cases r :
  (exists a, item get comps r = Ok a /\ resolves get comps r a) \/
  (exists m, item get comps r = Panic m /\ dangles get comps r) \/
  (item get comps r = Panic (lit "stack overflow") /\ endless get comps r).
Proof.
  unfold item. fold comp_size. destruct (item_n (S comp_size) get comps r) as [[a|e|m]|] eqn:E.
  - left. exists a. split; auto. eapply item_n_ok; eauto.
  - now apply item_n_not_err in E.
  - right. left. exists m. split; auto. eapply item_n_panic; eauto.
  - right. right. split; auto. apply item_n_none in E as (r' & E). eapply long_chain_endless; eauto.
Qed.

Lemma item_ok_iff r a : item get comps r = Ok a <-> resolves get comps r a.
Proof.
  destruct (item_cases r) as [(b & Hi & Hr)|[(m & Hi & Hd)|(Hi & He)]]; rewrite Hi.
  - split; [intros [= <-]; auto|]. intro Ha. f_equal.
    apply resolves_item_n in Ha as (f & Ha). apply resolves_item_n in Hr as (g & Hr).
    apply (item_n_mono _ (f + g)) in Ha; [|lia]. apply (item_n_mono _ (f + g)) in Hr; [|lia]. congruence.
  - split; [easy|]. intro Ha. apply resolves_item_n in Ha as (f & Ha).
    apply dangles_item_n in Hd as (g & m' & Hr).
    apply (item_n_mono _ (f + g)) in Ha; [|lia]. apply (item_n_mono _ (f + g)) in Hr; [|lia]. congruence.
  - split; [easy|]. intro Ha. apply resolves_item_n in Ha as (f & Ha).
    rewrite endless_item_n in Ha; easy.
Qed.

Lemma resolves_fun r a b : resolves get comps r a -> resolves get comps r b -> a = b.
Proof. rewrite <- !item_ok_iff. congruence. Qed.

Lemma item_panics_iff r :
  (exists m, item get comps r = Panic m) <-> dangles get comps r \/ endless get comps r.
Proof.
  split.
  - intros (m & H). destruct (item_cases r) as [(b & Hi & Hr)|[(m' & Hi & Hd)|(Hi & He)]]; auto; congruence.
  - intros [Hd|He].
    + apply dangles_item_n in Hd as (g & m' & Hr).
      destruct (item_cases r) as [(b & Hi & Hb)|[(m & Hi & Hd)|(Hi & He)]]; eauto.
      exfalso. apply resolves_item_n in Hb as (f & Ha).
      apply (item_n_mono _ (f + g)) in Ha; [|lia]. apply (item_n_mono _ (f + g)) in Hr; [|lia]. congruence.
    + destruct (item_cases r) as [(b & Hi & Hb)|[(m & Hi & Hd)|(Hi & _)]]; eauto.
      exfalso. apply resolves_item_n in Hb as (f & Ha). rewrite endless_item_n in Ha; easy.
Qed.

Lemma item_never_err r e : item get comps r <> Err e.
Proof. destruct (item_cases r) as [(b & -> & _)|[(m & -> & _)|(-> & _)]]; easy. Qed.

(** Non-termination: no amount of fuel is enough. *)
Lemma endless_iff r : endless get comps r <-> forall f, item_n f get comps r = None.
Proof.
  split.
  - intros H f. now apply endless_item_n.
  - intros H n. apply item_n_none. apply H.
Qed.
End R.

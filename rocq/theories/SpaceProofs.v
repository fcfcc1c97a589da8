(** Facts about SpaceModel.v. *)
From Coq Require Import ZifyBool.
From Verif Require Import Base SpaceModel SpaceSpec.
Local Open Scope N_scope.

Lemma white_blank : forall c, white c = true <-> blank c.
Proof.
  intro c. unfold white, blank. split.
  - intro H. assert (Hc : 9 <= c <= 13 \/ c = 32 \/ c = 133 \/ c = 160 \/ c = 5760 \/ 8192 <= c <= 8202
      \/ c = 8232 \/ c = 8233 \/ c = 8239 \/ c = 8287 \/ c = 12288) by lia.
    cbn [In]. lia.
  - cbn [In]. lia.
Qed.
Lemma blank_brace : ~ blank (ch "}").
Proof. unfold blank. change (ch "}") with 125. cbn [In]. lia. Qed.

Lemma newline_line_end : forall windows, line_end windows = newline windows.
Proof. reflexivity. Qed.
Lemma newline_ne : forall windows, newline windows <> [].
Proof. now intros []. Qed.

Lemma span_spec : forall s w r, span_white s = (w, r) ->
  s = w ++ r /\ Forall blank w /\ forall c r', r = c :: r' -> ~ blank c.
Proof.
  induction s as [|c s IH]; cbn; intros w r H.
  - injection H as <- <-. now repeat split.
  - destruct (white c) eqn:E.
    + destruct (span_white s) as [w' r'] eqn:F. injection H as <- <-. destruct (IH _ _ eq_refl) as (-> & Hw & Hr).
      repeat split; auto. constructor; auto. now apply white_blank.
    + injection H as <- <-. repeat split; auto. intros d r' Hd Hb. apply white_blank in Hb. congruence.
Qed.
Lemma span_app : forall w r, Forall blank w -> (forall c r', r = c :: r' -> ~ blank c) -> span_white (w ++ r) = (w, r).
Proof.
  induction w as [|c w IH]; cbn; intros r Hw Hr.
  - destruct r as [|c r]; auto. cbn. destruct (white c) eqn:E; auto. exfalso. eapply Hr; eauto. now apply white_blank.
  - inversion Hw as [|? ? Hc Hw']; subst. apply white_blank in Hc. rewrite Hc. now rewrite IH.
Qed.

Lemma strip_spec : forall p s r, strip p s = Some r <-> s = p ++ r.
Proof.
  induction p as [|x p IH]; cbn; intros s r.
  - split; congruence.
  - destruct s as [|y s]; [split; discriminate|]. destruct (N.eqb_spec x y) as [->|Hne].
    + rewrite IH. split; congruence.
    + split; congruence.
Qed.

Definition tail_of (k : nat) (g : str) : Prop := exists w c, g = w ++ [c] /\ Forall blank w /\ (length w <= k)%nat
  /\ c <> ch "}" /\ c <> ch " ".

Lemma take_sound : forall k s g r, take_tail k s = Some (g, r) -> s = g ++ r /\ tail_of k g.
Proof.
  intros k s. revert k. induction s as [|c s IH]; cbn; intros k g r H; [discriminate|].
  destruct (if white c then match k with S k' => take_tail k' s | O => None end else None) as [[g' r']|] eqn:E.
  - injection H as <- <-. destruct (white c) eqn:W; [|discriminate]. destruct k as [|k]; [discriminate|].
    apply IH in E as (-> & w & d & -> & Hw & Hl & Hd). split; auto. exists (c :: w), d. cbn.
    repeat split; auto; try tauto. constructor; auto. now apply white_blank. lia.
  - destruct ((c =? ch "}") || (c =? ch " ")) eqn:F; [discriminate|]. injection H as <- <-. split; auto.
    exists [], c. apply orb_false_elim in F as [F1 F2]. apply N.eqb_neq in F1, F2. repeat split; auto. cbn. lia.
Qed.
Lemma take_complete : forall k w c y, Forall blank w -> (length w <= k)%nat -> c <> ch "}" -> c <> ch " " ->
  take_tail k (w ++ [c] ++ y) <> None.
Proof.
  intros k w. revert k. induction w as [|d w IH]; intros k c y Hw Hl H1 H2.
  - cbn. destruct (if white c then _ else _) as [[g r]|]; [discriminate|].
    apply N.eqb_neq in H1, H2. now rewrite H1, H2.
  - cbn in Hl. destruct k as [|k]; [lia|]. inversion Hw as [|? ? Hd Hw']; subst. apply white_blank in Hd.
    cbn. rewrite Hd. specialize (IH k c y Hw' ltac:(lia) H1 H2). cbn [app] in IH.
    destruct (take_tail k (w ++ c :: y)) as [[g r]|]; [discriminate|now destruct IH].
Qed.

(** ** One match *)

Section Run.
Variable windows : bool.
Notation nl := (newline windows).

Lemma match_sound : forall s g1 g2 rest, match_here windows s = Some (g1, g2, rest) ->
  s = g1 ++ g2 ++ rest /\ exists w t, g1 = [10] ++ w ++ [ch "}"] /\ Forall blank w /\ g2 = nl ++ t /\ tail_of 8 t.
Proof.
  intros s g1 g2 rest. unfold match_here. destruct s as [|c s]; [discriminate|].
  destruct (N.eqb_spec c 10) as [->|]; [|discriminate]. destruct (span_white s) as [w r1] eqn:E.
  destruct r1 as [|b r2]; [discriminate|]. destruct (N.eqb_spec b (ch "}")) as [->|]; [|discriminate].
  destruct (strip (line_end windows) r2) as [r3|] eqn:F; [|discriminate].
  destruct (take_tail 8 r3) as [[g r]|] eqn:G; [|discriminate]. intros [= <- <- <-].
  apply span_spec in E as (-> & Hw & _). apply strip_spec in F as ->. apply take_sound in G as (-> & Ht).
  split; [now cbn; rewrite <- !app_assoc|]. exists w, g. now repeat split.
Qed.
Lemma match_complete : forall w w' c y, Forall blank w -> Forall blank w' -> (length w' <= 8)%nat ->
  c <> ch "}" -> c <> ch " " ->
  match_here windows ([10] ++ w ++ [ch "}"] ++ nl ++ w' ++ [c] ++ y) <> None.
Proof.
  intros w w' c y Hw Hw' Hl H1 H2. unfold match_here. cbn [app]. change (10 =? 10) with true. cbn iota.
  rewrite (span_app w (ch "}" :: nl ++ w' ++ c :: y)); auto; [|intros d r' [= <- _]; apply blank_brace].
  rewrite N.eqb_refl. pose proof (proj2 (strip_spec nl _ (w' ++ c :: y)) eq_refl) as E.
  change (line_end windows) with nl. rewrite E.
  pose proof (take_complete 8 w' c y Hw' Hl H1 H2) as Ht. cbn [app] in Ht.
  destruct (take_tail 8 (w' ++ c :: y)) as [[g r]|]; [discriminate|congruence].
Qed.

Lemma item_end_more : forall x a b y, item_end windows a b -> item_end windows (x ++ a) (b ++ y).
Proof.
  intros x a b y (x0 & w & w' & c & y0 & -> & Hw & -> & H). exists (x ++ x0), w, w', c, (y0 ++ y).
  repeat split; auto; try tauto; now rewrite <- !app_assoc.
Qed.
Lemma match_item_end : forall s g1 g2 rest, match_here windows s = Some (g1, g2, rest) -> item_end windows g1 g2.
Proof.
  intros s g1 g2 rest H. apply match_sound in H as (_ & w & t & -> & Hw & -> & w' & c & -> & Hw' & Hl & H1 & H2).
  exists [], w, w', c, []. now repeat split.
Qed.

(** ** All matches *)

(** The parts between which line ends are put. *)
Fixpoint parts (n : nat) (s : str) : list str :=
  match n with
  | O => [s]
  | S n' =>
      match match_here windows s with
      | Some (g1, g2, rest) =>
          match parts n' rest with p :: ps => g1 :: (g2 ++ p) :: ps | [] => [] end
      | None => match s with [] => [[]] | c :: r => match parts n' r with p :: ps => (c :: p) :: ps | [] => [] end end
      end
  end.

Lemma parts_ne : forall n s, parts n s <> [].
Proof.
  induction n as [|n IH]; cbn; intro s; [discriminate|]. destruct (match_here windows s) as [[[g1 g2] rest]|].
  - specialize (IH rest). now destruct (parts n rest).
  - destruct s as [|c s]; [discriminate|]. specialize (IH s). now destruct (parts n s).
Qed.
Lemma joined_cons : forall p ps, ps <> [] -> joined windows (p :: ps) = p ++ nl ++ joined windows ps.
Proof. now intros p [|q ps]. Qed.
Lemma joined_head : forall a p ps, joined windows ((a ++ p) :: ps) = a ++ joined windows (p :: ps).
Proof. intros a p [|q ps]; cbn; now rewrite <- ?app_assoc. Qed.

Lemma parts_concat : forall n s, concat (parts n s) = s.
Proof.
  induction n as [|n IH]; cbn; intro s; [apply app_nil_r|].
  destruct (match_here windows s) as [[[g1 g2] rest]|] eqn:E.
  - apply match_sound in E as (-> & _). specialize (IH rest). pose proof (parts_ne n rest).
    destruct (parts n rest) as [|p ps]; [easy|]. cbn in *. now rewrite <- app_assoc, IH.
  - destruct s as [|c s]; auto. specialize (IH s). pose proof (parts_ne n s). destruct (parts n s) as [|p ps]; [easy|].
    cbn in *. now rewrite IH.
Qed.
Lemma parts_joined : forall n s, joined windows (parts n s) = replace_all windows n s.
Proof.
  induction n as [|n IH]; cbn [parts replace_all]; intro s; auto.
  destruct (match_here windows s) as [[[g1 g2] rest]|] eqn:E.
  - specialize (IH rest). pose proof (parts_ne n rest). destruct (parts n rest) as [|p ps]; [easy|].
    rewrite joined_cons by easy. now rewrite joined_head, IH.
  - destruct s as [|c s]; auto. specialize (IH s). pose proof (parts_ne n s). destruct (parts n s) as [|p ps]; [easy|].
    change (c :: p) with ([c] ++ p). now rewrite joined_head, IH.
Qed.

Lemma parts_some : forall n s, Forall (fun p => p <> []) (tl (parts n s)).
Proof.
  induction n as [|n IH]; cbn; intro s; [constructor|].
  destruct (match_here windows s) as [[[g1 g2] rest]|] eqn:E.
  - apply match_sound in E as (_ & w & t & _ & _ & -> & _). specialize (IH rest).
    destruct (parts n rest) as [|p ps]; [constructor|]. cbn [tl] in *. constructor; auto. now destruct windows.
  - destruct s as [|c s]; [constructor|]. specialize (IH s). now destruct (parts n s).
Qed.

(** A cut: both sides of a boundary between parts. *)
Definition cut (ps : list str) (a b : str) : Prop :=
  exists before after, ps = before ++ after /\ before <> [] /\ after <> [] /\ a = concat before /\ b = concat after.

Lemma cut_cons : forall p ps a b, cut (p :: ps) a b <->
  (ps <> [] /\ a = p /\ b = concat ps) \/ exists a', a = p ++ a' /\ cut ps a' b.
Proof.
  intros p ps a b. split.
  - intros ([|q before] & after & E & Hb & Ha & -> & ->); [easy|]. injection E as <- ->.
    destruct before as [|q before].
    + left. cbn. now rewrite app_nil_r.
    + right. exists (concat (q :: before)). split; auto. exists (q :: before), after. now repeat split.
  - intros [(Hne & -> & ->)|(a' & -> & before & after & -> & Hb & Ha & -> & ->)].
    + exists [p], ps. cbn. rewrite app_nil_r. now repeat split.
    + exists (p :: before), after. now repeat split.
Qed.
Lemma cut_head : forall g p ps a b, cut ((g ++ p) :: ps) a b <-> exists a', a = g ++ a' /\ cut (p :: ps) a' b.
Proof.
  intros g p ps a b. rewrite cut_cons. split.
  - intros [(Hne & -> & ->)|(a' & -> & H)].
    + exists p. split; auto. apply cut_cons. auto.
    + exists (p ++ a'). split; [now rewrite app_assoc|]. apply cut_cons. eauto.
  - intros (a' & -> & H). apply cut_cons in H as [(Hne & -> & ->)|(a'' & -> & H)]; auto.
    right. exists a''. now rewrite app_assoc.
Qed.

Lemma parts_cut : forall n s a b, cut (parts n s) a b -> item_end windows a b.
Proof.
  induction n as [|n IH]; cbn; intros s a b H.
  - apply cut_cons in H as [(H & _)|(a' & _ & before & after & E & Hb & _)]; [easy|].
    now destruct before.
  - destruct (match_here windows s) as [[[g1 g2] rest]|] eqn:E.
    + specialize (IH rest). pose proof (parts_ne n rest). pose proof (parts_concat n rest) as Hc.
      destruct (parts n rest) as [|p ps]; [easy|].
      apply cut_cons in H as [(_ & -> & ->)|(a' & -> & H)].
      * apply match_item_end in E. cbn. rewrite <- app_assoc. now apply (item_end_more []).
      * apply cut_head in H as (a'' & -> & H). apply IH in H. rewrite <- (app_nil_r b), app_assoc.
        now apply item_end_more.
    + destruct s as [|c s].
      * apply cut_cons in H as [(H & _)|(a' & _ & before & after & E' & Hb & _)]; [easy|].
        now destruct before.
      * specialize (IH s). destruct (parts n s) as [|p ps]; [destruct H as ([|] & ? & ? & ?); easy|].
        change (c :: p) with ([c] ++ p) in H. apply cut_head in H as (a' & -> & H). apply IH in H.
        rewrite <- (app_nil_r b). now apply item_end_more.
Qed.

(** ** Completeness *)

Lemma item_end_here : forall s a b, s = a ++ b -> item_end windows a b ->
  match_here windows s = None -> exists c a', a = c :: a' /\ item_end windows a' b.
Proof.
  intros s a b -> (x & w & w' & c & y & -> & Hw & -> & Hw' & Hl & H1 & H2) Hm. destruct x as [|d x].
  - exfalso. apply (match_complete w w' c y Hw Hw' Hl H1 H2). rewrite <- Hm. f_equal.
    cbn. now rewrite <- !app_assoc.
  - exists d, (x ++ [10] ++ w ++ [ch "}"]). split; auto. exists x, w, w', c, y. now repeat split.
Qed.

(** The text is kept exactly if no item ends in it. *)
Lemma kept_iff : forall n s, (length s <= n)%nat ->
  (replace_all windows n s = s <-> forall a b, s = a ++ b -> ~ item_end windows a b).
Proof.
  intros n s Hn. split.
  - intros H a b -> He. revert a b Hn H He. induction n as [|n IH]; intros a b Hn H He.
    + destruct He as (x & w & w' & c & y & -> & _). rewrite !app_length in Hn. cbn in Hn. lia.
    + cbn in H. destruct (match_here windows (a ++ b)) as [[[g1 g2] rest]|] eqn:E.
      * apply match_sound in E as (E & _). rewrite E in H. assert (Hlen : forall m t, (length t <= length (replace_all windows m t))%nat).
        { clear. induction m as [|m IH]; cbn; intro t; auto. destruct (match_here windows t) as [[[g1 g2] rest]|] eqn:E.
          - apply match_sound in E as (-> & _). rewrite !app_length. specialize (IH rest). lia.
          - destruct t; cbn; auto. specialize (IH t). lia. }
        apply (f_equal (@length N)) in H. rewrite !app_length in H. specialize (Hlen n rest).
        change (line_end windows) with nl in H. assert (length nl > 0)%nat by now destruct windows; cbn; lia. lia.
      * destruct (item_end_here _ a b eq_refl He E) as (c & a' & -> & He'). cbn in H. injection H as H.
        apply (IH a' b); auto. cbn in Hn. lia.
  - intro H. revert s Hn H. induction n as [|n IH]; intros s Hn H; [now destruct s|].
    cbn. destruct (match_here windows s) as [[[g1 g2] rest]|] eqn:E.
    + exfalso. pose proof (match_item_end _ _ _ _ E) as He. apply match_sound in E as (-> & _).
      apply (H g1 (g2 ++ rest) eq_refl). now apply (item_end_more []).
    + destruct s as [|c s]; auto. f_equal. apply IH; [cbn in Hn; lia|]. intros a b -> He.
      apply (H (c :: a) b eq_refl). rewrite <- (app_nil_r b). now apply (item_end_more [c]).
Qed.

Lemma tidy_suffix : forall x s, tidy (x ++ s) -> tidy s.
Proof. intros x s H x' w y -> Hw. apply (H (x ++ x') w y); auto. now rewrite <- app_assoc. Qed.

Lemma app_split : forall {A} (a b c d : list A), a ++ b = c ++ d -> (length c <= length a)%nat ->
  exists m, a = c ++ m /\ d = m ++ b.
Proof.
  intros A a b c. revert a. induction c as [|x c IH]; cbn; intros a d H Hl.
  - exists a. auto.
  - destruct a as [|y a]; [cbn in Hl; lia|]. cbn in *. injection H as -> H. destruct (IH a d H ltac:(lia)) as (m & -> & ->).
    now exists m.
Qed.

Lemma not_in_g2 : forall t, tail_of 8 t -> ~ In (ch "}") (nl ++ t).
Proof.
  intros t (w & c & -> & Hw & _ & H1 & _) H. apply in_app_or in H as [H|H].
  - destruct windows; cbn in H; repeat (destruct H as [H|H]; [discriminate H|]); easy.
  - apply in_app_or in H as [H|[H|[]]]; [|easy]. rewrite Forall_forall in Hw. exact (blank_brace (Hw _ H)).
Qed.

Lemma nl_end : exists u, nl = u ++ [10].
Proof. destruct windows; [now exists [13]|now exists []]. Qed.

(** After a match the next item end does not need anything of the match. *)
Lemma item_end_after : forall w t a b, Forall blank w -> tail_of 8 t ->
  tidy (([10] ++ w ++ [ch "}"]) ++ (nl ++ t) ++ a ++ b) ->
  item_end windows (([10] ++ w ++ [ch "}"]) ++ (nl ++ t) ++ a) b -> a <> [] -> item_end windows a b.
Proof.
  intros w t a b Hw Ht Htidy (x & u & w' & c & y & E & Hu & -> & Hrest) Ha.
  set (g := [10] ++ w ++ [ch "}"]) in *.
  assert (Hus : Forall (fun c => c = ch " ") u).
  { apply (Htidy x u (nl ++ w' ++ [c] ++ y)); auto.
    apply (f_equal (fun z => z ++ nl ++ w' ++ [c] ++ y)) in E. rewrite <- !app_assoc in E. rewrite <- !app_assoc.
    exact E. }
  destruct (le_lt_dec (length (g ++ nl ++ t)) (length x)) as [Hl|Hl].
  - rewrite !app_assoc in E. rewrite <- (app_assoc g nl t) in E. rewrite <- !app_assoc in E.
    symmetry in E. replace (g ++ nl ++ t ++ a) with ((g ++ nl ++ t) ++ a) in E by now rewrite <- !app_assoc.
    destruct (app_split _ _ _ _ E Hl) as (m & -> & ->). exists m, u, w', c, y. now repeat split.
  - exfalso. replace (g ++ (nl ++ t) ++ a) with ((g ++ nl ++ t) ++ a) in E by now rewrite <- !app_assoc.
    destruct (app_split _ _ _ _ E (Nat.lt_le_incl _ _ Hl)) as (m & Em & Ea).
    destruct m as [|d m]; [rewrite app_nil_r in Em; rewrite Em in Hl; lia|]. cbn in Ea. injection Ea as <- Ea.
    destruct Ht as (w2 & e & -> & Hw2 & _ & He1 & He2).
    rewrite !app_assoc in Em. destruct m as [|f m] using rev_ind.
    + apply app_inj_tail in Em as (Em & ->). cbn [app] in Ea.
      destruct nl_end as (v & Ev).
      assert (Hin : Forall (fun c => c = ch " ") (w2 ++ [10] ++ u)).
      { apply (Htidy (g ++ v) (w2 ++ [10] ++ u) (nl ++ w' ++ [c] ++ y)).
        - rewrite <- Ea, Ev. rewrite <- !app_assoc. cbn [app].
          rewrite <- ?app_assoc. reflexivity.
        - apply Forall_app. split; auto. constructor; auto. unfold blank. cbn. tauto. }
      apply Forall_app in Hin as (_ & Hin). inversion Hin. discriminate.
    + change (10 :: m ++ [f]) with ((10 :: m) ++ [f]) in Em. rewrite app_assoc in Em.
      apply app_inj_tail in Em as (_ & <-). rewrite <- app_assoc in Ea. cbn [app] in Ea.
      destruct a as [|z a] using rev_ind; [easy|]. clear IHa.
      change (m ++ e :: a ++ [z]) with (m ++ (e :: a) ++ [z]) in Ea. rewrite app_assoc in Ea.
      apply app_inj_tail in Ea as (Ea & _). subst u. apply Forall_app in Hus as (_ & Hus). inversion Hus. easy.
Qed.

Lemma parts_complete : forall n s a b, (length s <= n)%nat -> tidy s -> s = a ++ b -> item_end windows a b ->
  cut (parts n s) a b.
Proof.
  induction n as [|n IH]; intros s a b Hn Ht -> He.
  - destruct He as (x & w & w' & c & y & -> & _). rewrite !app_length in Hn. cbn in Hn. lia.
  - cbn. destruct (match_here windows (a ++ b)) as [[[g1 g2] rest]|] eqn:E.
    + apply match_sound in E as (E & w & t & -> & Hw & -> & Htail). set (g := [10] ++ w ++ [ch "}"]) in *.
      assert (Hbr : exists a0, a = a0 ++ [ch "}"]).
      { destruct He as (x & u & w' & c & y & -> & _). exists (x ++ [10] ++ u). now rewrite <- !app_assoc. }
      destruct Hbr as (a0 & Ea0).
      assert (Hg : (length g <= length a)%nat).
      { destruct (le_lt_dec (length g) (length a)) as [|Hlt]; auto. exfalso. symmetry in E.
        destruct (app_split _ _ _ _ E (Nat.lt_le_incl _ _ Hlt)) as (m & Em & _).
        destruct m as [|z m] using rev_ind; [rewrite app_nil_r in Em; rewrite Em in Hlt; lia|]. clear IHm.
        unfold g in Em. rewrite !app_assoc in Em. apply app_inj_tail in Em as (Em & _).
        assert (Hin : In (ch "}") ([10] ++ w)) by (rewrite Em, Ea0; rewrite !in_app_iff; cbn; tauto).
        destruct Hin as [Hin|Hin]; [discriminate|]. rewrite Forall_forall in Hw. exact (blank_brace (Hw _ Hin)). }
      destruct (app_split _ _ _ _ E Hg) as (m & Em & Er). pose proof (parts_ne n rest) as Hne.
      pose proof (parts_concat n rest) as Hc. destruct (parts n rest) as [|p ps] eqn:Ep; [easy|].
      destruct m as [|z m] using rev_ind.
      * rewrite app_nil_r in Em. cbn [app] in Er. apply cut_cons. left. repeat split; auto; [easy|].
        cbn [concat] in Hc |- *. rewrite <- app_assoc, Hc. symmetry. exact Er.
      * clear IHm. rewrite Em in Ea0. rewrite app_assoc in Ea0. apply app_inj_tail in Ea0 as (Ea0 & ->).
        destruct (le_lt_dec (length (nl ++ t)) (length m)) as [Hl|Hl].
        -- assert (Hl' : (length (nl ++ t) <= length (m ++ [ch "}"]))%nat) by (rewrite (app_length m); cbn; lia).
           destruct (app_split _ _ _ _ (eq_sym Er) Hl') as (m' & Em' & Er').
           apply cut_cons. right. exists ((nl ++ t) ++ m'). split; [now rewrite Em, Em'|].
           apply cut_head. exists m'. split; auto.
           assert (Hm' : m' <> []).
           { intros ->. rewrite app_nil_r in Em'. rewrite <- Em', app_length in Hl. cbn in Hl. lia. }
           rewrite <- Ep. apply (IH rest m' b); auto.
           ++ assert (Hlen : (length (a ++ b) <= S n)%nat) by exact Hn. rewrite E in Hlen.
              rewrite !app_length in Hlen. unfold g in Hlen. rewrite !app_length in Hlen. cbn in Hlen. lia.
           ++ rewrite E in Ht. rewrite app_assoc in Ht. now apply tidy_suffix in Ht.
           ++ apply (item_end_after w t); auto.
              ** rewrite <- Er'. fold g. rewrite E in Ht. exact Ht.
              ** fold g. rewrite <- Em'. now rewrite <- Em.
        -- exfalso. apply (not_in_g2 t Htail).
           assert (Hle : (length (m ++ [ch "}"]) <= length (nl ++ t))%nat) by (rewrite (app_length m); cbn; lia).
           destruct (app_split _ _ _ _ Er Hle) as (m' & Em' & _). rewrite Em', !in_app_iff. cbn. tauto.
    + destruct (item_end_here _ a b eq_refl He E) as (c & a' & -> & He'). cbn [app] in *.
      assert (Hcut : cut (parts n (a' ++ b)) a' b).
      { apply (IH _ a' b); auto; [cbn in Hn; lia|]. now apply (tidy_suffix [c]) in Ht. }
      destruct (parts n (a' ++ b)) as [|p ps]; [destruct Hcut as ([|] & ? & ? & ?); easy|].
      change (c :: p) with ([c] ++ p). apply cut_head. now exists a'.
Qed.

End Run.

(** ** Statements *)

Lemma space_out_parts : forall windows s, exists ps,
  s = concat ps /\ space_out_items windows s = Ok (joined windows ps)
  /\ Forall (fun p => p <> []) (tl ps)
  /\ (forall before after, ps = before ++ after -> before <> [] -> after <> [] ->
        item_end windows (concat before) (concat after))
  /\ (tidy s -> forall a b, s = a ++ b -> item_end windows a b ->
        exists before after, ps = before ++ after /\ before <> [] /\ after <> [] /\ a = concat before /\ b = concat after).
Proof.
  intros windows s. exists (parts windows (length s) s). split; [now rewrite parts_concat|].
  split; [unfold space_out_items; now rewrite parts_joined|]. split; [apply parts_some|]. split.
  - intros before after E Hb Ha. apply (parts_cut windows (length s) s). exists before, after. now repeat split.
  - intros Ht a b E He. now apply parts_complete.
Qed.

Lemma space_out_kept : forall windows s,
  space_out_items windows s = Ok s <-> forall a b, s = a ++ b -> ~ item_end windows a b.
Proof.
  intros windows s. rewrite <- (kept_iff windows (length s) s) by lia. unfold space_out_items. split; congruence.
Qed.

(** A test for [tidy]. *)
Fixpoint tidy_test (s : str) : bool :=
  match s with
  | [] => true
  | c :: r =>
      (if c =? 10 then
         let (w, r') := span_white r in
         match r' with b :: _ => negb (b =? ch "}") || forallb (N.eqb (ch " ")) w | [] => true end
       else true) && tidy_test r
  end.
Lemma tidy_tested : forall s, tidy_test s = true -> tidy s.
Proof.
  induction s as [|c s IH]; cbn; intros H x w y E Hw; [now destruct x|]. apply andb_prop in H as [H1 H2].
  destruct x as [|d x].
  - cbn in E. injection E as -> ->. rewrite N.eqb_refl in H1.
    rewrite (span_app w (ch "}" :: y)) in H1; auto; [|intros d r' [= <- _]; apply blank_brace].
    rewrite N.eqb_refl in H1. cbn in H1. rewrite forallb_forall in H1. apply Forall_forall. intros d Hd.
    specialize (H1 d Hd). apply N.eqb_eq in H1. now symmetry.
  - cbn in E. injection E as -> E. now apply (IH H2 x w y).
Qed.

(** What mocks match when there are dots in templates and values. *)
From Coq Require Import ZifyBool ZifyN.
From Verif Require Import Base Utf8 TemplateModel TemplateSpec TemplateProofs EncodeSpec EncodeProofs MethodModel OpModel BuilderModel RunModel
  SanitizeModel GenerateModel MockModel MockSpec MockProofs MockCor MockDoc MockDotSpec.
Local Open Scope N_scope.

Definition dot_item (c : char) : rx_item := RxOne (if c =? ch "." then RcDot else RcChar c).
Definition dot_chars (s : str) : list rx_item := map dot_item s.

Lemma dotted_step acc c : dotted_char c -> rx_step (RmTop, acc) c = Some (RmTop, dot_item c :: acc).
Proof.
  intros [H| ->]; [|reflexivity]. rewrite plain_step by exact H. unfold dot_item. destruct (N.eqb_spec c (ch ".")) as [->|_]; [|reflexivity].
  elim H. vm_compute. auto 10.
Qed.
Lemma dot_steps s r acc : dotted_text s -> rx_steps (RmTop, acc) (s ++ r) = rx_steps (RmTop, rev (dot_chars s) ++ acc) r.
Proof.
  intro H. revert acc. induction H as [|c s Hc _ IH]; intro acc; [reflexivity|].
  cbn [app rx_steps]. rewrite dotted_step by assumption. rewrite IH. cbn [dot_chars map rev]. now rewrite <- app_assoc.
Qed.

Definition dot_items (f : str -> list rx_item) (ps : list piece) : list rx_item :=
  flat_map (fun p => match p with PLit c => [dot_item c] | PVar n => f n end) ps.

Lemma dot_texts f g ps : dotted_template ps ->
  (forall n r acc, In n (vars ps) -> rx_steps (RmTop, acc) (f n ++ r) = rx_steps (RmTop, rev (g n) ++ acc) r) ->
  forall r acc, rx_steps (RmTop, acc) (texts f ps ++ r) = rx_steps (RmTop, rev (dot_items g ps) ++ acc) r.
Proof.
  intros Hp Hf. induction ps as [|[c|n] ps IH]; intros r acc; [reflexivity| |].
  - cbn [texts flat_map dot_items app rx_steps]. rewrite dotted_step by (apply Hp; now left).
    change (flat_map _ ps) with (texts f ps) at 1. rewrite IH.
    + unfold dot_items. cbn [rev]. now rewrite <- app_assoc.
    + intros x Hx. apply Hp. now right.
    + exact Hf.
  - cbn [texts flat_map dot_items app]. rewrite <- app_assoc. rewrite Hf by (now left).
    change (flat_map _ ps) with (texts f ps) at 1. rewrite IH.
    + rewrite rev_app_distr. now rewrite <- app_assoc.
    + intros x Hx. apply Hp. now right.
    + intros. apply Hf. now right.
Qed.
Lemma dot_regex f g ps : dotted_template ps ->
  (forall n r acc, In n (vars ps) -> rx_steps (RmTop, acc) (f n ++ r) = rx_steps (RmTop, rev (g n) ++ acc) r) ->
  regex_new (lit "^" ++ texts f ps ++ lit "$") = Some (RxBegin :: dot_items g ps ++ [RxEnd]).
Proof.
  intros Hp Hf. unfold regex_new.
  change (rx_steps (RmTop, []) (lit "^" ++ ?x)) with (rx_steps (RmTop, [RxBegin]) x).
  rewrite (dot_texts f g ps Hp Hf).
  change (rx_steps (RmTop, ?a) (lit "$")) with (Some (RmTop, RxEnd :: a)). cbn iota.
  cbn [rev]. rewrite rev_app_distr, rev_involutive. cbn [rev app]. reflexivity.
Qed.

Lemma dot_item_has c x : rc_has (if c =? ch "." then RcDot else RcChar c) x = true <-> like c x.
Proof.
  unfold like. destruct (N.eqb_spec c (ch ".")) as [->|Hn]; cbn [rc_has].
  - rewrite negb_true_iff, N.eqb_neq. split; [auto|]. intros [->|[_ H]]; [discriminate|exact H].
  - rewrite N.eqb_eq. split; [auto|]. intros [H|[H _]]; [exact H|contradiction].
Qed.

Lemma matches_dots w : matches (dot_chars w) (Forall2 like w).
Proof.
  intros l start s Hl. revert start s. induction w as [|c w IH]; intros start s; cbn [dot_chars map app rx_here dot_item].
  - split.
    + intro H. exists [], s. repeat split; auto. now rewrite (Hl _ start).
    + intros (v & t & -> & H & Ht). inversion H; subst. cbn. now rewrite (Hl _ false).
  - unfold dot_item at 1. cbn [rx_here]. unfold rx_once. destruct s as [|x s].
    + split; [discriminate|]. intros (v & t & E & H & _). inversion H; subst. discriminate.
    + change (map dot_item w) with (dot_chars w). rewrite andb_true_iff, IH, dot_item_has. split.
      * intros (Hx & v & t & -> & Hv & H). exists (x :: v), t. auto.
      * intros (v & t & E & Hv & H). inversion Hv as [|? y ? v' Hy Hv']; subst. injection E as -> ->. split; auto. exists v', t. auto.
Qed.

Fixpoint fits_dots (P : str -> str -> Prop) (ps : list piece) (s : str) : Prop :=
  match ps with
  | [] => s = []
  | PLit c :: r => exists x t, s = x :: t /\ like c x /\ fits_dots P r t
  | PVar n :: r => exists v t, s = v ++ t /\ P n v /\ fits_dots P r t
  end.

Lemma dots_start f ps l : (forall b b' t, rx_here l b t = rx_here l b' t) ->
  (forall n, In n (vars ps) -> exists Q, matches (f n) Q) ->
  forall b b' t, rx_here (dot_items f ps ++ l) b t = rx_here (dot_items f ps ++ l) b' t.
Proof.
  intros Hl Hf. induction ps as [|[c|n] ps IH]; intros b b' t; [apply Hl|reflexivity|].
  cbn [dot_items flat_map]. rewrite <- app_assoc. change (flat_map _ ps) with (dot_items f ps).
  destruct (Hf n) as (Q & HQ); [now left|].
  assert (HI : forall b b' t, rx_here (dot_items f ps ++ l) b t = rx_here (dot_items f ps ++ l) b' t).
  { apply IH. intros; apply Hf; now right. }
  apply Bool.eq_iff_eq_true. rewrite (HQ _ b t HI), (HQ _ b' t HI). reflexivity.
Qed.

Lemma dots_fit f P ps : (forall n, In n (vars ps) -> matches (f n) (P n)) ->
  forall start s, rx_here (dot_items f ps ++ [RxEnd]) start s = true <-> fits_dots P ps s.
Proof.
  intro Hf. induction ps as [|[c|n] ps IH]; intros start s.
  - cbn. destruct s; split; auto; discriminate.
  - cbn [dot_items flat_map app fits_dots]. change (flat_map _ ps) with (dot_items f ps). unfold dot_item. cbn [rx_here]. unfold rx_once.
    destruct s as [|x s].
    + split; [discriminate|]. intros (y & t & E & _). discriminate.
    + rewrite andb_true_iff, dot_item_has, IH by exact Hf. split.
      * intros (Hx & H). eauto.
      * intros (y & t & E & Hy & H). injection E as -> ->. auto.
  - cbn [dot_items flat_map fits_dots]. rewrite <- app_assoc. change (flat_map _ ps) with (dot_items f ps).
    etransitivity; [apply (Hf n (or_introl eq_refl))|].
    { apply dots_start; [intros b b' [|]; reflexivity|]. intros m Hm. exists (P m). apply Hf. now right. }
    split; intros (v & t & -> & Hv & H); exists v, t; repeat split; auto.
    + apply (IH (fun m Hm => Hf m (or_intror Hm)) false). exact H.
    + apply (IH (fun m Hm => Hf m (or_intror Hm)) false). exact H.
Qed.

(** Choosing what the dots are. *)
Lemma fits_dots_fits P ps s : fits_dots P ps s <-> exists ps', Forall2 like_piece ps ps' /\ fits P ps' s.
Proof.
  revert s. induction ps as [|[c|n] ps IH]; intro s; cbn [fits_dots].
  - split; [intros ->; exists []; split; [constructor|reflexivity]|]. intros (ps' & H & Hf). inversion H; subst. exact Hf.
  - split.
    + intros (x & t & -> & Hx & H). apply IH in H as (ps' & Hl & Hf). exists (PLit x :: ps'). split; [constructor; [now constructor|assumption]|].
      exists t. auto.
    + intros (ps' & H & Hf). inversion H as [|? q ? ps'' Hq Hl]; subst. inversion Hq as [? x Hx|]; subst. destruct Hf as (t & -> & Hf).
      exists x, t. split; [reflexivity|]. split; [exact Hx|]. apply IH. eauto.
  - split.
    + intros (v & t & -> & Hv & H). apply IH in H as (ps' & Hl & Hf). exists (PVar n :: ps'). split; [constructor; [now constructor|assumption]|].
      exists v, t. auto.
    + intros (ps' & H & Hf). inversion H as [|? q ? ps'' Hq Hl]; subst. inversion Hq; subst. destruct Hf as (v & t & -> & Hv & Hf).
      exists v, t. split; [reflexivity|]. split; [exact Hv|]. apply IH. eauto.
Qed.
Lemma like_vars ps ps' : Forall2 like_piece ps ps' -> vars ps' = vars ps.
Proof. induction 1 as [|p p' ps ps' H _ IH]; [reflexivity|]. destruct H; cbn; [exact IH|]. f_equal. exact IH. Qed.

Section Template.
Variable ps : list piece.
Variable p : path_template.
Hypothesis Hs : strict ps.
Hypothesis Hp : parse (show ps) = Ok p.
Hypothesis Hnd : NoDup (vars ps).
Notation sq := (squeeze_pieces false ps).

Section Dotted.
Hypothesis Hdot : dotted_template ps.

Definition dot_wildcard : list rx_item := RxBegin :: dot_items (fun _ => [anything]) sq ++ [RxEnd].
Lemma dot_wildcard_regex : regex_new (as_wildcard p) = Some dot_wildcard.
Proof.
  rewrite wildcard_texts, (pieces_squeezed ps p Hs Hp). apply dot_regex.
  - intros c Hc. apply Hdot. eapply squeeze_in; eauto.
  - intros n r acc _. apply rx_steps_anything.
Qed.
Lemma dot_wildcard_match path : is_match dot_wildcard path = true <-> near_expansion ps path.
Proof.
  unfold dot_wildcard. rewrite is_match_begin.
  rewrite (dots_fit (fun _ => [anything]) (fun _ v => Forall (fun x => rc_has (RcNone [47]) x = true) v)).
  2:{ intros n _. apply matches_star. }
  rewrite fits_dots_fits. unfold near_expansion. split.
  - intros (ps' & Hl & Hf). apply fits_iff in Hf as (val & Hv & ->); [|rewrite (like_vars _ _ Hl), vars_squeeze; exact Hnd].
    rewrite (like_vars _ _ Hl), vars_squeeze in Hv. exists val, ps'. split; [|auto]. intros n Hn. apply not_slash_class. auto.
  - intros (val & ps' & Hv & Hl & ->). exists ps'. split; [exact Hl|]. apply fits_iff; [rewrite (like_vars _ _ Hl), vars_squeeze; exact Hnd|].
    exists val. split; [|reflexivity]. rewrite (like_vars _ _ Hl), vars_squeeze. intros n Hn. apply not_slash_class. now apply Hv.
Qed.
End Dotted.

(** A dot could be a slash. *)
Definition dot_to (y : char) (q : piece) : piece := match q with PLit c => PLit (if c =? ch "." then y else c) | q => q end.
Lemma dot_to_like y qs : y <> 10 -> Forall2 like_piece qs (map (dot_to y) qs).
Proof.
  intro Hy. induction qs as [|[c|n] qs IH]; constructor; auto; constructor. unfold like. destruct (N.eqb_spec c (ch ".")); auto.
Qed.
Lemma dot_to_slashes qs : (own_slashes qs <= own_slashes (map (dot_to 47) qs))%nat
  /\ (In (PLit (ch ".")) qs -> (own_slashes qs < own_slashes (map (dot_to 47) qs))%nat).
Proof.
  induction qs as [|[c|n] qs [IH1 IH2]]; cbn [own_slashes map dot_to].
  - split; [lia|intros []].
  - destruct (N.eqb_spec c (ch ".")) as [->|Hc].
    + change (ch "." =? 47) with false. cbn. split; [lia|intros _; lia].
    + split; [lia|]. intros [[= H]|H]; [contradiction|]. specialize (IH2 H). lia.
  - split; [lia|]. intros [H|H]; [discriminate H|]. auto.
Qed.
Lemma squeeze_keeps_dot b : forall qs, In (PLit (ch ".")) qs -> In (PLit (ch ".")) (squeeze_pieces b qs).
Proof.
  intro qs. revert b. induction qs as [|[c|n] qs IH]; intros b H; [easy| |]; cbn [squeeze_pieces].
  - destruct (N.eqb_spec c (ch "/")) as [->|Hc].
    + destruct H as [H|H]; [discriminate H|]. destruct b; [auto|right; auto].
    + destruct H as [[= ->]|H]; [now left|right; auto].
  - destruct H as [H|H]; [discriminate H|]. right. auto.
Qed.

Lemma near_iff : (forall path, near_expansion ps path <-> expansion ps [] path) <-> ~ In (PLit (ch ".")) ps.
Proof.
  split.
  - intros H Hin. set (path := expand (fun _ => []) (map (dot_to 47) sq)).
    assert (Hn : near_expansion ps path).
    { exists (fun _ => []), (map (dot_to 47) sq). split; [intros n _ []|]. split; [apply dot_to_like; discriminate|reflexivity]. }
    apply H in Hn as (val & Hf & _ & E). apply squeezed_slash_free, slash_free_count in Hf. rewrite <- E in Hf. unfold path in Hf.
    rewrite slashes_expand in Hf. destruct (dot_to_slashes sq) as [_ Hlt]. specialize (Hlt (squeeze_keeps_dot false ps Hin)). lia.
  - intros Hn path. unfold near_expansion, expansion. split.
    + intros (val & ps' & Hv & Hl & ->). exists val. split; [exact Hv|]. split; [intros n v []|]. f_equal.
      assert (Hq : ~ In (PLit (ch ".")) sq) by (intro H; apply Hn; eapply squeeze_in; eauto).
      clear - Hl Hq. induction Hl as [|q q' qs qs' H _ IH]; [reflexivity|]. f_equal; [|apply IH; intro; apply Hq; now right].
      destruct H as [c x [->|[-> _]]|]; try reflexivity. elim Hq. now left.
    + intros (val & Hv & _ & ->). exists val, sq. split; [exact Hv|]. split; [|reflexivity]. clear.
      induction sq as [|[c|n] qs IH]; constructor; auto; constructor. now left.
Qed.

Section Plain.
Hypothesis Hplain : plain_template ps.

Definition dot_param (n v : str) : list rx_item :=
  RxBegin :: item_list (fun q => if str_eqb q n then dot_chars v else [dots]) sq ++ [RxEnd].
Lemma dot_param_regex n v : In n (vars ps) -> dotted_text v ->
  exists s, format_macro (as_wildcard_param p n) [v] = Some s /\ regex_new s = Some (dot_param n v).
Proof.
  intros Hn Hv. rewrite wildcard_param_texts, (pieces_squeezed ps p Hs Hp). eexists. split.
  - apply formatted; [exact (squeezed_braces ps Hs)| |]; rewrite vars_squeeze; assumption.
  - apply regex_texts; [exact (squeezed_plain ps Hplain)|]. intros q r acc _. destruct (str_eqb q n).
    + now apply dot_steps.
    + apply rx_steps_dots.
Qed.
Lemma dot_param_match n v path : In n (vars ps) -> (is_match (dot_param n v) path = true <->
  exists val, Forall2 like v (val n) /\ (forall m, In m (vars ps) -> m <> n -> ~ In 10 (val m)) /\ path = expand val sq).
Proof.
  intro Hn. unfold dot_param. rewrite is_match_begin.
  rewrite (items_fit _ (fun q w => if str_eqb q n then Forall2 like v w else Forall (fun x => rc_has RcDot x = true) w)).
  2:{ intros m _. destruct (str_eqb m n); [apply matches_dots|apply matches_star]. }
  rewrite fits_iff by (rewrite vars_squeeze; exact Hnd). rewrite vars_squeeze. split.
  - intros (val & Hv & ->). exists val. split; [|split; auto].
    + specialize (Hv n Hn). now rewrite str_eqb_refl in Hv.
    + intros m Hm Hmn. specialize (Hv m Hm). apply str_eqb_neq in Hmn. rewrite Hmn in Hv. now apply dot_class.
  - intros (val & H & Hv & ->). exists val. split; auto. intros m Hm. destruct (str_eqb m n) eqn:E.
    + apply str_eqb_spec in E. now subst.
    + apply dot_class. apply Hv; auto. now apply str_eqb_neq.
Qed.

Lemma dot_restriction n v path : In n (vars ps) -> ~ In 10 path ->
  (is_match (wildcard_items ps) path = true /\ is_match (dot_param n v) path = true <-> near_value ps n v path).
Proof.
  intros Hn Hnl. rewrite (wildcard_match ps Hnd path), dot_param_match by assumption. unfold near_value. split.
  - intros ((val & Hval & E) & val' & Hn' & _ & E'). exists val'. repeat split; auto.
    apply squeezed_slash_free. apply slash_free_count. rewrite <- E', E. apply slash_free_count. now apply squeezed_slash_free.
  - intros (val & Hval & Hf & ->). split; [eauto|]. exists val. split; [exact Hf|]. split; auto.
    intros m Hm _ Hin. apply Hnl. eapply expand_in; eauto. now rewrite vars_squeeze.
Qed.
End Plain.

(** Another value in place of one with a dot, and nothing in place of all others. *)
Definition only (n v : str) : str -> str := fun m => if str_eqb m n then v else [].
Lemma only_same n v : only n v n = v.
Proof. unfold only. now rewrite str_eqb_refl. Qed.

Lemma total_length val qs : length (expand val qs) = (length (expand (fun _ => []) qs) + list_sum (map (fun m => length (val m)) (vars qs)))%nat.
Proof.
  induction qs as [|[c|n] qs IH]; [reflexivity| |].
  - change (S (length (expand val qs)) = S (length (expand (fun _ => []) qs)) + list_sum (map (fun m => length (val m)) (vars qs)))%nat. lia.
  - change (length (val n ++ expand val qs) = length (expand (fun _ => []) qs)
      + (length (val n) + list_sum (map (fun m => length (val m)) (vars qs))))%nat. rewrite app_length. lia.
Qed.
Lemma sum_only val n v qs : NoDup (vars qs) -> In n (vars qs) -> val n = v ->
  (list_sum (map (fun m => length (val m)) (vars qs)) <= length v)%nat -> forall m, In m (vars qs) -> val m = only n v m.
Proof.
  intros Hn Hin Ev. generalize (vars qs) Hn Hin. clear Hn Hin qs. intros l Hn Hin Hle.
  assert (Hrest : forall k, In k l -> k <> n -> length (val k) = 0%nat).
  { intros k Hk Hne. apply in_split in Hin as (l1 & l2 & ->). rewrite map_app in Hle. cbn in Hle.
    rewrite list_sum_app in Hle. cbn in Hle. rewrite Ev in Hle.
    assert (H1 : list_sum (map (fun m => length (val m)) l1) = 0%nat) by (unfold list_sum in *; lia).
    assert (H2 : list_sum (map (fun m => length (val m)) l2) = 0%nat) by (unfold list_sum in *; lia).
    apply sum_zero in H1, H2. rewrite Forall_map, Forall_forall in H1, H2.
    apply in_app_or in Hk as [Hk|[Hk|Hk]]; [auto|congruence|auto]. }
  intros m Hm. unfold only. destruct (str_eqb m n) eqn:E; [apply str_eqb_spec in E; now subst|].
  apply str_eqb_neq in E. apply length_zero_iff_nil. auto.
Qed.
Lemma only_inj n v w qs : In n (vars qs) -> NoDup (vars qs) -> length v = length w -> expand (only n v) qs = expand (only n w) qs -> v = w.
Proof.
  induction qs as [|[c|m] qs IH]; intros Hin Hn Hl E; [easy| |].
  - apply IH; auto. now injection E.
  - change (vars (PVar m :: qs)) with (m :: vars qs) in *. inversion Hn as [|? ? Hni Hn']; subst.
    change (only n v m ++ expand (only n v) qs = only n w m ++ expand (only n w) qs) in E. unfold only at 1 3 in E.
    destruct (str_eqb m n) eqn:Em.
    + assert (H : forall a b c d : str, length a = length b -> a ++ c = b ++ d -> a = b).
      { clear. induction a as [|x a IH]; intros [|y b] c d Hl E; try discriminate; [reflexivity|]. injection E as -> E. f_equal. eapply IH; eauto. }
      eapply H; eauto.
    + destruct Hin as [->|Hin]; [now rewrite str_eqb_refl in Em|]. apply IH; auto.
Qed.

Definition undot (v : str) : str := map (fun c => if c =? ch "." then ch "x" else c) v.
Lemma value_iff n v : In n (vars ps) -> ~ In (ch "/") v -> ~ In 10 v -> ~ In (PLit 10) ps ->
  ((forall path, ~ In 10 path -> (near_value ps n v path <-> expansion ps [(n, v)] path)) <-> ~ In (ch ".") v).
Proof.
  intros Hin Hslash Hnl Hnlp. split.
  - intros H Hd. set (path := expand (only n (undot v)) sq).
    assert (Hun : forall y, ~ In y v -> y <> ch "x" -> ~ In y (undot v)).
    { intros y Hy Hx Hi. unfold undot in Hi. apply in_map_iff in Hi as (c & E & Hc). destruct (N.eqb_spec c (ch ".")); congruence. }
    assert (Hp1 : ~ In 10 path).
    { intro Hi. unfold path, expand in Hi. apply in_flat_map in Hi as ([c|m] & Hc & Hi).
      - destruct Hi as [->|[]]. apply Hnlp. eapply squeeze_in; eauto.
      - unfold only in Hi. destruct (str_eqb m n); [|easy]. revert Hi. apply Hun; [exact Hnl|discriminate]. }
    assert (Hp2 : near_value ps n v path).
    { exists (only n (undot v)). split; [|split; [|reflexivity]].
      - intros m _. unfold only. destruct (str_eqb m n); [|intros []]. apply Hun; [exact Hslash|discriminate].
      - rewrite only_same. unfold undot. clear. induction v as [|c v IH]; constructor; auto. unfold like.
        destruct (N.eqb_spec c (ch ".")); [right; split; [assumption|discriminate]|now left]. }
    apply (H path Hp1) in Hp2 as (val & _ & Hf & E). specialize (Hf n v (or_introl eq_refl)).
    assert (Hlen : length (undot v) = length v) by (unfold undot; apply map_length).
    assert (Hq : NoDup (vars sq)) by (rewrite vars_squeeze; exact Hnd).
    assert (Hq' : In n (vars sq)) by (rewrite vars_squeeze; exact Hin).
    assert (Hsum : forall w, list_sum (map (fun m => length (only n w m)) (vars sq)) = length w).
    { intro w. apply in_split in Hq' as (l1 & l2 & El). rewrite El in *. rewrite map_app, list_sum_app. cbn [map list_sum fold_right].
      rewrite only_same. apply NoDup_remove_2 in Hq.
      assert (Hz : forall l, ~ In n l -> list_sum (map (fun m => length (only n w m)) l) = 0%nat).
      { clear. intros l Hl. apply sum_zero. rewrite Forall_map. apply Forall_forall. intros m Hm. unfold only.
        destruct (str_eqb m n) eqn:Em; [apply str_eqb_spec in Em; subst; contradiction|reflexivity]. }
      pose proof (Hz l1 ltac:(intro; apply Hq; apply in_or_app; auto)) as Z1.
      pose proof (Hz l2 ltac:(intro; apply Hq; apply in_or_app; auto)) as Z2. unfold list_sum in *. lia. }
    pose proof (f_equal (@length N) E) as El. unfold path in El. rewrite (total_length (only n (undot v))), (total_length val), Hsum, Hlen in El.
    pose proof (sum_only val n v sq Hq Hq' Hf ltac:(lia)) as Hval.
    rewrite (expand_ext val (only n v) sq Hval) in E. apply only_inj in E; auto.
    apply in_split in Hd as (a & b & ->). unfold undot in E. rewrite map_app in E. cbn [map] in E.
    change (ch "." =? ch ".") with true in E. cbn iota in E. apply (f_equal (fun l => nth (length a) l 0)) in E.
    rewrite app_nth2 in E by (rewrite map_length; lia). rewrite map_length, Nat.sub_diag in E. rewrite app_nth2 in E by lia.
    rewrite Nat.sub_diag in E. discriminate E.
  - intros Hd path _. unfold near_value, expansion. split.
    + intros (val & Hv & Hl & ->). exists val. split; [exact Hv|]. split; [|reflexivity]. intros m w [[= <- <-]|[]].
      clear - Hl Hd. induction Hl as [|c x v w H _ IH]; [reflexivity|]. f_equal; [|apply IH; intro; apply Hd; now right].
      destruct H as [->|[-> _]]; [reflexivity|]. elim Hd. now left.
    + intros (val & Hv & Hf & ->). exists val. split; [exact Hv|]. split; [|reflexivity]. rewrite (Hf n v (or_introl eq_refl)).
      clear. induction v; constructor; auto. now left.
Qed.
End Template.

Section Mock.
Context (U : unicode) (types : type_id -> option type_info) (m : op_method) (o : mock_op).
Hypothesis Ho : httpmock_method U types m = Ok o.
Hypothesis Hpn : NoDup (map p_name (m_params m)).
Variable ps : list piece.
Hypothesis Hs : strict ps.
Hypothesis Hp : parse (show ps) = Ok (m_path m).
Hypothesis Hnd : NoDup (vars ps).

Lemma mock_dots : dotted_template ps ->
  exists es, when_calls o [] = Some es
    /\ forall json_is r, matched json_is es r = true <-> mr_method r = m_method m /\ near_expansion ps (mr_path r).
Proof.
  intro Hd. exists ([ExMethod (m_method m); ExPath (dot_wildcard ps)] ++ rev []). split.
  - apply (when_calls_ok U types m o Ho Hpn (dot_wildcard ps) [] []); [|constructor]. now apply dot_wildcard_regex.
  - intros json_is r. rewrite matched_rev, (dot_wildcard_match ps Hnd). intuition.
Qed.

Lemma mock_dots_iff : dotted_template ps -> forall es, when_calls o [] = Some es ->
  ((forall json_is r, matched json_is es r = true <-> mr_method r = m_method m /\ expansion ps [] (mr_path r)) <->
   ~ In (PLit (ch ".")) ps).
Proof.
  intros Hd es E. destruct (mock_dots Hd) as (es' & E' & Hm). rewrite E in E'. injection E' as <-.
  rewrite <- (near_iff ps). split.
  - intros H path. specialize (H (fun _ _ => false) (MockRequest (m_method m) path [] [])).
    rewrite (Hm _ _) in H. cbn in H. tauto.
  - intros H json_is r. rewrite Hm, H. reflexivity.
Qed.

Lemma dot_path_call p v w : plain_template ps -> p_kind p = KPath -> In (p_api_name p) (vars ps) -> dotted_text (v_text v) ->
  when_method_of types (m_path m) p = Ok w ->
  when_call (wm_body w) (Some v) = Some (ExPath (dot_param ps (p_api_name p) (v_text v))).
Proof.
  intros Hpl Hk Hin Ht Hw. unfold when_method_of in Hw. apply obind_ok in Hw as (? & _ & Hw). rewrite Hk in Hw.
  cbn in Hw. injection Hw as <-. cbn [wm_body when_call].
  destruct (dot_param_regex ps (m_path m) Hs Hp Hnd Hpl (p_api_name p) (v_text v) Hin Ht) as (s & -> & ->). reflexivity.
Qed.

Lemma mock_value p v : plain_template ps -> In p (m_params m) -> p_kind p = KPath -> In (p_api_name p) (vars ps) ->
  dotted_text (v_text v) ->
  exists es, when_calls o [(p_name p, Some v)] = Some es
    /\ forall json_is r, ~ In 10 (mr_path r) ->
       (matched json_is es r = true <-> mr_method r = m_method m /\ near_value ps (p_api_name p) (v_text v) (mr_path r)).
Proof.
  intros Hpl Hin Hk Hv Ht.
  exists ([ExMethod (m_method m); ExPath (wildcard_items ps)] ++ rev [ExPath (dot_param ps (p_api_name p) (v_text v))]). split.
  - apply (when_calls_ok U types m o Ho Hpn (wildcard_items ps) [(p, Some v)] [ExPath (dot_param ps (p_api_name p) (v_text v))]).
    + now apply wildcard_regex.
    + constructor; [|constructor]. split; [exact Hin|]. intros w Hw. now apply (dot_path_call p v w).
  - intros json_is r Hnl. rewrite matched_rev, <- (dot_restriction ps Hnd _ _ _ Hv Hnl). rewrite Forall_cons_iff. cbn [meets].
    intuition.
Qed.

Lemma mock_value_iff p v : plain_template ps -> ~ In (PLit 10) ps -> In p (m_params m) -> p_kind p = KPath ->
  In (p_api_name p) (vars ps) -> dotted_text (v_text v) -> ~ In (ch "/") (v_text v) -> ~ In 10 (v_text v) ->
  forall es, when_calls o [(p_name p, Some v)] = Some es ->
  ((forall json_is r, ~ In 10 (mr_path r) ->
      (matched json_is es r = true <-> mr_method r = m_method m /\ expansion ps [(p_api_name p, v_text v)] (mr_path r))) <->
   ~ In (ch ".") (v_text v)).
Proof.
  intros Hpl Hnl Hin Hk Hv Ht Hsl Hnv es E. destruct (mock_value p v Hpl Hin Hk Hv Ht) as (es' & E' & Hm). rewrite E in E'. injection E' as <-.
  rewrite <- (value_iff ps Hnd (p_api_name p) (v_text v) Hv Hsl Hnv Hnl). split.
  - intros H path Hpath. specialize (H (fun _ _ => false) (MockRequest (m_method m) path [] []) Hpath).
    rewrite (Hm (fun _ _ => false) (MockRequest (m_method m) path [] []) Hpath) in H. cbn in H. tauto.
  - intros H json_is r Hr. rewrite (Hm _ _ Hr), (H _ Hr). reflexivity.
Qed.
End Mock.

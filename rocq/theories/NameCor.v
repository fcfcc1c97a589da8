(** Names of operations: consequences for snake-case ids. *)
From Coq Require Import ZifyBool.
From Verif Require Import Base SanitizeModel SanitizeSpec WordProofs SanitizeProofs UnicodeProofs.

Section Ids.
Variable U : unicode.
Hypothesis UL : unicode_laws U.
Hypothesis AL : ascii_laws U.

Lemma snake_word_ascii w : snake_word w -> forall c, In c w -> (c < 128)%N.
Proof.
  intros [_ H] c Hc. rewrite Forall_forall in H. apply H in Hc.
  unfold ascii_lower, ascii_digit in Hc. lia.
Qed.

Lemma snake_word_stable w : snake_word w -> w <> [] /\ Forall (stable U) w.
Proof.
  intros H. pose proof (snake_word_ascii w H) as Ha. destruct H as [Hne H]. split; auto.
  rewrite Forall_forall in *. intros c Hc. apply ascii_stable; auto.
Qed.

Lemma snake_id_words w ws : Forall snake_word (w :: ws) ->
  let s := w ++ flat_map (fun v => ch "_" :: v) ws in
  words_of U s (w :: ws) /\ snake_words U s (w :: ws).
Proof.
  intros H s.
  assert (Hs : Forall (fun w => w <> [] /\ Forall (stable U) w) (w :: ws)).
  { apply Forall_impl with (2 := H). apply snake_word_stable. }
  assert (Hw : words_of U s (w :: ws)).
  { pose proof (words_of_glue U UL AL (w :: ws) [] ltac:(easy) (or_introl eq_refl) Hs) as Hw.
    rewrite app_nil_r in Hw. exact Hw. }
  split; auto.
  assert (Hc : forall c, In c s -> c = ch "_" \/ ascii_lower c || ascii_digit c = true).
  { intros c Hc. unfold s in Hc. apply in_app_iff in Hc.
    assert (Hin : c = ch "_" \/ exists v, In v (w :: ws) /\ In c v).
    { destruct Hc as [Hc|Hc]; [right; exists w; split; auto; now left|].
      apply in_flat_map in Hc as (v & Hv & [Hc|Hc]); auto.
      right. exists v. split; auto. now right. }
    destruct Hin as [?|(v & Hv & Hcv)]; auto. right.
    rewrite Forall_forall in H. destruct (H v Hv) as [_ Hf]. rewrite Forall_forall in Hf. auto. }
  right; right; right. split; [|split].
  - intro E. assert (Hin : In (ch "+") s) by (rewrite E; now left).
    apply Hc in Hin as [Hin|Hin]; discriminate.
  - intro E. assert (Hin : In (ch "-") s) by (rewrite E; now left).
    apply Hc in Hin as [Hin|Hin]; discriminate.
  - exists w, ws. replace (no_apostrophes s) with s.
    + split; auto. symmetry. rewrite <- (map_id (w :: ws)) at 2. apply map_ext_in. intros v Hv.
      rewrite Forall_forall in Hs. apply stable_word; auto; now apply Hs.
    + symmetry. unfold no_apostrophes. clear - Hc. induction s as [|c s IH]; auto. cbn [filter].
      destruct (N.eqb c (ch "'")) eqn:E.
      * apply N.eqb_eq in E. destruct (Hc c (or_introl eq_refl)) as [H|H]; subst c; discriminate.
      * cbn. rewrite IH; auto. intros d Hd. apply Hc. now right.
Qed.

Lemma snake_ids_distinct a b : snake_id a -> snake_id b -> a <> b ->
  sanitize U a Snake <> sanitize U b Snake.
Proof.
  intros (wa & ra & Ha & ->) (wb & rb & Hb & ->) Hne E.
  apply snake_id_words in Ha as [_ Ha]. apply snake_id_words in Hb as [_ Hb].
  apply (same_name_iff U UL AL _ _ _ _ Ha Hb) in E. congruence.
Qed.

Definition up (w : str) : str :=
  match w with
  | [] => []
  | c :: r => (c - 32)%N :: r
  end.

Lemma capitalised_up w : lettered_word w -> capitalised U w = up w.
Proof.
  intros (c & r & -> & Hc & Hw). cbn [capitalised up].
  rewrite (al_to_upper U AL), Hc by (unfold ascii_lower in Hc; lia). cbn [app]. f_equal.
  destruct r as [|d r]; auto. apply stable_word; auto; [easy|].
  destruct (snake_word_stable _ Hw) as [_ H]. now inversion H.
Qed.

Lemma run_unique (r q x y : str) :
  Forall (fun c => ascii_upper c = false) r -> Forall (fun c => ascii_upper c = false) q ->
  match x with [] => True | c :: _ => ascii_upper c = true end ->
  match y with [] => True | c :: _ => ascii_upper c = true end ->
  r ++ x = q ++ y -> r = q /\ x = y.
Proof.
  revert q; induction r as [|c r IH]; intros q Hr Hq Hx Hy E; destruct q as [|d q]; cbn in E.
  - auto.
  - subst x. inversion Hq; subst. congruence.
  - subst y. inversion Hr; subst. congruence.
  - injection E as -> E. inversion Hr; inversion Hq; subst.
    destruct (IH q) as [-> ->]; auto.
Qed.

Lemma lower_tail c r : snake_word (c :: r) -> Forall (fun d => ascii_upper d = false) r.
Proof.
  intros [_ H]. inversion H; subst. apply Forall_impl with (2 := H3).
  intros d. unfold ascii_lower, ascii_digit, ascii_upper. lia.
Qed.

Lemma up_head ws : Forall lettered_word ws ->
  match flat_map up ws with [] => True | c :: _ => ascii_upper c = true end.
Proof.
  intro H. destruct H as [|w ws (c & r & -> & Hc & _) _]; cbn; auto.
  unfold ascii_lower, ascii_upper in *. lia.
Qed.

Lemma up_injective ws : forall vs, Forall lettered_word ws -> Forall lettered_word vs ->
  flat_map up ws = flat_map up vs -> ws = vs.
Proof.
  induction ws as [|w ws IH]; intros vs Hw Hv E.
  - destruct Hv as [|v vs (c & r & -> & _) _]; [auto|discriminate].
  - inversion Hw as [|? ? (c & r & -> & Hc & Hsw) Hw']; subst.
    destruct vs as [|v vs]; [discriminate|].
    inversion Hv as [|? ? (d & q & -> & Hd & Hsv) Hv']; subst.
    cbn [flat_map up] in E. cbn [app] in E. injection E as E1 E2.
    assert (c = d) by (unfold ascii_lower in *; lia). subst d.
    destruct (run_unique r q (flat_map up ws) (flat_map up vs)) as [-> E3]; auto.
    + eapply lower_tail; eauto.
    + eapply lower_tail; eauto.
    + now apply up_head.
    + now apply up_head.
    + f_equal. auto.
Qed.

Lemma capitalised_chars w : lettered_word w ->
  Forall (fun c => c <> ch "_") (up w) /\ exists c r, up w = c :: r /\ ascii_upper c = true.
Proof.
  intros (c & r & -> & Hc & Hw). split.
  - cbn [up]. constructor; [unfold ascii_lower, ch in *; cbn; lia|].
    destruct Hw as [_ H]. inversion H; subst. apply Forall_impl with (2 := H3).
    intros d Hd ->. discriminate.
  - cbn. eexists _, _. split; [reflexivity|]. unfold ascii_lower, ascii_upper in *. lia.
Qed.

Lemma ups_chars ws : Forall lettered_word ws -> Forall (fun c => c <> ch "_") (flat_map up ws).
Proof.
  induction 1 as [|w ws H _ IH]; cbn [flat_map]; [constructor|].
  apply Forall_app. split; auto. now apply capitalised_chars.
Qed.

(** The builder's name of a snake-case id: the Pascal case of its method name. *)
Lemma builder_name w ws : Forall lettered_word (w :: ws) ->
  let s := w ++ flat_map (fun v => ch "_" :: v) ws in
  sanitize U (sanitize U s Snake) Pascal = unreserved (flat_map up (w :: ws)).
Proof.
  intros H s.
  assert (Hsw : Forall snake_word (w :: ws)).
  { apply Forall_impl with (2 := H). now intros v (? & ? & _ & _ & ?). }
  destruct (snake_id_words w ws Hsw) as [_ Hs]. fold s in Hs.
  rewrite (sanitize_snake U UL AL s (w :: ws) Hs).
  assert (Hst : Forall (fun w => w <> [] /\ Forall (stable U) w) (w :: ws)).
  { apply Forall_impl with (2 := Hsw). apply snake_word_stable. }
  destruct (name_words U UL AL (w :: ws) ltac:(easy) Hst) as [Hw Hch].
  set (t := snake_name U (w :: ws)) in *.
  assert (Hnot : forall c, In c t -> (c < 128)%N -> c = ch "_" \/ ascii_lower c || ascii_upper c
                                                                || ascii_digit c = true).
  { intros c Hc Hlt. rewrite Forall_forall in Hch. destruct (Hch c Hc) as [->|((Ha & _) & _)]; auto.
    right. now rewrite (al_alphanumeric U AL) in Ha by auto. }
  assert (Hap : no_apostrophes t = t).
  { unfold no_apostrophes. clear - Hnot. induction t as [|c t IH]; auto. cbn [filter].
    destruct (N.eqb c (ch "'")) eqn:E.
    - apply N.eqb_eq in E. exfalso. subst c. destruct (Hnot (ch "'")) as [H|H]; try discriminate.
      now left. reflexivity.
    - cbn. rewrite IH; auto. intros d Hd. apply Hnot. now right. }
  rewrite (sanitize_pascal U UL AL t (flat_map (capitalised U) (w :: ws))).
  - assert (E : flat_map (capitalised U) (w :: ws) = flat_map up (w :: ws)).
    { clear - H UL AL. induction H as [|v vs Hv _ IH]; auto. cbn [flat_map].
      now rewrite IH, capitalised_up. }
    rewrite E. f_equal. inversion H as [|? ? Hl _]; subst.
    destruct (capitalised_chars w Hl) as (_ & c & r & Ec & Hc).
    cbn [flat_map]. rewrite Ec. cbn [app fronted].
    rewrite (al_start U AL) by (unfold ascii_upper in Hc; lia).
    rewrite Hc, orb_true_r. reflexivity.
  - right; right; right. split; [|split].
    + intro E. destruct (Hnot (ch "+")) as [H'|H']; try discriminate; [|reflexivity].
      rewrite E. now left.
    + intro E. destruct (Hnot (ch "-")) as [H'|H']; try discriminate; [|reflexivity].
      rewrite E. now left.
    + exists w, ws. rewrite Hap. auto.
Qed.

Lemma lettered_ids_distinct a b : lettered_id a -> lettered_id b -> a <> b ->
  sanitize U (sanitize U a Snake) Pascal <> sanitize U (sanitize U b Snake) Pascal.
Proof.
  intros (wa & ra & Ha & ->) (wb & rb & Hb & ->) Hne E.
  rewrite (builder_name wa ra Ha), (builder_name wb rb Hb) in E.
  assert (Hu : forall ws vs : list str, Forall lettered_word ws -> Forall lettered_word vs ->
    unreserved (flat_map up ws) = unreserved (flat_map up vs) -> flat_map up ws = flat_map up vs).
  { assert (Hx : forall ws vs : list str, Forall lettered_word vs ->
      flat_map up ws ++ [ch "_"] = flat_map up vs -> False).
    { intros ws vs Hv E'. apply ups_chars in Hv. rewrite <- E' in Hv.
      apply Forall_app in Hv as [_ Hv]. now inversion Hv. }
    intros ws vs Hw Hv. unfold unreserved.
    destruct (_ || _), (_ || _); intro E'; auto.
    - now apply app_inj_tail in E'.
    - exfalso. now apply (Hx ws vs).
    - exfalso. symmetry in E'. now apply (Hx vs ws). }
  apply Hu in E; auto. apply up_injective in E; auto. congruence.
Qed.
End Ids.

(** ** With the tables of Unicode 15 *)
Lemma stable_unicode15 s :
  (forall c, In c s -> c <> 304%N /\ (uppercase unicode15 c = true -> to_lower unicode15 c <> [c])) ->
  sanitize unicode15 (sanitize unicode15 s Snake) Snake = sanitize unicode15 s Snake.
Proof.
  intro H. apply (sanitize_stable _ unicode15_laws unicode15_ascii).
  intros c Hc Hl. destruct (H c Hc). now apply unicode15_settled.
Qed.

Lemma builders_collide : exists a b, snake_id a /\ snake_id b
  /\ sanitize unicode15 a Snake <> sanitize unicode15 b Snake
  /\ sanitize unicode15 (sanitize unicode15 a Snake) Pascal
     = sanitize unicode15 (sanitize unicode15 b Snake) Pascal
  /\ a = lit "get_v_1" /\ b = lit "get_v1".
Proof.
  exists (lit "get_v_1"), (lit "get_v1"). split; [|split; [|split; [|split]]].
  - exists (lit "get"), [lit "v"; lit "1"]. split; [|reflexivity].
    repeat (apply Forall_cons; [split; [discriminate|repeat constructor]|]). apply Forall_nil.
  - exists (lit "get"), [lit "v1"]. split; [|reflexivity].
    repeat (apply Forall_cons; [split; [discriminate|repeat constructor]|]). apply Forall_nil.
  - vm_compute. discriminate.
  - vm_compute. reflexivity.
  - auto.
Qed.

Lemma stable_refuted :
  (exists s, sanitize unicode15 (sanitize unicode15 s Snake) Snake <> sanitize unicode15 s Snake
             /\ s = [304%N])
  /\ (exists s, sanitize unicode15 (sanitize unicode15 s Snake) Snake <> sanitize unicode15 s Snake
                /\ s = ch "A" :: [119808%N]).
Proof.
  split.
  - exists [304%N]. split; [|reflexivity]. vm_compute. discriminate.
  - exists [ch "A"; 119808%N]. split; [|reflexivity]. vm_compute. discriminate.
Qed.

Lemma pascal_refuted : exists s,
  sanitize unicode15 (sanitize unicode15 s Pascal) Pascal <> sanitize unicode15 s Pascal
  /\ s = lit "a_b".
Proof. exists (lit "a_b"). split; [|reflexivity]. vm_compute. discriminate. Qed.

Lemma distinct_refuted : exists a b, a <> b
  /\ sanitize unicode15 a Snake = sanitize unicode15 b Snake
  /\ a = lit "get-item" /\ b = lit "getItem".
Proof.
  exists (lit "get-item"), (lit "getItem"). split; [discriminate|].
  split; [vm_compute; reflexivity|auto].
Qed.

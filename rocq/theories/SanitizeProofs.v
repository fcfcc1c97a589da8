(** [sanitize] yields the names of SanitizeSpec; they are identifiers. *)
From Coq Require Import ZifyBool.
From Verif Require Import Base SanitizeModel SanitizeSpec WordProofs.

(** ** Keywords *)
Lemma rejects_split s :
  mem s syn_rejects = str_eqb s (lit "_") || (mem s strict_keywords || mem s reserved_keywords).
Proof.
  apply eq_true_iff_eq. rewrite !orb_true_iff, str_eqb_spec, !mem_spec.
  assert (H1 : forallb (fun k => str_eqb k (lit "_") || (mem k strict_keywords
    || mem k reserved_keywords)) syn_rejects = true) by (vm_compute; reflexivity).
  assert (H2 : forallb (fun k => mem k syn_rejects)
    (lit "_" :: strict_keywords ++ reserved_keywords) = true) by (vm_compute; reflexivity).
  rewrite forallb_forall in H1, H2. split.
  - intro H. specialize (H1 s H). rewrite !orb_true_iff, str_eqb_spec, !mem_spec in H1. exact H1.
  - intro H. apply mem_spec, H2. cbn [In]. rewrite in_app_iff.
    destruct H as [-> |[H|H]]; auto.
Qed.

Lemma keyword_end s : In (s ++ [ch "_"]) (strict_keywords ++ reserved_keywords) -> False.
Proof.
  assert (H : forallb (fun k => negb (ends_with_char (ch "_") k))
    (strict_keywords ++ reserved_keywords) = true) by (vm_compute; reflexivity).
  rewrite forallb_forall in H. intro Hin. specialize (H _ Hin).
  rewrite ends_with_char_snoc, N.eqb_refl in H. discriminate.
Qed.

Section Sanitize.
Variable U : unicode.
Hypothesis UL : unicode_laws U.
Hypothesis AL : ascii_laws U.

Let xc (c : char) : Prop := xid_continue U c = true.

Lemma under_xc : xid_continue U (ch "_") = true.
Proof. rewrite (al_continue U AL) by reflexivity. reflexivity. Qed.
Lemma under_start : xid_start U (ch "_") = false.
Proof. rewrite (al_start U AL) by reflexivity. reflexivity. Qed.
Lemma under_alnum : alphanumeric U (ch "_") = false.
Proof. rewrite (al_alphanumeric U AL) by reflexivity. reflexivity. Qed.
Lemma dash_alnum : alphanumeric U (ch "-") = false.
Proof. rewrite (al_alphanumeric U AL) by reflexivity. reflexivity. Qed.

Lemma cases_disjoint c : lowercase U c = true -> uppercase U c = false.
Proof. apply (ul_cases U UL). Qed.

(** ** The last step *)
Definition front (t : str) : str :=
  match t with
  | [] => []
  | h :: _ => if xid_start U h then t else lit "_" ++ t
  end.

Lemma front_fronted t : front t = fronted U t.
Proof. destruct t; reflexivity. Qed.

Lemma fronted_ok t : t <> [] -> Forall xc t ->
  exists c r, fronted U t = c :: r
    /\ (xid_start U c = true \/ c = ch "_" /\ r <> []) /\ Forall xc r.
Proof.
  intros Hne Ht. destruct t as [|h t]; [easy|]. cbn. inversion Ht; subst.
  destruct (xid_start U h) eqn:E.
  - exists h, t. auto.
  - exists (ch "_"), (h :: t). split; [reflexivity|]. split; [right; split; easy|auto].
Qed.

Lemma finish_eq t : t <> [] -> Forall xc t ->
  (if parses_as_ident U (front t) then front t else front t ++ lit "_")
  = unreserved (fronted U t).
Proof.
  intros Hne Ht. rewrite front_fronted.
  destruct (fronted_ok t Hne Ht) as (c & r & E & Hc & Hr).
  assert (Hnu : str_eqb (fronted U t) (lit "_") = false).
  { apply str_eqb_neq. rewrite E. intros [= -> ->].
    destruct Hc as [Hc|[_ Hc]]; [|easy]. pose proof under_start as H. unfold ch in H.
    cbn in H, Hc. congruence. }
  assert (Hp : parses_as_ident U (fronted U t)
    = negb (mem (fronted U t) strict_keywords || mem (fronted U t) reserved_keywords)).
  { rewrite E. cbn [parses_as_ident]. rewrite <- E, rejects_split, Hnu.
    replace (xid_start U c || N.eqb c (ch "_")) with true.
    - replace (forallb (xid_continue U) r) with true; auto.
      symmetry. apply forallb_forall. rewrite Forall_forall in Hr. exact Hr.
    - symmetry. apply orb_true_iff. destruct Hc as [Hc|[-> _]]; auto. }
  rewrite Hp. unfold unreserved. destruct (_ || _); reflexivity.
Qed.

Lemma finish_identifier t : t <> [] -> Forall xc t ->
  identifier U (unreserved (fronted U t)).
Proof.
  intros Hne Ht. destruct (fronted_ok t Hne Ht) as (c & r & E & Hc & Hr).
  unfold unreserved.
  destruct (mem (fronted U t) strict_keywords || mem (fronted U t) reserved_keywords) eqn:Ek.
  - split.
    + exists c, (r ++ [ch "_"]). rewrite E. split; auto. split.
      * destruct Hc as [Hc|[Hc _]]; auto. right. split; auto. now destruct r.
      * apply Forall_app. split; auto. constructor; auto. apply under_xc.
    + split; intro H; apply (keyword_end (fronted U t)); apply in_or_app; auto.
  - apply orb_false_iff in Ek as [E1 E2]. split; [eauto|].
    split; now apply mem_false.
Qed.

(** ** Words *)
Lemma words_of_letters s ws : words_of U s ws -> Forall (fun w => w <> [] /\ Forall (letter U) w) ws.
Proof.
  induction 1 as [|c s ws Hc _ IH|run s ws ws' Hne Hr Hs (Hw & Hn & _) _ IH]; auto.
  apply Forall_app. split; auto. subst run. clear - Hn Hr.
  induction ws as [|w ws IH]; constructor; inversion Hn; subst.
  - cbn in Hr. apply Forall_app in Hr as [? _]. auto.
  - cbn in Hr. apply Forall_app in Hr as [_ ?]. auto.
Qed.

Lemma lowercase_word_eq w : lowercase_word U w = lowered U w.
Proof.
  unfold lowered. induction w as [|c [|d r] IH]; auto.
  change (lowercase_word U (c :: d :: r)) with (to_lower U c ++ lowercase_word U (d :: r)).
  rewrite IH. change (removelast (c :: d :: r)) with (c :: removelast (d :: r)).
  cbn [flat_map]. rewrite <- app_assoc. f_equal. f_equal.
  change (rev (c :: d :: r)) with (rev (d :: r) ++ [c]).
  assert (H : rev (d :: r) <> []).
  { intro H. apply (f_equal (@length _)) in H. rewrite rev_length in H. discriminate. }
  destruct (rev (d :: r)); easy.
Qed.

Lemma capitalize_word_eq w : capitalize_word U w = capitalised U w.
Proof. destruct w; cbn; auto. now rewrite lowercase_word_eq. Qed.

(** A property of the lower case of every character of [w] is one of all of [lowered w]. *)
Lemma lowered_forall (P : char -> Prop) w : (In 931%N w -> P 962%N) ->
  (forall c, In c w -> Forall P (to_lower U c)) -> Forall P (lowered U w).
Proof.
  rewrite <- lowercase_word_eq. intros Hs.
  induction w as [|c [|d r] IH]; intros H.
  - constructor.
  - cbn. destruct (N.eqb c 931) eqn:E.
    + apply N.eqb_eq in E. subst. constructor; auto. apply Hs. now left.
    + apply H. now left.
  - change (lowercase_word U (c :: d :: r)) with (to_lower U c ++ lowercase_word U (d :: r)).
    apply Forall_app. split; [apply H; now left|]. apply IH.
    + intro Hin. apply Hs. now right.
    + intros c' Hc'. apply H. now right.
Qed.

Lemma lowered_xc w : Forall (letter U) w -> Forall xc (lowered U w).
Proof.
  intro H. rewrite Forall_forall in H. apply lowered_forall.
  - intros _. apply (ul_sigma U UL).
  - intros c Hc. apply H in Hc as [_ Hc]. now apply (ul_lower U UL).
Qed.

Lemma lowered_nonempty w : w <> [] -> Forall (letter U) w -> lowered U w <> [].
Proof.
  intros Hne H. rewrite <- lowercase_word_eq. destruct w as [|c r]; [easy|].
  inversion H as [|? ? [_ Hc] ?]; subst. apply (ul_lower U UL) in Hc as [Hc _].
  destruct r.
  - cbn. now destruct (N.eqb c 931).
  - cbn. now destruct (to_lower U c).
Qed.

Lemma capitalised_xc w : Forall (letter U) w -> Forall xc (capitalised U w).
Proof.
  intro H. destruct w as [|c r]; [constructor|]. inversion H as [|? ? [_ Hc] ?]; subst.
  cbn. apply Forall_app. split; [now apply (ul_upper U UL)|now apply lowered_xc].
Qed.

Lemma capitalised_nonempty w : w <> [] -> Forall (letter U) w -> capitalised U w <> [].
Proof.
  intros Hne H. destruct w as [|c r]; [easy|].
  inversion H as [|? ? [_ Hc] ?]; subst. apply (ul_upper U UL) in Hc as [Hc _].
  cbn. now destruct (to_upper U c).
Qed.

(** ** Joining *)
Definition glue (ws : list str) : str := tl (flat_map (fun w => ch "_" :: w) ws).

Lemma join_glue ws : join (lit "_") ws = glue ws.
Proof.
  unfold glue. induction ws as [|w [|v r] IH]; auto.
  - cbn. now rewrite app_nil_r.
  - change (join (lit "_") (w :: v :: r)) with (w ++ lit "_" ++ join (lit "_") (v :: r)).
    rewrite IH. reflexivity.
Qed.

Lemma glue_cons w ws : glue (w :: ws) = w ++ flat_map (fun w => ch "_" :: w) ws.
Proof. reflexivity. Qed.

Lemma glue_xc ws : Forall (Forall xc) ws -> Forall xc (glue ws).
Proof.
  destruct ws as [|w ws]; intro H; [constructor|]. rewrite glue_cons.
  inversion H; subst. apply Forall_app. split; auto.
  clear - H3 AL. induction H3; cbn [flat_map]; [constructor|].
  cbn. constructor; [apply under_xc|]. apply Forall_app. auto.
Qed.

(** ** The two cases *)
Lemma plus1_xc : Forall xc (lit "plus1").
Proof. repeat (constructor; [unfold xc; rewrite (al_continue U AL) by reflexivity; reflexivity|]).
  constructor. Qed.
Lemma minus1_xc : Forall xc (lit "minus1").
Proof. repeat (constructor; [unfold xc; rewrite (al_continue U AL) by reflexivity; reflexivity|]).
  constructor. Qed.

Lemma x_words : words U (lit "x") = [lit "x"].
Proof.
  change (lit "x") with ([120%N] ++ []). rewrite split_run.
  - reflexivity.
  - constructor; auto. rewrite (al_alphanumeric U AL) by reflexivity. reflexivity.
  - exact I.
Qed.

Lemma x_snake : to_case U Snake (lit "x") = lit "x".
Proof.
  cbn [to_case]. unfold to_snake_case. rewrite x_words. change (lit "x") with [120%N]. cbn.
  rewrite (al_to_lower U AL) by reflexivity. reflexivity.
Qed.

Lemma x_pascal : to_case U Pascal (lit "x") = lit "X".
Proof.
  cbn [to_case]. unfold to_pascal_case. rewrite x_words. change (lit "x") with [120%N]. cbn.
  rewrite (al_to_upper U AL) by reflexivity. reflexivity.
Qed.

Lemma cleaned_replaced s : cleaned U s = replaced U (no_apostrophes s).
Proof. reflexivity. Qed.

(** [sanitize] in terms of the text [to_case] gives. *)
Definition text (s : str) (c : case) : str :=
  if str_eqb s (lit "+1") then lit "plus1"
  else if str_eqb s (lit "-1") then lit "minus1"
  else match to_case U c (cleaned U s) with [] => to_case U c (lit "x") | t => t end.

Lemma single_xc c : xid_continue U c = true -> Forall xc [c].
Proof. repeat constructor; auto. Qed.

Lemma sanitize_text s c : text s c <> [] -> Forall xc (text s c) ->
  sanitize U s c = unreserved (fronted U (text s c)).
Proof.
  intros Hne Hxc. unfold sanitize, text in *.
  destruct (str_eqb s (lit "+1")); [now apply (finish_eq (lit "plus1"))|].
  destruct (str_eqb s (lit "-1")); [now apply (finish_eq (lit "minus1"))|].
  destruct (to_case U c (cleaned U s)) as [|h t] eqn:E; [|now apply (finish_eq (h :: t))].
  rewrite <- finish_eq by auto.
  assert (E' : front (to_case U c (lit "x")) = to_case U c (lit "x")).
  { destruct c; rewrite ?x_snake, ?x_pascal; [change (lit "X") with [88%N]|change (lit "x") with [120%N]];
      cbn; rewrite (al_start U AL) by reflexivity; reflexivity. }
  now rewrite E'.
Qed.

(** Snake case. *)
Lemma snake_text s ws : snake_words U s ws -> text s Snake = glue ws.
Proof.
  unfold text. intros [(-> & ->)|[(-> & ->)|[(H1 & H2 & Hw & ->)|(H1 & H2 & w & r & Hw & ->)]]].
  - reflexivity.
  - reflexivity.
  - rewrite (proj2 (str_eqb_neq _ _) H1), (proj2 (str_eqb_neq _ _) H2).
    cbn [to_case]. unfold to_snake_case. rewrite cleaned_replaced.
    rewrite (words_of_sound U cases_disjoint dash_alnum _ _ Hw). cbn [map join].
    pose proof x_snake as H. cbn [to_case] in H. unfold to_snake_case in H. exact H.
  - rewrite (proj2 (str_eqb_neq _ _) H1), (proj2 (str_eqb_neq _ _) H2).
    cbn [to_case]. unfold to_snake_case at 1. rewrite cleaned_replaced.
    rewrite (words_of_sound U cases_disjoint dash_alnum _ _ Hw).
    rewrite join_glue, (map_ext _ _ lowercase_word_eq).
    apply words_of_letters in Hw. inversion Hw as [|? ? (Hn & Hl) _]; subst.
    cbn [map]. rewrite glue_cons. pose proof (lowered_nonempty w Hn Hl).
    destruct (lowered U w); easy.
Qed.

Lemma snake_words_ok s ws : snake_words U s ws ->
  ws <> [] /\ Forall (fun w => w <> [] /\ Forall xc w) ws.
Proof.
  intros [(-> & ->)|[(-> & ->)|[(H1 & H2 & Hw & ->)|(H1 & H2 & w & r & Hw & ->)]]].
  - split; [easy|]. constructor; auto. split; [easy|apply plus1_xc].
  - split; [easy|]. constructor; auto. split; [easy|apply minus1_xc].
  - split; [easy|]. constructor; auto. split; [easy|]. constructor; auto.
    unfold xc. rewrite (al_continue U AL) by reflexivity. reflexivity.
  - split; [easy|]. apply words_of_letters in Hw. apply Forall_map.
    apply Forall_impl with (2 := Hw). intros v (Hn & Hl).
    split; [now apply lowered_nonempty|now apply lowered_xc].
Qed.

Lemma glue_nonempty ws : ws <> [] -> Forall (fun w => w <> [] /\ Forall xc w) ws ->
  glue ws <> [] /\ Forall xc (glue ws).
Proof.
  intros Hne H. split.
  - destruct ws as [|w ws]; [easy|]. rewrite glue_cons. inversion H as [|? ? (Hw & _) _]; subst.
    now destruct w.
  - apply glue_xc. apply Forall_impl with (2 := H). now intros w [_ ?].
Qed.

Lemma sanitize_snake s ws : snake_words U s ws -> sanitize U s Snake = snake_name U ws.
Proof.
  intro H. pose proof (snake_words_ok s ws H) as (Hne & Hok).
  pose proof (glue_nonempty ws Hne Hok) as (H1 & H2).
  rewrite sanitize_text; rewrite (snake_text s ws H); auto.
Qed.

Lemma snake_words_total s : exists ws, snake_words U s ws.
Proof.
  destruct (str_eq_dec s (lit "+1")) as [E1|E1].
  { eexists. left. eauto. }
  destruct (str_eq_dec s (lit "-1")) as [E2|E2].
  { eexists. right; left. eauto. }
  pose proof (words_of_complete U cases_disjoint dash_alnum (no_apostrophes s)) as H.
  destruct (words U (replaced U (no_apostrophes s))) as [|w r].
  - exists [lit "x"]. right; right; left. auto.
  - exists (map (lowered U) (w :: r)). right; right; right. eauto 8.
Qed.

(** Pascal case. *)
Lemma pascal_text_eq s t : pascal_text U s t -> text s Pascal = t.
Proof.
  unfold text. intros [(-> & ->)|[(-> & ->)|[(H1 & H2 & Hw & ->)|(H1 & H2 & w & r & Hw & ->)]]].
  - reflexivity.
  - reflexivity.
  - rewrite (proj2 (str_eqb_neq _ _) H1), (proj2 (str_eqb_neq _ _) H2).
    cbn [to_case]. unfold to_pascal_case. rewrite cleaned_replaced.
    rewrite (words_of_sound U cases_disjoint dash_alnum _ _ Hw). cbn [map concat].
    pose proof x_pascal as H. cbn [to_case] in H. unfold to_pascal_case in H. exact H.
  - rewrite (proj2 (str_eqb_neq _ _) H1), (proj2 (str_eqb_neq _ _) H2).
    cbn [to_case]. unfold to_pascal_case at 1. rewrite cleaned_replaced.
    rewrite (words_of_sound U cases_disjoint dash_alnum _ _ Hw).
    rewrite (map_ext _ _ capitalize_word_eq), <- flat_map_concat_map.
    apply words_of_letters in Hw. inversion Hw as [|? ? (Hn & Hl) _]; subst.
    cbn [flat_map]. pose proof (capitalised_nonempty w Hn Hl).
    destruct (capitalised U w); easy.
Qed.

Lemma pascal_text_ok s t : pascal_text U s t -> t <> [] /\ Forall xc t.
Proof.
  intros [(-> & ->)|[(-> & ->)|[(H1 & H2 & Hw & ->)|(H1 & H2 & w & r & Hw & ->)]]].
  - split; [easy|apply plus1_xc].
  - split; [easy|apply minus1_xc].
  - split; [easy|]. constructor; auto.
    unfold xc. rewrite (al_continue U AL) by reflexivity. reflexivity.
  - apply words_of_letters in Hw. split.
    + inversion Hw as [|? ? (Hn & Hl) _]; subst. pose proof (capitalised_nonempty w Hn Hl).
      cbn. now destruct (capitalised U w).
    + clear - Hw UL. induction Hw as [|v vs (Hn & Hl) _ IH]; cbn [flat_map]; [constructor|].
      apply Forall_app. split; auto. now apply capitalised_xc.
Qed.

Lemma sanitize_pascal s t : pascal_text U s t -> sanitize U s Pascal = unreserved (fronted U t).
Proof.
  intro H. pose proof (pascal_text_ok s t H) as (H1 & H2).
  rewrite sanitize_text; rewrite (pascal_text_eq s t H); auto.
Qed.

Lemma pascal_text_total s : exists t, pascal_text U s t.
Proof.
  destruct (str_eq_dec s (lit "+1")) as [E1|E1].
  { eexists. left. eauto. }
  destruct (str_eq_dec s (lit "-1")) as [E2|E2].
  { eexists. right; left. eauto. }
  pose proof (words_of_complete U cases_disjoint dash_alnum (no_apostrophes s)) as H.
  destruct (words U (replaced U (no_apostrophes s))) as [|w r].
  - exists (lit "X"). right; right; left. auto.
  - exists (flat_map (capitalised U) (w :: r)). right; right; right. eauto 8.
Qed.

Lemma sanitize_identifier s c : identifier U (sanitize U s c).
Proof.
  destruct c.
  - destruct (pascal_text_total s) as (t & H). rewrite (sanitize_pascal s t H).
    pose proof (pascal_text_ok s t H) as (H1 & H2). now apply finish_identifier.
  - destruct (snake_words_total s) as (ws & H). rewrite (sanitize_snake s ws H).
    pose proof (snake_words_ok s ws H) as (Hne & Hok).
    pose proof (glue_nonempty ws Hne Hok) as (H1 & H2). now apply finish_identifier.
Qed.

(** ** Recovering the words of a snake-case name *)
Definition under (c : char) : bool := N.eqb c (ch "_").
Definition pieces (t : str) : list str :=
  filter (fun w => match w with [] => false | _ => true end) (split_on under t).

Definition plain (w : str) : Prop := w <> [] /\ ~ In (ch "_") w.

Lemma split_on_nonempty p t : split_on p t <> [].
Proof.
  induction t as [|c t IH]; cbn; [easy|]. destruct (p c); [easy|].
  destruct (split_on p t); easy.
Qed.

Lemma split_plain w t : ~ In (ch "_") w ->
  split_on under (w ++ ch "_" :: t) = w :: split_on under t.
Proof.
  induction w as [|c w IH]; intro H; cbn [app split_on].
  - unfold under at 1. now rewrite N.eqb_refl.
  - replace (under c) with false.
    + rewrite IH by (intro; apply H; now right). reflexivity.
    + symmetry. apply N.eqb_neq. intros ->. apply H. now left.
Qed.

Lemma split_plain_end w : ~ In (ch "_") w -> split_on under w = [w].
Proof.
  induction w as [|c w IH]; intro H; cbn [split_on]; auto.
  replace (under c) with false.
  - rewrite IH by (intro; apply H; now right). reflexivity.
  - symmetry. apply N.eqb_neq. intros ->. apply H. now left.
Qed.

Lemma pieces_front t : pieces (ch "_" :: t) = pieces t.
Proof. unfold pieces. cbn [split_on]. unfold under at 1. now rewrite N.eqb_refl. Qed.

Lemma pieces_glue ws suffix : ws <> [] -> Forall plain ws -> suffix = [] \/ suffix = [ch "_"] ->
  pieces (glue ws ++ suffix) = ws.
Proof.
  intros Hne H Hs. induction ws as [|w ws IH]; [easy|].
  inversion H as [|? ? (H1 & H2) H3]; subst. destruct ws as [|v ws].
  - rewrite glue_cons. cbn [flat_map]. rewrite app_nil_r.
    unfold pieces. destruct Hs as [-> | ->].
    + rewrite app_nil_r, split_plain_end by auto. destruct w; easy.
    + rewrite split_plain by auto. destruct w; easy.
  - assert (E : glue (w :: v :: ws) ++ suffix = w ++ ch "_" :: (glue (v :: ws) ++ suffix)).
    { rewrite !glue_cons. cbn [flat_map]. rewrite <- ?app_assoc. cbn [app]. rewrite <- ?app_assoc. reflexivity. }
    rewrite E. unfold pieces. rewrite split_plain by auto. cbn [filter].
    destruct w; [easy|]. f_equal. apply IH; auto. easy.
Qed.

Lemma pieces_name ws : ws <> [] -> Forall plain ws -> pieces (snake_name U ws) = ws.
Proof.
  intros Hne H. unfold snake_name. fold (glue ws).
  assert (E : exists s, (s = [] \/ s = [ch "_"])
    /\ unreserved (fronted U (glue ws)) = fronted U (glue ws) ++ s).
  { unfold unreserved. destruct (_ || _); [exists [ch "_"]|exists []]; rewrite ?app_nil_r; auto. }
  destruct E as (s & Hs & ->).
  assert (E : fronted U (glue ws) = glue ws \/ fronted U (glue ws) = ch "_" :: glue ws).
  { unfold fronted. destruct (glue ws); auto. destruct (xid_start U n); auto. }
  destruct E as [-> | ->]; [|cbn [app]; rewrite pieces_front]; now apply pieces_glue.
Qed.

Lemma lowered_plain w : Forall (letter U) w -> ~ In (ch "_") (lowered U w).
Proof.
  intro H. rewrite Forall_forall in H.
  assert (Hf : Forall (fun d => d <> ch "_") (lowered U w)).
  { apply lowered_forall.
    - intros _. discriminate.
    - intros c Hc. apply H in Hc as [Hc _]. apply (ul_underscore U UL) in Hc.
      apply Forall_forall. intros d Hd ->. easy. }
  rewrite Forall_forall in Hf. intro Hin. now apply Hf in Hin.
Qed.

Lemma snake_words_plain s ws : snake_words U s ws -> Forall plain ws.
Proof.
  intro H. pose proof (snake_words_ok s ws H) as (_ & Hok).
  assert (Hp : Forall (fun w => ~ In (ch "_") w) ws).
  { destruct H as [(-> & ->)|[(-> & ->)|[(H1 & H2 & Hw & ->)|(H1 & H2 & w & r & Hw & ->)]]].
    - constructor; auto. vm_compute. intuition discriminate.
    - constructor; auto. vm_compute. intuition discriminate.
    - constructor; auto. vm_compute. intuition discriminate.
    - apply words_of_letters in Hw. apply Forall_map.
      apply Forall_impl with (2 := Hw). intros v (_ & Hl). now apply lowered_plain. }
  rewrite Forall_forall in *. intros w Hw. split; [now apply Hok|now apply Hp].
Qed.

Lemma same_name_iff a b wa wb : snake_words U a wa -> snake_words U b wb ->
  (sanitize U a Snake = sanitize U b Snake <-> wa = wb).
Proof.
  intros Ha Hb. rewrite (sanitize_snake a wa Ha), (sanitize_snake b wb Hb).
  split; [|congruence]. intro E.
  rewrite <- (pieces_name wa), <- (pieces_name wb), E; auto.
  - eapply snake_words_ok; eauto.
  - eapply snake_words_plain; eauto.
  - eapply snake_words_ok; eauto.
  - eapply snake_words_plain; eauto.
Qed.

(** ** Stability *)
Definition stable (d : char) : Prop :=
  letter U d /\ uppercase U d = false /\ to_lower U d = [d].

Lemma stable_word w : w <> [] -> Forall stable w -> words_of_run U w [w] /\ lowered U w = w.
Proof.
  intros Hne H. split.
  - split; [cbn; now rewrite app_nil_r|]. split; [auto|].
    intros before c after E Hb. split.
    + intros (n & En). exfalso. destruct n as [|n]; cbn in En; [easy|].
      rewrite firstn_nil in En. cbn in En. rewrite app_nil_r in En. subst before.
      apply (f_equal (@length _)) in E. rewrite app_length in E. cbn in E. lia.
    + intros (Hu & _). subst w. apply Forall_app in H as [_ H]. inversion H as [|? ? (_ & H1 & _)].
      congruence.
  - rewrite <- lowercase_word_eq. clear Hne. induction H as [|c r (Hl & Hu & Hc) _ IH]; auto.
    destruct r as [|d r].
    + cbn. destruct (N.eqb c 931) eqn:E; auto. apply N.eqb_eq in E. subst c.
      (* a capital sigma would be upper case *)
      exfalso. pose proof (ul_capital_sigma U UL). congruence.
    + change (lowercase_word U (c :: d :: r)) with (to_lower U c ++ lowercase_word U (d :: r)).
      now rewrite Hc, IH.
Qed.

Lemma ascii_stable c : (c < 128)%N -> ascii_lower c || ascii_digit c = true -> stable c.
Proof.
  intros Hc H. unfold stable, letter. rewrite (al_alphanumeric U AL), (al_continue U AL),
    (al_uppercase U AL), (al_to_lower U AL) by auto.
  assert (E : ascii_upper c = false).
  { unfold ascii_lower, ascii_digit, ascii_upper in *. lia. }
  rewrite E. destruct (ascii_lower c), (ascii_digit c); cbn in *; auto; discriminate.
Qed.

Lemma words_of_chars s ws : words_of U s ws -> forall w c, In w ws -> In c w -> In c s.
Proof.
  induction 1 as [|d s ws Hc _ IH|run s ws ws' Hne Hr Hs (Hw & Hn & _) _ IH]; intros w c Hin Hc'.
  - easy.
  - right. eauto.
  - apply in_app_iff in Hin as [Hin|Hin]; apply in_app_iff; [left|right; eauto].
    subst run. apply in_concat. eauto.
Qed.

Lemma snake_words_stable s ws : snake_words U s ws ->
  (forall c, In c s -> letter U c -> settled U c) -> Forall (Forall stable) ws.
Proof.
  intros [(-> & ->)|[(-> & ->)|[(H1 & H2 & Hw & ->)|(H1 & H2 & w & r & Hw & ->)]]] Hs.
  - constructor; [|constructor]. repeat (constructor; [now apply ascii_stable|]). constructor.
  - constructor; [|constructor]. repeat (constructor; [now apply ascii_stable|]). constructor.
  - constructor; [|constructor]. repeat (constructor; [now apply ascii_stable|]). constructor.
  - apply Forall_map, Forall_forall. intros v Hv. apply lowered_forall.
    + intros _. apply (ul_sigma U UL).
    + intros c Hc. pose proof (words_of_letters _ _ Hw) as Hl. rewrite Forall_forall in Hl.
      apply Hl in Hv as Hv'. destruct Hv' as [_ Hl']. rewrite Forall_forall in Hl'.
      apply (Hs c); auto. pose proof (words_of_chars _ _ Hw v c Hv Hc) as Hin.
      unfold no_apostrophes in Hin. now apply filter_In in Hin.
Qed.

Lemma under_letter : ~ letter U (ch "_").
Proof. intros [H _]. rewrite under_alnum in H. discriminate. Qed.

Lemma stable_letters w : Forall stable w -> Forall (letter U) w.
Proof. apply Forall_impl. now intros c (? & _). Qed.

Lemma words_of_suffix suf : suf = [] \/ suf = [ch "_"] -> words_of U suf [].
Proof. intros [-> | ->]; [constructor|]. constructor; [apply under_letter|constructor]. Qed.

Lemma words_of_tail ws suf : suf = [] \/ suf = [ch "_"] ->
  Forall (fun w => w <> [] /\ Forall stable w) ws ->
  words_of U (flat_map (fun w => ch "_" :: w) ws ++ suf) ws
  /\ match flat_map (fun w => ch "_" :: w) ws ++ suf with [] => True | c :: _ => ~ letter U c end.
Proof.
  intros Hs H. induction H as [|w ws (Hne & Hw) H IH]; cbn [flat_map app].
  - split; [now apply words_of_suffix|]. destruct Hs as [-> | ->]; auto. apply under_letter.
  - split; [|apply under_letter]. constructor; [apply under_letter|].
    rewrite <- app_assoc. change (w :: ws) with ([w] ++ ws). destruct IH as [IH1 IH2].
    apply wo_run; auto.
    + now apply stable_letters.
    + now apply stable_word.
Qed.

Lemma words_of_glue ws suf : ws <> [] -> suf = [] \/ suf = [ch "_"] ->
  Forall (fun w => w <> [] /\ Forall stable w) ws ->
  words_of U (glue ws ++ suf) ws.
Proof.
  intros Hne Hs H. destruct ws as [|w ws]; [easy|]. inversion H as [|? ? (Hw1 & Hw2) H']; subst.
  rewrite glue_cons, <- app_assoc. change (w :: ws) with ([w] ++ ws).
  destruct (words_of_tail ws suf Hs H') as [IH1 IH2].
  apply wo_run; auto.
  - now apply stable_letters.
  - now apply stable_word.
Qed.

Lemma name_words ws : ws <> [] -> Forall (fun w => w <> [] /\ Forall stable w) ws ->
  words_of U (snake_name U ws) ws
  /\ Forall (fun c => c = ch "_" \/ stable c) (snake_name U ws).
Proof.
  intros Hne H. unfold snake_name. fold (glue ws).
  assert (E : exists s, (s = [] \/ s = [ch "_"])
    /\ unreserved (fronted U (glue ws)) = fronted U (glue ws) ++ s).
  { unfold unreserved. destruct (_ || _); [exists [ch "_"]|exists []]; rewrite ?app_nil_r; auto. }
  destruct E as (s & Hs & ->).
  assert (E : fronted U (glue ws) = glue ws \/ fronted U (glue ws) = ch "_" :: glue ws).
  { unfold fronted. destruct (glue ws); auto. destruct (xid_start U n); auto. }
  assert (Hg : Forall (fun c => c = ch "_" \/ stable c) (glue ws)).
  { unfold glue. assert (Hf : Forall (fun c => c = ch "_" \/ stable c)
      (flat_map (fun w => ch "_" :: w) ws)).
    { clear - H. induction H as [|w ws (_ & Hw) _ IH]; cbn [flat_map]; [constructor|].
      cbn. constructor; auto. apply Forall_app. split; auto.
      apply Forall_impl with (2 := Hw). auto. }
    destruct Hf; cbn; auto. }
  assert (Hsf : Forall (fun c => c = ch "_" \/ stable c) s).
  { destruct Hs as [-> | ->]; auto. }
  pose proof (words_of_glue ws s Hne Hs H) as Hw.
  destruct E as [-> | ->]; cbn [app].
  - split; auto. apply Forall_app. auto.
  - split.
    + constructor; auto. apply under_letter.
    + constructor; auto. apply Forall_app. auto.
Qed.

Lemma sanitize_stable s : (forall c, In c s -> letter U c -> settled U c) ->
  sanitize U (sanitize U s Snake) Snake = sanitize U s Snake.
Proof.
  intro Hset. destruct (snake_words_total s) as (ws & H).
  rewrite (sanitize_snake s ws H).
  pose proof (snake_words_ok s ws H) as (Hne & Hok).
  pose proof (snake_words_stable s ws H Hset) as Hst.
  assert (Hws : Forall (fun w => w <> [] /\ Forall stable w) ws).
  { rewrite Forall_forall in *. intros w Hw. split; auto. now apply Hok. }
  destruct (name_words ws Hne Hws) as [Hwo Hch].
  set (t := snake_name U ws) in *.
  assert (Hnot : forall c, In c t -> (c < 128)%N -> c = ch "_" \/ ascii_lower c || ascii_upper c
                                                                || ascii_digit c = true).
  { intros c Hc Hlt. rewrite Forall_forall in Hch. destruct (Hch c Hc) as [->|((Ha & _) & _)]; auto.
    right. now rewrite (al_alphanumeric U AL) in Ha by auto. }
  assert (Hap : no_apostrophes t = t).
  { unfold no_apostrophes. clear - Hnot. induction t as [|c t IH]; auto. cbn [filter].
    destruct (N.eqb c (ch "'")) eqn:E.
    - apply N.eqb_eq in E. exfalso. subst c. destruct (Hnot (ch "'")) as [H|H]; try discriminate.
      now left. reflexivity.
    - cbn. rewrite IH; auto. intros d Hd. apply Hnot. now right. }
  rewrite (sanitize_snake t ws); auto.
  right; right; right. split; [|split].
  - intro E. destruct (Hnot (ch "+")) as [H'|H']; try discriminate; [|reflexivity].
    rewrite E. now left.
  - intro E. destruct (Hnot (ch "-")) as [H'|H']; try discriminate; [|reflexivity].
    rewrite E. now left.
  - destruct ws as [|w r]; [easy|]. exists w, r. rewrite Hap. split; auto.
    symmetry. rewrite <- (map_id (w :: r)) at 2. apply map_ext_in. intros v Hv.
    rewrite Forall_forall in Hws. apply stable_word; now apply Hws.
Qed.

End Sanitize.

(** When names in Pascal case are left alone, and when two are the same. *)
From Coq Require Import Lia.
From Verif Require Import Base SanitizeModel SanitizeSpec WordProofs SanitizeProofs UnicodeTree UnicodeData UnicodeProofs PascalSpec.

(** ** Names and their texts *)
Definition no_under (c : char) : bool := negb (N.eqb c (ch "_")).
Lemma no_under_id t : ~ In (ch "_") t -> filter no_under t = t.
Proof.
  induction t as [|c t IH]; intro H; [reflexivity|]. cbn [filter]. unfold no_under at 1.
  destruct (N.eqb_spec c (ch "_")) as [->|_]; [elim H; now left|]. cbn [negb]. rewrite IH; auto. intro Hi. apply H. now right.
Qed.
Lemma name_text U t : ~ In (ch "_") t -> filter no_under (unreserved (fronted U t)) = t.
Proof.
  intro H. assert (E : filter no_under (fronted U t) = t).
  { destruct t as [|c r]; [reflexivity|]. unfold fronted. destruct (xid_start U c); [now apply no_under_id|].
    change (filter no_under (ch "_" :: c :: r)) with (filter no_under (c :: r)). now apply no_under_id. }
  unfold unreserved. destruct (_ || _); [|exact E]. rewrite filter_app, E. change (filter no_under [ch "_"]) with (@nil char). apply app_nil_r.
Qed.

Section Pascal.
Variable U : unicode.
Hypothesis UL : unicode_laws U.
Hypothesis AL : ascii_laws U.

Section Same.
Hypothesis upper_underscore : forall c, alphanumeric U c = true -> ~ In (ch "_") (to_upper U c).

Lemma pascal_plain s t : pascal_text U s t -> ~ In (ch "_") t.
Proof.
  intros [(-> & ->)|[(-> & ->)|[(H1 & H2 & Hw & ->)|(H1 & H2 & w & r & Hw & ->)]]]; try (vm_compute; intuition discriminate).
  apply words_of_letters in Hw. revert Hw. generalize (w :: r). intros ws Hw Hi. apply in_flat_map in Hi as (v & Hv & Hi).
  rewrite Forall_forall in Hw. destruct (Hw v Hv) as (_ & Hl). destruct v as [|c v]; [destruct Hi|]. cbn [capitalised] in Hi.
  inversion Hl as [|? ? (Hc & _) Hl']; subst. apply in_app_or in Hi as [Hi|Hi]; [exact (upper_underscore c Hc Hi)|].
  exact (lowered_plain U UL v Hl' Hi).
Qed.

Lemma same_pascal_iff a b ta tb : pascal_text U a ta -> pascal_text U b tb ->
  (sanitize U a Pascal = sanitize U b Pascal <-> ta = tb).
Proof.
  intros Ha Hb. rewrite (sanitize_pascal U UL AL _ _ Ha), (sanitize_pascal U UL AL _ _ Hb). split; [|now intros ->].
  intro E. rewrite <- (name_text U ta), <- (name_text U tb), E; auto; eapply pascal_plain; eauto.
Qed.
End Same.

(** ** Stability *)
Notation ascii t := (Forall (fun c : char => (c < 128)%N) t).
Definition lo (c : char) : char := if ascii_upper c then (c + 32)%N else c.
Definition hi (c : char) : char := if ascii_lower c then (c - 32)%N else c.

Lemma lowered_ascii w : ascii w -> lowered U w = map lo w.
Proof.
  intro H. rewrite <- lowercase_word_eq. induction H as [|c r Hc H IH]; [reflexivity|].
  assert (E : to_lower U c = [lo c]) by exact (al_to_lower U AL c Hc).
  cbn [lowercase_word map]. destruct r as [|d r].
  - destruct (N.eqb_spec c 931) as [->|_]; [discriminate Hc|]. cbn. exact E.
  - rewrite E, IH. reflexivity.
Qed.
Lemma capitalised_ascii c r : ascii (c :: r) -> capitalised U (c :: r) = hi c :: map lo r.
Proof.
  intro H. inversion H as [|? ? Hc Hr]; subst. cbn [capitalised]. rewrite (lowered_ascii r Hr), (al_to_upper U AL c Hc). reflexivity.
Qed.
Lemma capitalised_length w : ascii w -> length (capitalised U w) = length w.
Proof. destruct w as [|c r]; intro H; [reflexivity|]. rewrite (capitalised_ascii c r H). cbn. now rewrite map_length. Qed.

Lemma lo_ascii c : (c < 128)%N -> (lo c < 128)%N.
Proof. unfold lo, ascii_upper. destruct (N.leb_spec 65 c), (N.leb_spec c 90); cbn; lia. Qed.
Lemma hi_ascii c : (c < 128)%N -> (hi c < 128)%N.
Proof. unfold hi. destruct (ascii_lower c); lia. Qed.
Lemma lo_fix c : lo c = c <-> ascii_upper c = false.
Proof. unfold lo. destruct (ascii_upper c); split; intro H; auto; [lia|discriminate]. Qed.
Lemma hi_fix c : hi c = c <-> ascii_lower c = false.
Proof.
  unfold hi, ascii_lower. destruct (N.leb_spec 97 c), (N.leb_spec c 122); cbn; split; intro H'; auto; [lia|discriminate].
Qed.

Lemma capitalised_fix w : ascii w ->
  (capitalised U w = w <-> forall c r, w = c :: r -> lowercase U c = false /\ Forall (fun d => uppercase U d = false) r).
Proof.
  destruct w as [|c r]; intro H; [split; [discriminate|reflexivity]|]. rewrite (capitalised_ascii c r H).
  inversion H as [|? ? Hc Hr]; subst. split.
  - intros E c' r' [= <- <-]. assert (E1 : hi c = c) by congruence. assert (E2 : map lo r = r) by congruence. split.
    + rewrite (al_lowercase U AL c Hc). now apply hi_fix.
    + clear - AL Hr E2. induction Hr as [|d r Hd Hr IH]; [constructor|]. cbn [map] in E2. constructor; [|apply IH; congruence].
      rewrite (al_uppercase U AL d Hd). apply lo_fix. congruence.
  - intro Hf. destruct (Hf c r eq_refl) as (H1 & H2). rewrite (al_lowercase U AL c Hc) in H1. f_equal; [now apply hi_fix|].
    clear - AL Hr H2. induction Hr as [|d r Hd Hr IH]; [reflexivity|]. inversion H2; subst. cbn [map]. rewrite IH by auto. f_equal.
    apply lo_fix. now rewrite <- (al_uppercase U AL d Hd).
Qed.

Lemma capitals_fix ws : ascii (concat ws) -> (flat_map (capitalised U) ws = concat ws <-> Forall (fun w => capitalised U w = w) ws).
Proof.
  induction ws as [|w ws IH]; cbn [concat flat_map]; intro H; [split; auto|]. apply Forall_app in H as (H1 & H2). split.
  - intro E. assert (E' : capitalised U w = w /\ flat_map (capitalised U) ws = concat ws).
    { clear - E H1 AL. pose proof (capitalised_length w H1) as L. revert w L E H1. generalize (flat_map (capitalised U) ws) as x, (concat ws) as y.
      intros x y w. generalize (capitalised U w) as v. intros v L E _. revert v L E. induction w as [|c w IH]; intros [|d v] L E; try discriminate; auto.
      cbn in L, E. injection E as -> E. destruct (IH v) as (-> & ->); auto. }
    destruct E' as (E1 & E2). constructor; auto. now apply IH.
  - intro F. inversion F; subst. rewrite (proj2 (IH H2)) by auto. congruence.
Qed.

Lemma inside a (c : char) r1 u r2 b n : concat a ++ c :: r1 <> concat (firstn n (a ++ (c :: r1 ++ u :: r2) :: b)).
Proof.
  intro E. apply (f_equal (@length _)) in E. rewrite firstn_app, concat_app, !app_length in E. cbn [length] in E.
  destruct (n - length a) as [|k] eqn:En.
  - cbn [firstn concat length] in E. assert (L : length (concat (firstn n a)) <= length (concat a)).
    { rewrite <- (firstn_skipn n a) at 2. rewrite concat_app, app_length. lia. }
    lia.
  - rewrite firstn_all2 in E by lia. cbn [firstn concat] in E. rewrite !app_length in E. cbn [length] in E. rewrite app_length in E. cbn [length] in E. lia.
Qed.
Lemma concat_nonempty (a : list str) : Forall (fun w => w <> []) a -> concat a = [] -> a = [].
Proof. intros H E. destruct H as [|w a Hw H]; auto. cbn in E. destruct w; [easy|discriminate]. Qed.

(** A position of a run is in one of its words. *)
Lemma in_word ws : forall before (c : char) after, concat ws = before ++ c :: after ->
  exists a w b r1 r2, ws = a ++ w :: b /\ w = r1 ++ c :: r2 /\ before = concat a ++ r1.
Proof.
  induction ws as [|w ws IH]; cbn [concat]; intros before c after E; [now destruct before|].
  destruct (app_split _ _ _ _ E) as [(k & E1 & E2)|(x & m & E1 & E2)].
  - destruct (IH _ _ _ E2) as (a & w' & b & r1 & r2 & -> & -> & ->). exists (w :: a), (r1 ++ c :: r2), b, r1, r2. repeat split.
    rewrite E1. cbn [concat]. now rewrite app_assoc.
  - cbn in E2. injection E2 as <- E2. exists [], w, ws, before, m. repeat split; auto.
Qed.

Lemma settled_words t ws : ascii t -> words_of_run U t ws -> (Forall (fun w => capitalised U w = w) ws <-> pascal_settled U t).
Proof.
  intros Ht (Hc & Hn & Hs). split.
  - intro F. rewrite Forall_forall in F, Hn. split.
    + intros c r E. rewrite E in Hc. destruct ws as [|w ws]; [discriminate|]. pose proof (F w (or_introl eq_refl)) as Fw.
      destruct w as [|d w]; [elim (Hn [] (or_introl eq_refl)); reflexivity|]. cbn in Hc. injection Hc as -> Hc.
      refine (proj1 (proj1 (capitalised_fix (c :: w) _) Fw c w eq_refl)).
      rewrite E, <- Hc in Ht. rewrite app_comm_cons in Ht. now apply Forall_app in Ht.
    + intros before c after E Hb Hu. apply (Hs before c after E Hb). rewrite E in Hc.
      destruct (in_word ws before c after Hc) as (a & w & b & r1 & r2 & E1 & E2 & E3).
      destruct r1 as [|d r1]; [exists (length a); rewrite E1, firstn_app, firstn_all, Nat.sub_diag; cbn [firstn]; rewrite !app_nil_r; now rewrite app_nil_r in E3|].
      exfalso. assert (Hi : In w ws) by (rewrite E1; apply in_or_app; right; now left).
      assert (Ha : ascii w).
      { rewrite E, <- Hc in Ht. rewrite Forall_forall in Ht |- *. intros x Hx. apply Ht, in_concat. eauto. }
      pose proof (F w Hi) as Fw. cbn in E2. destruct (proj1 (capitalised_fix w Ha) Fw d _ E2) as (_ & Fr).
      rewrite Forall_forall in Fr. rewrite (Fr c) in Hu; [discriminate|]. apply in_or_app. right. now left.
  - intros (H1 & H2). rewrite Forall_forall. intros w Hi. assert (Ha : ascii w).
    { rewrite <- Hc in Ht. rewrite Forall_forall in Ht |- *. intros x Hx. apply Ht, in_concat. eauto. }
    apply (capitalised_fix w Ha). intros c r Ew. apply in_split in Hi as (a & b & Ei). subst w.
    assert (Et : t = concat a ++ c :: r ++ concat b) by (rewrite <- Hc, Ei, concat_app; reflexivity). split.
    + destruct (concat a) as [|x y] eqn:Ec; [exact (H1 _ _ Et)|]. rewrite <- Ec in Et.
      assert (W : word_starts U (concat a) c (r ++ concat b)).
      { apply (Hs _ _ _ Et); [now rewrite Ec|]. exists (length a). rewrite Ei, firstn_app, firstn_all, Nat.sub_diag. cbn [firstn]. now rewrite app_nil_r. }
      destruct W as (Hu & _). destruct (lowercase U c) eqn:El; auto. rewrite (cases_disjoint U UL c El) in Hu. discriminate.
    + rewrite Forall_forall. intros u Hu. destruct (uppercase U u) eqn:Eu; auto. exfalso. apply in_split in Hu as (r1 & r2 & ->).
      assert (E' : t = (concat a ++ c :: r1) ++ u :: r2 ++ concat b) by (rewrite Et; repeat (rewrite <- app_assoc; cbn [app]); reflexivity).
      assert (Hb : concat a ++ c :: r1 <> []) by (now destruct (concat a)).
      destruct (proj2 (Hs _ _ _ E' Hb) (H2 _ _ _ E' Hb Eu)) as (n & En). rewrite Ei in En. exact (inside _ _ _ _ _ _ _ En).
Qed.

Lemma pascal_ascii s t : ascii s -> pascal_text U s t -> Forall (letter U) t /\ ascii t.
Proof.
  intros Hs H. assert (Hl : ascii t /\ Forall (fun c => ascii_lower c || ascii_upper c || ascii_digit c = true) t).
  { destruct H as [(-> & ->)|[(-> & ->)|[(H1 & H2 & Hw & ->)|(H1 & H2 & w & r & Hw & ->)]]];
      [split; repeat constructor|split; repeat constructor|split; repeat constructor|].
    assert (Ha : forall v c, In v (w :: r) -> In c v -> (c < 128)%N).
    { intros v c Hv Hc. pose proof (words_of_chars U _ _ Hw v c Hv Hc) as Hi. unfold no_apostrophes in Hi. apply filter_In in Hi as (Hi & _).
      rewrite Forall_forall in Hs. exact (Hs c Hi). }
    apply words_of_letters in Hw. revert Hw Ha. generalize (w :: r). intros ws Hw Ha. rewrite Forall_forall in Hw.
    cut (Forall (fun c => (c < 128)%N /\ ascii_lower c || ascii_upper c || ascii_digit c = true) (flat_map (capitalised U) ws)).
    { intro F. split; eapply Forall_impl; try exact F; cbn; tauto. }
    rewrite Forall_forall. intros x Hx. apply in_flat_map in Hx as (v & Hv & Hx). destruct (Hw v Hv) as (_ & Hl).
    pose proof (fun c => Ha v c Hv) as Hv'. destruct v as [|c v]; [destruct Hx|]. rewrite capitalised_ascii in Hx by (rewrite Forall_forall; exact Hv').
    rewrite Forall_forall in Hl. assert (Hd : forall d, In d (c :: v) -> ascii_lower d || ascii_upper d || ascii_digit d = true).
    { intros d Hd. destruct (Hl d Hd) as (Hal & _). now rewrite (al_alphanumeric U AL d (Hv' d Hd)) in Hal. }
    destruct Hx as [<-|Hx].
    - split; [apply hi_ascii, Hv'; now left|]. pose proof (Hd c (or_introl eq_refl)) as K. unfold hi, ascii_lower, ascii_upper, ascii_digit in *.
      destruct (N.leb_spec 97 c), (N.leb_spec c 122); cbn in *; auto.
      destruct (N.leb_spec 65 (c - 32)), (N.leb_spec (c - 32) 90); cbn; try lia; now rewrite ?orb_true_r.
    - apply in_map_iff in Hx as (d & <- & Hin). split; [apply lo_ascii, Hv'; now right|]. pose proof (Hd d (or_intror Hin)) as K.
      unfold lo, ascii_lower, ascii_upper, ascii_digit in *. destruct (N.leb_spec 65 d), (N.leb_spec d 90); cbn in *; auto.
      destruct (N.leb_spec 97 (d + 32)), (N.leb_spec (d + 32) 122); cbn; try lia; reflexivity. }
  destruct Hl as (Hl1 & Hl2). split; auto. rewrite Forall_forall in *. intros c Hc. pose proof (Hl1 c Hc) as K. pose proof (Hl2 c Hc) as K'. split.
  - now rewrite (al_alphanumeric U AL c K).
  - rewrite (al_continue U AL c K), K'. reflexivity.
Qed.

Lemma pascal_stable_iff s t : ascii s -> pascal_text U s t ->
  (sanitize U (sanitize U s Pascal) Pascal = sanitize U s Pascal <-> pascal_settled U t).
Proof.
  intros Hs H. destruct (pascal_ascii s t Hs H) as (Hl & Ha). destruct (pascal_text_ok U UL AL s t H) as (Hne & _).
  rewrite (sanitize_pascal U UL AL s t H). set (n := unreserved (fronted U t)).
  assert (Hu : ~ In (ch "_") t).
  { intro Hi. rewrite Forall_forall in Hl. exact (under_letter U AL (Hl _ Hi)). }
  assert (En : exists p q, n = p ++ t ++ q /\ (p = [] \/ p = [ch "_"]) /\ (q = [] \/ q = [ch "_"])).
  { unfold n, unreserved, fronted. destruct t as [|c r]; [easy|]. destruct (xid_start U c).
    - exists []. destruct (_ || _); eexists; cbn [app]; split; [reflexivity|auto|rewrite app_nil_r; reflexivity|auto].
    - exists [ch "_"]. destruct (_ || _); eexists; cbn [app]; split; [reflexivity|auto|rewrite app_nil_r; reflexivity|auto]. }
  destruct En as (p & q & En & Hp & Hq).
  pose proof (run_words_run U (cases_disjoint U UL) t Hne) as Hr. set (ws := run_words U [] Boundary t) in Hr.
  assert (Hw : words_of U (no_apostrophes n) ws).
  { assert (E : no_apostrophes n = n).
    { unfold no_apostrophes. rewrite En. rewrite !filter_app. f_equal; [destruct Hp as [->| ->]; reflexivity|].
      f_equal; [|destruct Hq as [->| ->]; reflexivity]. clear - Hl AL. induction Hl as [|c r (Hc & Hx) Hl IH]; [reflexivity|]. cbn [filter].
      destruct (N.eqb_spec c (ch "'")) as [->|_]; [rewrite (al_alphanumeric U AL) in Hc by reflexivity; discriminate|]. cbn [negb]. now rewrite IH. }
    rewrite E, En. assert (Ht : words_of U (t ++ q) ws).
    { rewrite <- (app_nil_r ws). apply wo_run; auto; [|now apply words_of_suffix].
      destruct Hq as [->| ->]; [exact Logic.I|apply (under_letter U AL)]. }
    destruct Hp as [->| ->]; [exact Ht|]. cbn [app]. apply wo_skip; auto. apply (under_letter U AL). }
  assert (Hws : ws <> []) by (destruct Hr as (Hc & _); intro E; rewrite E in Hc; cbn in Hc; congruence).
  assert (Hp1 : n <> lit "+1").
  { intro E. rewrite En in E. assert (Hi : In (ch "+") t).
    { assert (Hi : In (ch "+") (p ++ t ++ q)) by (rewrite E; now left). apply in_app_or in Hi as [Hi|Hi];
        [destruct Hp as [->| ->]; vm_compute in Hi; intuition discriminate|].
      apply in_app_or in Hi as [Hi|Hi]; auto. destruct Hq as [->| ->]; vm_compute in Hi; intuition discriminate. }
    rewrite Forall_forall in Hl. destruct (Hl _ Hi) as (Hx & _). rewrite (al_alphanumeric U AL) in Hx by reflexivity. discriminate. }
  assert (Hm1 : n <> lit "-1").
  { intro E. rewrite En in E. assert (Hi : In (ch "-") t).
    { assert (Hi : In (ch "-") (p ++ t ++ q)) by (rewrite E; now left). apply in_app_or in Hi as [Hi|Hi];
        [destruct Hp as [->| ->]; vm_compute in Hi; intuition discriminate|].
      apply in_app_or in Hi as [Hi|Hi]; auto. destruct Hq as [->| ->]; vm_compute in Hi; intuition discriminate. }
    rewrite Forall_forall in Hl. destruct (Hl _ Hi) as (Hx & _). rewrite (al_alphanumeric U AL) in Hx by reflexivity. discriminate. }
  assert (Hpt : pascal_text U n (flat_map (capitalised U) ws)).
  { right; right; right. split; auto. split; auto. destruct ws as [|w r]; [easy|]. exists w, r. split; auto. }
  rewrite (sanitize_pascal U UL AL n _ Hpt). rewrite <- (settled_words t ws Ha Hr).
  assert (Ec : concat ws = t) by apply Hr. rewrite <- (capitals_fix ws) by (now rewrite Ec). rewrite Ec. split.
  - intro E. assert (Hn : ascii n).
    { rewrite En. apply Forall_app. split; [destruct Hp as [->| ->]; repeat constructor|]. apply Forall_app. split; auto.
      destruct Hq as [->| ->]; repeat constructor. }
    destruct (pascal_ascii n _ Hn Hpt) as (Hl' & _). assert (Hu' : ~ In (ch "_") (flat_map (capitalised U) ws)).
    { intro Hi. rewrite Forall_forall in Hl'. exact (under_letter U AL (Hl' _ Hi)). }
    rewrite <- (name_text U _ Hu'), E. unfold n. now apply name_text.
  - intro E. unfold n. now rewrite E.
Qed.
End Pascal.

Lemma upper_plain15 c : alphanumeric unicode15 c = true -> ~ In (ch "_") (to_upper unicode15 c).
Proof.
  intros Hc Hin. cbn [to_upper unicode15] in Hin. destruct (entry upper_entries c) as [s|] eqn:E.
  - assert (H : negb (has_char (ch "_") s) = true).
    { clear Hc Hin. revert c s E. apply (entries_check upper_entries (fun _ s => negb (has_char (ch "_") s))). vm_compute. reflexivity. }
    apply has_char_spec in Hin. rewrite Hin in H. discriminate.
  - destruct Hin as [->|[]]. vm_compute in Hc. discriminate.
Qed.

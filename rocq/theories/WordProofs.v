(** heck's scanning loop finds the words of SanitizeSpec. *)
From Verif Require Import Base SanitizeModel SanitizeSpec.

Lemma last_cased_snoc U b c :
  last_cased U (b ++ [c]) = if cased U c then Some c else last_cased U b.
Proof. unfold last_cased. rewrite rev_app_distr. reflexivity. Qed.

Lemma last_cased_cased U b k : last_cased U b = Some k -> cased U k = true.
Proof. intro H. now apply find_some in H. Qed.

(** Splitting [a ++ b = before ++ d :: after] by the length of [before]. *)
Lemma app_split {A} (a b p q : list A) :
  a ++ b = p ++ q ->
  (exists m, p = a ++ m /\ b = m ++ q) \/ (exists x m, a = p ++ x :: m /\ q = (x :: m) ++ b).
Proof.
  revert p; induction a as [|x a IH]; intros p H; cbn in *.
  - left. exists p. auto.
  - destruct p as [|y p]; cbn in *.
    + right. exists x, a. auto.
    + injection H as <- H. destruct (IH _ H) as [(m & -> & ->)|(z & m & -> & ->)].
      * left. exists m. auto.
      * right. exists z, m. auto.
Qed.

Section Words.
Variable U : unicode.
Hypothesis Hcases : forall c, lowercase U c = true -> uppercase U c = false.

(** What the loop knows: [pre] has been handed out, [cur] is the word under construction, [c] comes
    next. *)
Definition state_ok (pre cur : str) (m : word_mode) (c : char) : Prop :=
  (cur = [] /\ m = Boundary /\ (pre <> [] -> uppercase U c = true))
  \/ (cur <> []
      /\ ((m = Lowercase /\ exists k, last_cased U (pre ++ cur) = Some k /\ lowercase U k = true)
          \/ (m = Uppercase /\ exists k, last_cased U (pre ++ cur) = Some k /\ uppercase U k = true)
          \/ (m = Boundary /\ last_cased U (pre ++ cur) = None)
          \/ (m = Boundary /\ exists u, cur = [u] /\ uppercase U u = true /\ lowercase U c = true))
      /\ ~ (uppercase U c = true
            /\ exists k, last_cased U (pre ++ cur) = Some k /\ lowercase U k = true)).

(** No word starts inside [cur]. *)
Definition inside_ok (pre cur w : str) : Prop :=
  forall x y z, cur = x ++ y :: z -> x <> [] -> ~ word_starts U (pre ++ x) y (z ++ w).

Definition bounds_ok (pre full : str) (ws : list str) : Prop :=
  forall before d after, full = before ++ d :: after -> length pre < length before ->
    ((exists n, before = pre ++ concat (firstn n ws)) <-> word_starts U before d after).

Lemma last_cased_app_none pre c : last_cased U pre = None -> cased U c = false ->
  last_cased U (pre ++ [c]) = None.
Proof. intros H E. now rewrite last_cased_snoc, E. Qed.

Lemma step_ok pre cur m c next r :
  state_ok pre cur m c ->
  let next_mode := if lowercase U c then Lowercase else if uppercase U c then Uppercase else m in
  (match next_mode with Lowercase => true | _ => false end && uppercase U next = false) ->
  (match m with Uppercase => true | _ => false end && uppercase U c && lowercase U next = false) ->
  state_ok pre (cur ++ [c]) next_mode next
  /\ (cur <> [] -> ~ word_starts U (pre ++ cur) c (next :: r)).
Proof.
  intros Hs nm Ha Hb.
  assert (Hm : (nm = Lowercase /\ exists k, last_cased U (pre ++ cur ++ [c]) = Some k
                                           /\ lowercase U k = true)
    \/ (nm = Uppercase /\ exists k, last_cased U (pre ++ cur ++ [c]) = Some k
                                   /\ uppercase U k = true)
    \/ (nm = Boundary /\ last_cased U (pre ++ cur ++ [c]) = None)).
  { rewrite app_assoc, last_cased_snoc. unfold cased, nm.
    destruct (lowercase U c) eqn:El; cbn.
    { left. split; auto. eauto. }
    destruct (uppercase U c) eqn:Eu; cbn.
    { right; left. split; auto. eauto. }
    destruct Hs as [(Hc & -> & Hp)|(Hc & Hm & _)].
    - right; right. split; auto. subst cur. rewrite app_nil_r.
      destruct pre; auto. now rewrite Hp in Eu.
    - destruct Hm as [H|[H|[H|H]]]; auto.
      destruct H as (_ & u & _ & _ & H). congruence. }
  split.
  - right. split. { now destruct cur. }
    rewrite <- ?app_assoc in *. split.
    { destruct Hm as [H|[H|H]]; auto. }
    intros (Hu & k & Hk & Hl). destruct Hm as [(E & _)|[(E & k' & E' & H)|(E & E')]].
    + rewrite E, Hu in Ha. discriminate.
    + rewrite Hk in E'. injection E' as <-. rewrite (Hcases _ Hl) in H. discriminate.
    + rewrite Hk in E'. discriminate.
  - intros Hc (Hu & k & Hk & Hor). destruct Hs as [(H & _)|(_ & Hm' & Hn)]; [contradiction|].
    destruct Hor as [Hl|(d & t & Ht & Hl)].
    + apply Hn. eauto.
    + injection Ht as <- <-.
      destruct Hm' as [(-> & k' & E & H)|[(-> & k' & E & H)|[(-> & E)|(-> & u & E & _ & H)]]].
      * apply Hn. eauto.
      * rewrite Hu, Hl in Hb. discriminate.
      * congruence.
      * rewrite (Hcases _ H) in Hu. discriminate.
Qed.

Lemma run_words_ok w : forall pre cur m, 
  match w with [] => False | c :: _ => state_ok pre cur m c end ->
  inside_ok pre cur w ->
  concat (run_words U cur m w) = cur ++ w
  /\ Forall (fun x => x <> []) (run_words U cur m w)
  /\ bounds_ok pre (pre ++ cur ++ w) (run_words U cur m w).
Proof.
  induction w as [|c w IH]; intros pre cur m Hs Hin; [contradiction|].
  destruct w as [|next r].
  - cbn [run_words]. split; [cbn; now rewrite app_nil_r|]. split.
    { constructor; auto. now destruct cur. }
    intros before d after E Hlen. split.
    + intros (n & ->). exfalso. destruct n; cbn in *.
      * rewrite app_nil_r in Hlen. lia.
      * rewrite firstn_nil in *. cbn in *. rewrite app_nil_r in *.
        apply (f_equal (@length _)) in E. rewrite ?app_length in *. cbn in E. lia.
    + intro H. exfalso. rewrite app_assoc in E.
      apply app_split in E as [(mm & -> & E)|(x & mm & E & E')].
      * destruct mm as [|? [|? ?]]; cbn in E; try discriminate. injection E as <- <-.
        destruct Hs as [(-> & _ & _)|(Hc & _ & Hn)].
        { rewrite ?app_nil_r in *. lia. }
        rewrite app_nil_r in H. destruct H as (Hu & k & Hk & [Hl|(? & ? & ? & _)]); [|discriminate].
        apply Hn. eauto.
      * injection E' as -> ->.
        apply app_split in E as [(m1 & -> & E)|(y & m1 & E & _)].
        -- rewrite app_length in Hlen. destruct m1 as [|z m1]; [cbn in Hlen; lia|].
           apply (Hin (z :: m1) x mm); auto. discriminate.
        -- rewrite E, app_length in Hlen. cbn in Hlen. lia.
  - remember (next :: r) as w' eqn:Ew'. cbn [run_words]. rewrite Ew'. cbv beta iota zeta.
    rewrite <- Ew' in *.
    set (nm := if lowercase U c then Lowercase else if uppercase U c then Uppercase else m).
    destruct (match nm with Lowercase => true | _ => false end && uppercase U next) eqn:Ea.
    + (* case a *)
      apply andb_true_iff in Ea as [Ea Eu].
      assert (Enm : nm = Lowercase) by (now destruct nm).
      assert (Hl : exists k, last_cased U (pre ++ cur ++ [c]) = Some k /\ lowercase U k = true).
      { rewrite app_assoc, last_cased_snoc. unfold nm in Enm. unfold cased.
        destruct (lowercase U c) eqn:El; cbn; eauto.
        destruct (uppercase U c) eqn:Eu'; [discriminate|]. cbn.
        destruct Hs as [(_ & -> & _)|(_ & Hm & _)]; [discriminate|].
        destruct Hm as [(_ & H)|[(E & _)|[(E & _)|(E & _)]]]; auto; congruence. }
      destruct (IH (pre ++ cur ++ [c]) [] Boundary) as (H1 & H2 & H3).
      { subst w'. left. auto. }
      { intros x y z E. destruct x; discriminate. }
      set (ws := run_words U [] Boundary w') in *.
      split. { cbn. rewrite H1. cbn. now rewrite <- app_assoc. }
      split. { constructor; auto. now destruct cur. }
      intros before d after E Hlen.
      assert (E2 : (pre ++ cur ++ [c]) ++ w' = before ++ d :: after).
      { rewrite <- E. cbn. now rewrite <- ?app_assoc. }
      destruct (lt_eq_lt_dec (length before) (length (pre ++ cur ++ [c]))) as [[Hlt|Heq]|Hgt].
      * (* inside the finished word *)
        split.
        { intros (n & ->). exfalso. destruct n; cbn in *.
          - rewrite app_nil_r in Hlen. lia.
          - rewrite ?app_length in *. cbn in *. lia. }
        intro H. exfalso.
        apply app_split in E2 as [(mm & -> & _)|(x & mm & E3 & E4)].
        { rewrite app_length in Hlt. lia. }
        injection E4 as -> ->.
        rewrite app_assoc in E3.
        apply app_split in E3 as [(m1 & -> & E3)|(y & m1 & E3 & E5)].
        -- destruct m1 as [|? [|? ?]]; cbn in E3; try discriminate. injection E3 as <- <-.
           destruct Hs as [(-> & _ & _)|(Hc & _ & Hn)].
           { rewrite ?app_nil_r in *. lia. }
           rewrite app_nil_r in H. destruct H as (Hu & k & Hk & [Hl'|(d & t & Ht & Hd)]).
           ++ apply Hn. eauto.
           ++ subst w'. injection Ht as <- <-. apply Hcases in Hd. congruence.
        -- injection E5 as -> ->.
           apply app_split in E3 as [(m2 & -> & E7)|(z & m2 & E6 & _)].
           ++ rewrite app_length in Hlen. destruct m2 as [|z m2]; [cbn in Hlen; lia|].
              apply (Hin (z :: m2) y m1); auto. discriminate.
              rewrite <- app_assoc in H. exact H.
           ++ rewrite E6, app_length in Hlen. cbn in Hlen. lia.
      * (* at its end *)
        apply app_split in E2 as [(mm & -> & E3)|(x & mm & E3 & _)].
        2:{ rewrite E3, app_length in Heq. cbn in Heq. lia. }
        rewrite app_length in Heq. destruct mm; [|cbn in Heq; lia].
        rewrite app_nil_r in *. cbn in E3. subst w'. injection E3 as <- <-.
        split; [|intros _; exists 1; cbn; now rewrite app_nil_r].
        intros _. split; auto. destruct Hl as (k & Hk & Hl). exists k. auto.
      * rewrite <- (H3 before d after E2 Hgt). split.
        -- intros (n & ->). destruct n; cbn in *.
           { rewrite app_nil_r in *. lia. }
           exists n. now rewrite <- ?app_assoc.
        -- intros (n & ->). exists (S n). cbn. now rewrite <- ?app_assoc.
    + destruct (match m with Uppercase => true | _ => false end && uppercase U c
                && lowercase U next) eqn:Eb.
      * (* case b *)
        apply andb_true_iff in Eb as [Eb Eln]. apply andb_true_iff in Eb as [Eb Euc].
        assert (Em : m = Uppercase) by (now destruct m). subst m.
        destruct Hs as [(_ & H & _)|(Hc & Hm & Hn)]; [discriminate|].
        destruct Hm as [(E & _)|[(_ & Hk)|[(E & _)|(E & _)]]]; try discriminate.
        destruct (IH (pre ++ cur) [c] Boundary) as (H1 & H2 & H3).
        { subst w'. right. split; [discriminate|]. split.
          - right; right; right. split; auto. exists c. auto.
          - intros (H & _). rewrite (Hcases _ Eln) in H. discriminate. }
        { intros x y z E Hx. destruct x as [|? [|? ?]]; try easy; discriminate. }
        set (ws := run_words U [c] Boundary w') in *.
        split. { cbn. rewrite H1. reflexivity. }
        split. { constructor; auto. }
        intros before d after E Hlen.
        assert (E2 : (pre ++ cur) ++ [c] ++ w' = before ++ d :: after).
        { rewrite <- E. cbn. now rewrite <- ?app_assoc. }
        destruct (lt_eq_lt_dec (length before) (length (pre ++ cur))) as [[Hlt|Heq]|Hgt].
        -- split.
           { intros (n & ->). exfalso. destruct n; cbn in *.
             - rewrite app_nil_r in Hlen. lia.
             - rewrite ?app_length in *. cbn in *. lia. }
           intro H. exfalso.
           apply app_split in E2 as [(mm & -> & _)|(x & mm & E3 & E4)].
           { rewrite app_length in Hlt. lia. }
           injection E4 as -> ->.
           apply app_split in E3 as [(m2 & -> & E7)|(z & m2 & E6 & _)].
           ++ rewrite app_length in Hlen. destruct m2 as [|z m2]; [cbn in Hlen; lia|].
              apply (Hin (z :: m2) x mm); auto. discriminate.
           ++ rewrite E6, app_length in Hlen. cbn in Hlen. lia.
        -- apply app_split in E2 as [(mm & -> & E3)|(x & mm & E3 & _)].
           2:{ rewrite E3, app_length in Heq. cbn in Heq. lia. }
           rewrite app_length in Heq. destruct mm; [|cbn in Heq; lia].
           rewrite app_nil_r in *. cbn in E3. injection E3 as <- <-.
           split; [|intros _; exists 1; cbn; now rewrite app_nil_r].
           intros _. split; auto. destruct Hk as (k & Hk & Hku). exists k. split; auto.
           right. subst w'. eauto.
        -- rewrite <- (H3 before d after E2 Hgt). split.
           ++ intros (n & ->). destruct n; cbn in *.
              { rewrite app_nil_r in *. rewrite app_length in *. lia. }
              exists n. now rewrite <- ?app_assoc.
           ++ intros (n & ->). exists (S n). cbn. now rewrite <- ?app_assoc.
      * (* no boundary *)
        destruct (step_ok pre cur m c next r Hs Ea Eb) as [Hs' Hns].
        destruct (IH pre (cur ++ [c]) nm) as (H1 & H2 & H3).
        { subst w'. exact Hs'. }
        { intros x y z E Hx. apply app_split in E as [(mm & -> & E)|(v & mm & -> & E)].
          - destruct mm as [|? [|? ?]]; cbn in E; try discriminate. injection E as <- <-.
            rewrite app_nil_r in *. cbn. subst w'. auto.
          - injection E as -> ->. rewrite <- app_assoc. cbn. apply (Hin x v mm); auto. }
        rewrite H1, <- app_assoc. split; auto. split; auto.
        rewrite <- app_assoc in H3. exact H3.
Qed.

Lemma run_words_run run : run <> [] -> words_of_run U run (run_words U [] Boundary run).
Proof.
  intro Hne. destruct run as [|c r]; [easy|].
  destruct (run_words_ok (c :: r) [] [] Boundary) as (H1 & H2 & H3).
  - left. easy.
  - intros x y z E. destruct x; discriminate.
  - split; auto. split; auto. intros before d after E Hne'. apply H3; auto.
    destruct before; [easy|cbn; lia].
Qed.

Definition same_bounds (ws vs : list str) : Prop :=
  forall before c after, concat ws = before ++ c :: after -> before <> [] ->
    ((exists n, before = concat (firstn n ws)) <-> (exists n, before = concat (firstn n vs))).

Lemma bounds_unique : forall ws vs, concat ws = concat vs ->
  Forall (fun w : str => w <> []) ws -> Forall (fun w : str => w <> []) vs -> same_bounds ws vs ->
  ws = vs.
Proof.
  assert (Hfirst : forall w ws v vs m x, concat (w :: ws) = concat (v :: vs) -> w <> [] ->
    same_bounds (w :: ws) (v :: vs) -> v = w ++ x :: m -> False).
  { intros w ws v vs m x E Hw Hb ->. cbn in E.
    assert (E' : concat (w :: ws) = w ++ x :: (m ++ concat vs)).
    { cbn. rewrite E. rewrite <- app_assoc. reflexivity. }
    destruct (Hb w x (m ++ concat vs) E' Hw) as [H _].
    destruct H as (n & Hn). { exists 1. cbn. now rewrite app_nil_r. }
    destruct n; cbn in Hn; [congruence|].
    apply (f_equal (@length _)) in Hn. rewrite ?app_length in Hn. cbn in Hn. lia. }
  induction ws as [|w ws IH]; intros vs E Hw Hv Hb.
  - destruct vs as [|v vs]; auto. inversion Hv; subst. now destruct v.
  - destruct vs as [|v vs]. { inversion Hw; subst. now destruct w. }
    inversion Hw as [|? ? Hw1 Hw2]; subst. inversion Hv as [|? ? Hv1 Hv2]; subst.
    assert (w = v).
    { cbn in E. destruct (app_split _ _ _ _ E) as [(m & E1 & _)|(x & m & E1 & _)].
      - destruct m as [|x m]; [now rewrite app_nil_r in E1|]. exfalso.
        apply (Hfirst w ws v vs m x); auto.
      - exfalso. apply (Hfirst v vs w ws m x); auto.
        intros before c after E2 Hne. symmetry. apply (Hb before c after); auto.
        cbn in *. congruence. }
    subst v. f_equal. cbn in E. apply app_inv_head in E. apply IH; auto.
    intros before c after E2 Hne.
    destruct (Hb (w ++ before) c after) as [Ha Hc].
    { cbn. rewrite E2. now rewrite <- app_assoc. }
    { now destruct w. }
    split; intros (n & ->).
    + destruct Ha as (n' & Hn'). { exists (S n). reflexivity. }
      destruct n'; cbn in Hn'; [now destruct w|].
      apply app_inv_head in Hn'. eauto.
    + destruct Hc as (n' & Hn'). { exists (S n). reflexivity. }
      destruct n'; cbn in Hn'; [now destruct w|].
      apply app_inv_head in Hn'. eauto.
Qed.

Lemma words_of_run_unique run ws : run <> [] -> words_of_run U run ws ->
  run_words U [] Boundary run = ws.
Proof.
  intros Hne (E & Hw & Hb). destruct (run_words_run run Hne) as (E' & Hw' & Hb').
  apply bounds_unique; auto; [congruence|].
  intros before c after E2 Hne'. rewrite E' in E2.
  rewrite (Hb before c after E2 Hne'). apply Hb'; auto.
Qed.

(** ** Runs *)
Definition blank (c : char) : bool := negb (alphanumeric U c).
Definition replaced (s : str) : str := map (fun c => if xid_continue U c then c else ch "-") s.
Hypothesis Hdash : alphanumeric U (ch "-") = false.

Lemma words_eq s : words U s = flat_map (run_words U [] Boundary) (split_on blank s).
Proof. reflexivity. Qed.

Lemma words_blank c s : alphanumeric U c = false -> words U (c :: s) = words U s.
Proof.
  intro H. rewrite !words_eq. cbn [split_on]. unfold blank at 1. rewrite H. reflexivity.
Qed.

Lemma split_run run s : Forall (fun c => alphanumeric U c = true) run ->
  match s with [] => True | c :: _ => alphanumeric U c = false end ->
  words U (run ++ s) = run_words U [] Boundary run ++ words U s.
Proof.
  intros Hr Hs. rewrite !words_eq.
  assert (E : split_on blank (run ++ s) = run :: match s with [] => [] | _ :: t => split_on blank t end).
  { induction run as [|c run IH]; cbn [app].
    - destruct s; cbn; auto. unfold blank at 1. now rewrite Hs.
    - inversion Hr; subst. cbn [split_on]. unfold blank at 1. rewrite H1. cbn.
      rewrite IH by auto. reflexivity. }
  rewrite E. cbn [flat_map]. f_equal. destruct s; cbn [split_on flat_map]; auto.
  unfold blank at 2. rewrite Hs. reflexivity.
Qed.

Lemma replaced_app a b : replaced (a ++ b) = replaced a ++ replaced b.
Proof. apply map_app. Qed.

Lemma replaced_letters run : Forall (letter U) run -> replaced run = run.
Proof.
  induction 1 as [|c run [_ Hc] _ IH]; auto. cbn. rewrite Hc. f_equal. exact IH.
Qed.

Lemma replaced_blank c : ~ letter U c ->
  alphanumeric U (if xid_continue U c then c else ch "-") = false.
Proof.
  intro H. destruct (xid_continue U c) eqn:E; auto.
  destruct (alphanumeric U c) eqn:E'; auto. exfalso. apply H. split; auto.
Qed.

Lemma words_of_sound s ws : words_of U s ws -> words U (replaced s) = ws.
Proof.
  induction 1 as [|c s ws Hc _ IH|run s ws ws' Hne Hr Hs Hw _ IH].
  - reflexivity.
  - cbn [replaced map]. rewrite words_blank; auto. now apply replaced_blank.
  - rewrite replaced_app.
    rewrite replaced_letters by auto. rewrite split_run, IH.
    + f_equal. now apply words_of_run_unique.
    + apply Forall_impl with (2 := Hr). now intros c [? _].
    + destruct s; auto. cbn. now apply replaced_blank.
Qed.

Lemma letter_dec c : {letter U c} + {~ letter U c}.
Proof.
  unfold letter. destruct (alphanumeric U c), (xid_continue U c); intuition congruence.
Qed.

Lemma span_letters s : exists run t, s = run ++ t /\ Forall (letter U) run
  /\ match t with [] => True | c :: _ => ~ letter U c end.
Proof.
  induction s as [|c s IH].
  - exists [], []. auto.
  - destruct (letter_dec c) as [H|H].
    + destruct IH as (run & t & -> & Hr & Ht). exists (c :: run), t. auto.
    + exists [], (c :: s). auto.
Qed.

Lemma words_of_complete s : words_of U s (words U (replaced s)).
Proof.
  remember (length s) as n eqn:En. assert (Hn : length s <= n) by lia. clear En.
  revert s Hn; induction n as [|n IH]; intros s Hn.
  - destruct s; [|cbn in Hn; lia]. constructor.
  - destruct (span_letters s) as (run & t & -> & Hr & Ht). destruct run as [|c run].
    + destruct t as [|c t]; [constructor|]. cbn [app replaced map].
      rewrite words_blank by (now apply replaced_blank). constructor; auto.
      apply IH. cbn in Hn. lia.
    + set (run' := c :: run) in *.
      rewrite replaced_app.
      rewrite replaced_letters by auto. rewrite split_run.
      * apply wo_run; auto; try discriminate.
        { now apply run_words_run. }
        apply IH. rewrite app_length in Hn. cbn in Hn. lia.
      * apply Forall_impl with (2 := Hr). now intros d [? _].
      * destruct t; auto. cbn. now apply replaced_blank.
Qed.

End Words.

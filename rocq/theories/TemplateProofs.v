(** Proofs about path templates. *)
From Verif Require Import Base TemplateModel TemplateSpec.

Definition last_var (b : bool) (ps : list piece) : bool :=
  fold_left (fun _ p => match p with PVar _ => true | PLit _ => false end) ps b.
Definition last_slash (b : bool) (ps : list piece) : bool :=
  fold_left (fun _ p => match p with PVar _ => false | PLit c => N.eqb c (ch "/") end) ps b.

Lemma show_app a b : show (a ++ b) = show a ++ show b.
Proof. apply flat_map_app. Qed.

Lemma lax_from_app b ps qs :
  lax_from b (ps ++ qs) <-> lax_from b ps /\ lax_from (last_var b ps) qs.
Proof.
  revert b; induction ps as [|[c|n] ps IH]; intros b; cbn.
  - tauto.
  - rewrite IH. cbn. tauto.
  - rewrite IH. cbn. tauto.
Qed.

Lemma squeeze_pieces_app b ps qs :
  squeeze_pieces b (ps ++ qs) = squeeze_pieces b ps ++ squeeze_pieces (last_slash b ps) qs.
Proof.
  revert b; induction ps as [|[c|n] ps IH]; intros b; auto.
  - cbn [app squeeze_pieces]. change (last_slash b (PLit c :: ps)) with (last_slash (N.eqb c (ch "/")) ps).
    destruct (N.eqb c (ch "/")) eqn:E; [destruct b|]; rewrite IH; auto.
  - cbn [app squeeze_pieces]. now rewrite IH.
Qed.

Lemma last_var_snoc b ps p :
  last_var b (ps ++ [p]) = match p with PVar _ => true | PLit _ => false end.
Proof. unfold last_var. rewrite fold_left_app. reflexivity. Qed.

Lemma last_slash_snoc b ps p :
  last_slash b (ps ++ [p]) = match p with PVar _ => false | PLit c => N.eqb c (ch "/") end.
Proof. unfold last_slash. rewrite fold_left_app. reflexivity. Qed.

Definition pieces_of_component (c : component) : list piece :=
  match c with CConst s => map PLit s | CParam n => [PVar n] end.
Definition pieces_of (p : path_template) : list piece := flat_map pieces_of_component p.

Lemma pieces_of_app a b : pieces_of (a ++ b) = pieces_of a ++ pieces_of b.
Proof. apply flat_map_app. Qed.

Lemma steps_snoc st cs c : steps st (cs ++ [c]) = obind (steps st cs) (fun st' => step st' c).
Proof.
  revert st; induction cs as [|x cs IH]; intros st; cbn.
  - destruct (step st c); reflexivity.
  - destruct (step st x); cbn; auto.
Qed.

Lemma steps_app st cs ds : steps st (cs ++ ds) = obind (steps st cs) (fun st' => steps st' ds).
Proof.
  revert st; induction cs as [|x cs IH]; intros st; cbn; auto.
  destruct (step st x); cbn; auto.
Qed.

Lemma eqb_ch c a : N.eqb c (ch a) = true <-> c = ch a.
Proof. apply N.eqb_eq. Qed.

(** ** Soundness: an invariant of the loop *)

Definition starts_slash (ps : list piece) := exists r, ps = PLit (ch "/") :: r.

Lemma starts_slash_snoc ps p : starts_slash ps -> starts_slash (ps ++ [p]).
Proof. intros (r & ->). now exists (r ++ [p]). Qed.

Fixpoint canon_from (after_const : bool) (p : path_template) : Prop :=
  match p with
  | [] => True
  | CConst s :: r => after_const = false /\ s <> [] /\ canon_from true r
  | CParam _ :: r => canon_from false r
  end.
Definition last_const (b : bool) (p : path_template) : bool :=
  fold_left (fun _ c => match c with CConst _ => true | CParam _ => false end) p b.

Lemma canon_from_app b p q :
  canon_from b (p ++ q) <-> canon_from b p /\ canon_from (last_const b p) q.
Proof.
  revert b; induction p as [|[s|n] p IH]; intros b; cbn.
  - tauto.
  - rewrite IH. cbn. tauto.
  - rewrite IH. cbn. tauto.
Qed.

Lemma last_const_snoc b p c :
  last_const b (p ++ [c]) = match c with CConst _ => true | CParam _ => false end.
Proof. unfold last_const. rewrite fold_left_app. reflexivity. Qed.

Definition inv (t : str) (st : locals) : Prop :=
  let '(Locals s a comps) := st in
  match s with
  | SStart => t = [] /\ comps = []
  | SConstantOrParameter =>
      exists ps, t = show ps /\ starts_slash ps /\ lax_from false ps /\
        pieces_of comps = squeeze_pieces false ps /\
        last_var false ps = true /\ last_slash false ps = false /\
        canon_from false comps /\ last_const false comps = false
  | SConstant =>
      exists ps, t = show ps /\ starts_slash ps /\ lax_from false ps /\
        pieces_of comps ++ map PLit a = squeeze_pieces false ps /\
        last_var false ps = false /\ last_slash false ps = ends_with_char (ch "/") a /\
        a <> [] /\ canon_from false comps /\ last_const false comps = false
  | SParameter =>
      exists ps, t = show ps ++ [ch "{"] ++ a /\ starts_slash ps /\ lax_from false ps /\
        pieces_of comps = squeeze_pieces false ps /\
        ~ In (ch "}") a /\ canon_from false comps
  end.

Lemma inv_step t st c st' : inv t st -> step st c = Ok st' -> inv (t ++ [c]) st'.
Proof.
  destruct st as [s a comps]. destruct s; cbn [inv step]; intros Hinv Hst.
  - destruct Hinv as (-> & ->).
    destruct (N.eqb c (ch "/")) eqn:E; [|easy]. injection Hst as <-.
    apply eqb_ch in E. subst c. cbn. exists [PLit (ch "/")].
    repeat split; try easy. now exists [].
  - destruct Hinv as (ps & -> & Hss & Hlax & Hp & Hlv & Hls & Hc & Hlc).
    destruct (N.eqb c (ch "{")) eqn:E; injection Hst as <-; cbn [inv].
    + apply eqb_ch in E. subst c. exists ps. repeat split; auto.
    + apply N.eqb_neq in E. exists (ps ++ [PLit c]).
      rewrite show_app, last_var_snoc, last_slash_snoc, lax_from_app, squeeze_pieces_app, Hls, Hlv, Hp.
      cbn. repeat split; auto using starts_slash_snoc; try easy.
      now destruct (N.eqb c (ch "/")).
  - destruct Hinv as (ps & -> & Hss & Hlax & Hp & Hin & Hc).
    destruct (N.eqb c (ch "}")) eqn:E.
    + apply eqb_ch in E. subst c.
      destruct (has_char (ch "/") a || has_char (ch "{") a) eqn:E2; [easy|].
      injection Hst as <-. cbn [inv].
      apply orb_false_iff in E2 as [E2 E3]. apply has_char_false in E2, E3.
      exists (ps ++ [PVar a]).
      rewrite show_app, last_var_snoc, last_slash_snoc, lax_from_app, squeeze_pieces_app, pieces_of_app,
        Hp, canon_from_app, last_const_snoc.
      cbn [show show_piece flat_map app pieces_of pieces_of_component squeeze_pieces lax_from canon_from].
      rewrite app_nil_r, <- !app_assoc.
      repeat split; auto using starts_slash_snoc.
    + apply N.eqb_neq in E. injection Hst as <-. cbn [inv]. exists ps.
      rewrite <- !app_assoc. repeat split; auto.
      rewrite in_app_iff. cbn. intuition congruence.
  - destruct Hinv as (ps & -> & Hss & Hlax & Hp & Hlv & Hls & Ha & Hc & Hlc).
    destruct (N.eqb c (ch "{")) eqn:E; [|destruct (N.eqb c (ch "}")) eqn:E2; [easy|]].
    + apply eqb_ch in E. subst c. injection Hst as <-. cbn [inv]. exists ps.
      rewrite pieces_of_app, canon_from_app, Hlc. cbn. rewrite app_nil_r.
      repeat split; auto.
    + apply N.eqb_neq in E, E2.
      destruct (negb (N.eqb c (ch "/")) || negb (ends_with_char (ch "/") a)) eqn:E3;
        injection Hst as <-; cbn [inv]; exists (ps ++ [PLit c]);
        rewrite show_app, last_var_snoc, last_slash_snoc, lax_from_app, squeeze_pieces_app, Hlv, Hls, <- Hp;
        cbn [show show_piece flat_map app squeeze_pieces lax_from].
      * rewrite map_app, ends_with_char_snoc. cbn [map].
        repeat split; auto using starts_slash_snoc; try easy.
        -- rewrite app_assoc. f_equal. destruct (N.eqb c (ch "/")), (ends_with_char (ch "/") a);
           cbn in *; congruence.
        -- now destruct a.
      * apply orb_false_iff in E3 as [E3 E4].
        apply negb_false_iff in E3, E4. rewrite E3, E4.
        repeat split; auto using starts_slash_snoc; try easy.
        now rewrite app_nil_r.
Qed.

Lemma inv_steps t st : steps init_locals t = Ok st -> inv t st.
Proof.
  revert st; induction t as [|c t IH] using rev_ind; intros st H.
  - cbn in H. injection H as <-. now cbn.
  - rewrite steps_snoc in H. apply obind_ok in H as (st' & H1 & H2).
    eapply inv_step; eauto.
Qed.

Lemma parse_sound t p :
  parse t = Ok p ->
  exists ps, t = show ps /\ lax ps /\ pieces_of p = squeeze_pieces false ps /\ canon_from false p.
Proof.
  unfold parse. intro H. apply obind_ok in H as ([s a comps] & H1 & H2).
  apply inv_steps in H1. destruct s; cbn in H1, H2; try easy; injection H2 as <-.
  - destruct H1 as (ps & -> & Hss & Hlax & Hp & Hlv & Hls & Hc & Hlc).
    exists ps. repeat split; auto.
  - destruct H1 as (ps & -> & Hss & Hlax & Hp & Hlv & Hls & Ha & Hc & Hlc).
    exists ps. rewrite pieces_of_app. cbn. rewrite app_nil_r. repeat split; auto.
    apply canon_from_app. rewrite Hlc. cbn. auto.
Qed.

(** ** Completeness *)

Definition at_rest (b : bool) (st : locals) : Prop :=
  if b then l_s st = SConstantOrParameter
  else l_s st = SConstant /\ l_a st <> [].
Definition all_pieces (st : locals) : list piece :=
  pieces_of (l_components st) ++
  match l_s st with SConstant => map PLit (l_a st) | _ => [] end.

Lemma steps_name n a comps :
  ~ In (ch "}") n ->
  steps (Locals SParameter a comps) n = Ok (Locals SParameter (a ++ n) comps).
Proof.
  revert a; induction n as [|c n IH]; intros a Hn; cbn.
  - now rewrite app_nil_r.
  - destruct (N.eqb c (ch "}")) eqn:E.
    + apply eqb_ch in E. subst. exfalso. apply Hn. now left.
    + cbn. rewrite IH.
      * now rewrite <- app_assoc.
      * intro. apply Hn. now right.
Qed.

Lemma steps_var n a comps :
  name_ok n ->
  steps (Locals SParameter a comps) (n ++ [ch "}"]) =
  match has_char (ch "/") (a ++ n) || has_char (ch "{") (a ++ n) with
  | true => Err (InvalidPath (lit "invalid parameter name " ++ a ++ n))
  | false => Ok (Locals SConstantOrParameter [] (comps ++ [CParam (a ++ n)]))
  end.
Proof.
  intros (H1 & H2 & H3). rewrite steps_app, steps_name by auto. cbn.
  now destruct (has_char (ch "/") (a ++ n) || has_char (ch "{") (a ++ n)).
Qed.

Lemma name_ok_chars n : name_ok n -> has_char (ch "/") n || has_char (ch "{") n = false.
Proof.
  intros (H1 & H2 & H3). apply orb_false_iff. split; now apply has_char_false.
Qed.

Lemma steps_complete ps : forall b sl st,
  lax_from b ps -> at_rest b st ->
  (l_s st = SConstant -> ends_with_char (ch "/") (l_a st) = sl) ->
  (l_s st <> SConstant -> sl = false) ->
  exists b' st', steps st (show ps) = Ok st' /\ at_rest b' st' /\
    all_pieces st' = all_pieces st ++ squeeze_pieces sl ps.
Proof.
  induction ps as [|[c|n] ps IH]; intros b sl [s a comps] Hlax Hrest Hsl1 Hsl2.
  - exists b, (Locals s a comps). cbn. rewrite app_nil_r. auto.
  - cbn in Hlax. destruct Hlax as (Hc1 & Hc2 & Hlax).
    cbn [show flat_map show_piece app steps]. fold (show ps).
    assert (E1 : N.eqb c (ch "{") = false) by now apply N.eqb_neq.
    destruct b; cbn in Hrest.
    + subst s. cbn [step l_s]. rewrite E1. cbn [obind].
      cbn in Hsl2. rewrite (Hsl2 ltac:(easy)).
      destruct (IH false (N.eqb c (ch "/")) (Locals SConstant [c] comps)) as (b' & st' & H1 & H2 & H3).
      * assumption.
      * cbn. easy.
      * reflexivity.
      * easy.
      * exists b', st'. repeat split; auto. rewrite H3. cbn.
        rewrite app_nil_r. rewrite <- app_assoc. cbn.
        now destruct (N.eqb c (ch "/")).
    + destruct Hrest as (-> & Ha). cbn [step]. rewrite E1.
      assert (E2 : N.eqb c (ch "}") = false).
      { apply N.eqb_neq. intros ->. now specialize (Hc2 eq_refl). }
      rewrite E2. cbn in Hsl1, Ha. specialize (Hsl1 eq_refl).
      destruct (negb (N.eqb c (ch "/")) || negb (ends_with_char (ch "/") a)) eqn:E3; cbn [obind].
      * destruct (IH false (N.eqb c (ch "/")) (Locals SConstant (a ++ [c]) comps)) as (b' & st' & H1 & H2 & H3).
        -- assumption.
        -- cbn. split; auto. now destruct a.
        -- intros _. cbn. apply ends_with_char_snoc.
        -- easy.
        -- exists b', st'. repeat split; auto. rewrite H3. cbn.
           rewrite map_app. cbn. rewrite <- !app_assoc. cbn. do 2 f_equal.
           rewrite Hsl1 in E3. destruct (N.eqb c (ch "/")), sl; cbn in *; congruence.
      * destruct (IH false sl (Locals SConstant a comps)) as (b' & st' & H1 & H2 & H3).
        -- assumption.
        -- cbn. auto.
        -- cbn. auto.
        -- easy.
        -- exists b', st'. repeat split; auto. rewrite H3. cbn. f_equal.
           apply orb_false_iff in E3 as [E3 E4]. apply negb_false_iff in E3, E4.
           rewrite E3. rewrite Hsl1 in E4. now rewrite E4.
  - cbn in Hlax. destruct Hlax as (Hn & Hlax).
    cbn [show flat_map show_piece]. fold (show ps).
    rewrite <- !app_assoc. cbn [app steps].
    assert (Hopen : exists comps', step (Locals s a comps) (ch "{") = Ok (Locals SParameter [] comps') /\
              pieces_of comps' = all_pieces (Locals s a comps)).
    { destruct b; cbn in Hrest.
      - subst s. exists comps. cbn. now rewrite app_nil_r.
      - destruct Hrest as (-> & _). exists (comps ++ [CConst a]). cbn.
        rewrite pieces_of_app. cbn. now rewrite app_nil_r. }
    destruct Hopen as (comps' & -> & Hp'). cbn [obind].
    change (n ++ ch "}" :: show ps) with (n ++ [ch "}"] ++ show ps).
    rewrite app_assoc, steps_app, steps_var by assumption.
    cbn [app]. rewrite name_ok_chars by assumption. cbn [obind].
    destruct (IH true false (Locals SConstantOrParameter [] (comps' ++ [CParam n])))
      as (b' & st' & H1 & H2 & H3); auto.
    { reflexivity. }
    exists b', st'. repeat split; auto. rewrite H3. unfold all_pieces at 1.
    cbn [l_components l_s]. rewrite pieces_of_app, Hp'. cbn.
    rewrite app_nil_r, <- app_assoc. reflexivity.
Qed.

Lemma parse_complete ps :
  lax ps -> exists p, parse (show ps) = Ok p /\ pieces_of p = squeeze_pieces false ps.
Proof.
  intros ((r & ->) & Hlax). unfold parse.
  cbn [show flat_map show_piece app steps step init_locals]. fold (show r).
  change (N.eqb (ch "/") (ch "/")) with true. cbn [obind].
  cbn in Hlax. destruct Hlax as (_ & _ & Hlax).
  destruct (steps_complete r false true (Locals SConstant [ch "/"] [])) as (b' & st' & -> & H2 & H3).
  - assumption.
  - cbn. easy.
  - reflexivity.
  - easy.
  - cbn [obind]. destruct st' as [s a comps]. unfold all_pieces in H3.
    cbn [l_s l_a l_components] in *.
    destruct b'; cbn in H2.
    + subst s. exists comps. cbn [finish]. split; auto.
      rewrite app_nil_r in H3. rewrite H3. reflexivity.
    + destruct H2 as (-> & _). exists (comps ++ [CConst a]). cbn [finish]. split; auto.
      rewrite pieces_of_app. cbn. rewrite app_nil_r. rewrite H3. reflexivity.
Qed.

Lemma parse_accepts_iff t : (exists p, parse t = Ok p) <-> (exists ps, t = show ps /\ lax ps).
Proof.
  split.
  - intros (p & H). apply parse_sound in H as (ps & -> & Hl & _). eauto.
  - intros (ps & -> & Hl). apply parse_complete in Hl as (p & Hp & _). eauto.
Qed.

Lemma step_err st c : match step st c with Panic _ => False | Err (InvalidPath _) => True | Err _ => False | Ok _ => True end.
Proof.
  destruct st as [s a comps]; destruct s; cbn;
    repeat match goal with |- context [if ?b then _ else _] => destruct b end; easy.
Qed.

Lemma parse_err t : match parse t with Panic _ => False | Err (InvalidPath _) => True | Err _ => False | Ok _ => True end.
Proof.
  unfold parse. generalize init_locals as st.
  induction t as [|c t IH]; intros st; cbn.
  - destruct st as [s a comps]; destruct s; cbn; easy.
  - pose proof (step_err st c). destruct (step st c) as [st'|[]|]; cbn; try easy. apply IH.
Qed.

(** ** Strict grammar *)

Lemma strict_lax ps : strict ps <-> lax ps /\ no_stray ps.
Proof.
  unfold strict, lax, no_stray. split.
  - intros (H & HF). repeat split; auto.
    + clear H. generalize false at 1 as b. induction HF as [|[c|n] ps Hp HF IH]; intros b; cbn; auto.
      * cbn in Hp. destruct Hp. repeat split; auto.
    + rewrite Forall_forall in HF. intros Hin%HF. cbn in Hin. now destruct Hin.
  - intros ((H & Hl) & Hns). split; auto. clear H.
    revert Hl. generalize false as b. induction ps as [|[c|n] ps IH]; intros b Hl; cbn in *; auto.
    + destruct Hl as (H1 & H2 & H3). constructor.
      * cbn. split; auto. intros ->. apply Hns. now left.
      * eapply IH; eauto.
    + destruct Hl as (H1 & H2). constructor; auto. eapply IH; eauto.
Qed.

Fixpoint count (c : char) (s : str) : nat :=
  match s with [] => 0 | x :: r => (if N.eqb x c then 1 else 0) + count c r end.
Lemma count_app c a b : count c (a ++ b) = count c a + count c b.
Proof. induction a; cbn; auto. rewrite IHa. lia. Qed.
Lemma count_not_in c a : ~ In c a -> count c a = 0.
Proof.
  induction a as [|x a IH]; cbn; auto. intro H.
  destruct (N.eqb_spec x c); [exfalso; apply H; auto|]. apply IH. auto.
Qed.

Lemma strict_balanced ps : strict ps -> count (ch "{") (show ps) = count (ch "}") (show ps).
Proof.
  intros (_ & HF). induction HF as [|[c|n] ps Hp HF IH]; auto.
  - cbn [show flat_map show_piece app count]. fold (show ps). rewrite IH.
    destruct Hp as [H1 H2]. apply N.eqb_neq in H1, H2. now rewrite H1, H2.
  - cbn [show flat_map show_piece]. fold (show ps). rewrite !count_app, IH.
    destruct Hp as (H1 & H2 & H3). rewrite !(count_not_in _ n) by auto. reflexivity.
Qed.

(** ** Round trip *)

Lemma squeeze_show b ps : (forall n, In (PVar n) ps -> ~ In (ch "/") n) ->
  squeeze_from b (show ps) = show (squeeze_pieces b ps).
Proof.
  revert b; induction ps as [|[c|n] ps IH]; intros b Hn; auto.
  - cbn [show flat_map show_piece app squeeze_from squeeze_pieces]. fold (show ps).
    assert (Hn' : forall n, In (PVar n) ps -> ~ In (ch "/") n) by (intros; apply Hn; now right).
    destruct (N.eqb c (ch "/")); [destruct b|]; cbn [show flat_map show_piece app];
      rewrite IH by auto; reflexivity.
  - cbn [show flat_map show_piece app squeeze_from squeeze_pieces]. fold (show ps).
    fold (show (squeeze_pieces false ps)).
    change (N.eqb (ch "{") (ch "/")) with false. cbn [app]. f_equal.
    assert (Hns : ~ In (ch "/") n) by (apply Hn; now left).
    rewrite <- IH by (intros; apply Hn; now right).
    rewrite <- !app_assoc. cbn [app]. clear - Hns.
    induction n as [|x n IHn]; cbn [app squeeze_from].
    + reflexivity.
    + destruct (N.eqb x (ch "/")) eqn:E.
      * apply eqb_ch in E. subst. exfalso. apply Hns. now left.
      * f_equal. apply IHn. intro. apply Hns. now right.
Qed.

Lemma lax_names b ps : lax_from b ps -> forall n, In (PVar n) ps -> name_ok n.
Proof.
  revert b; induction ps as [|[c|m] ps IH]; intros b Hl n; cbn in *; [easy| |].
  - intros [H|H]; [easy|]. eapply IH; eauto. apply Hl.
  - intros [[= ->]|H]; [apply Hl|]. eapply IH; eauto. apply Hl.
Qed.

Lemma to_string_show p : to_string p = show (pieces_of p).
Proof.
  unfold to_string. assert (H : forall l a, fold_left (fun a b : str => a ++ b) l a = a ++ concat l).
  { induction l as [|x l IH]; intros a; cbn; [now rewrite app_nil_r|]. now rewrite IH, app_assoc. }
  rewrite H. cbn [app]. induction p as [|[s|n] p IH]; auto.
  - cbn [map concat pieces_of flat_map pieces_of_component]. fold (pieces_of p).
    rewrite show_app, IH. f_equal. induction s as [|x s IHs]; [reflexivity|]. cbn. f_equal. exact IHs.
  - cbn [map concat pieces_of flat_map pieces_of_component app show show_piece].
    fold (pieces_of p) (show (pieces_of p)). now rewrite IH.
Qed.

Lemma parse_to_string t p : parse t = Ok p -> to_string p = squeeze t.
Proof.
  intros H. apply parse_sound in H as (ps & -> & (Hss & Hl) & Hp & _).
  rewrite to_string_show, Hp. symmetry. apply squeeze_show.
  intros n Hn. eapply lax_names in Hl; eauto. apply Hl.
Qed.

Lemma names_vars p : names p = vars (pieces_of p).
Proof.
  induction p as [|[s|n] p IH]; auto.
  - cbn [names flat_map app pieces_of pieces_of_component]. fold (names p) (pieces_of p).
    rewrite IH. unfold vars. rewrite flat_map_app.
    assert (E : flat_map (fun p0 => match p0 with PLit _ => [] | PVar n => [n] end) (map PLit s) = @nil str).
    { induction s; cbn; auto. }
    now rewrite E.
  - cbn. fold (names p) (pieces_of p). now rewrite IH.
Qed.

Lemma vars_squeeze b ps : vars (squeeze_pieces b ps) = vars ps.
Proof.
  revert b; induction ps as [|[c|n] ps IH]; intros b; cbn; auto.
  - destruct (N.eqb c (ch "/")); [destruct b|]; cbn; auto.
  - f_equal. apply IH.
Qed.

Lemma parse_names ps p : lax ps -> parse (show ps) = Ok p -> names p = vars ps.
Proof.
  intros Hl H. apply parse_complete in Hl as (p' & H' & Hp).
  assert (p' = p) by congruence. subst. rewrite names_vars, Hp. apply vars_squeeze.
Qed.

(** canonical grouping of literals *)
Fixpoint group (ps : list piece) : path_template :=
  match ps with
  | [] => []
  | PVar n :: r => CParam n :: group r
  | PLit c :: r =>
      match group r with
      | CConst s :: p => CConst (c :: s) :: p
      | p => CConst [c] :: p
      end
  end.

Lemma group_lits s p :
  s <> [] -> match p with CConst _ :: _ => False | _ => True end ->
  forall ps, group ps = p -> group (map PLit s ++ ps) = CConst s :: p.
Proof.
  intros Hs Hp ps Hg. induction s as [|c s IH]; [easy|].
  destruct s as [|c' s].
  - cbn. rewrite Hg. destruct p as [|[]]; easy.
  - change (map PLit (c :: c' :: s) ++ ps) with (PLit c :: (map PLit (c' :: s) ++ ps)).
    cbn [group]. rewrite IH by easy. reflexivity.
Qed.

Lemma group_pieces_of b p : canon_from b p -> group (pieces_of p) = p.
Proof.
  revert b; induction p as [|[s|n] p IH]; intros b Hc; auto; cbn in Hc.
  - destruct Hc as (_ & Hs & Hc). cbn [pieces_of flat_map pieces_of_component]. fold (pieces_of p).
    apply group_lits; auto.
    + destruct p as [|[]]; auto. cbn in Hc. easy.
    + eapply IH; eauto.
  - cbn. fold (pieces_of p). f_equal. eapply IH; eauto.
Qed.

Lemma squeeze_pieces_lax ps : forall b sl,
  (sl = true -> b = false) -> lax_from b ps -> lax_from b (squeeze_pieces sl ps).
Proof.
  induction ps as [|[c|n] ps IH]; intros b sl Hb Hl; cbn in *; auto.
  - destruct Hl as (H1 & H2 & H3).
    destruct (N.eqb c (ch "/")) eqn:E; [destruct sl|].
    + rewrite Hb by auto. apply IH; auto.
    + cbn. repeat split; auto.
    + cbn. repeat split; auto.
  - destruct Hl as (H1 & H2). split; auto.
Qed.

Lemma squeeze_pieces_idem sl ps :
  squeeze_pieces sl (squeeze_pieces sl ps) = squeeze_pieces sl ps.
Proof.
  revert sl; induction ps as [|[c|n] ps IH]; intros sl; cbn; auto.
  - destruct (N.eqb c (ch "/")) eqn:E; [destruct sl|]; cbn; auto.
    + rewrite E. now rewrite IH.
    + rewrite E. now rewrite IH.
  - now rewrite IH.
Qed.

Lemma parse_reparse t p : parse t = Ok p -> parse (to_string p) = Ok p.
Proof.
  intros H. apply parse_sound in H as (ps & -> & ((r & Hr) & Hl) & Hp & Hc).
  assert (Hlax : lax (squeeze_pieces false ps)).
  { split.
    - subst ps. exists (squeeze_pieces true r). reflexivity.
    - now apply squeeze_pieces_lax. }
  destruct (parse_complete _ Hlax) as (p' & Hp' & Hpp').
  rewrite squeeze_pieces_idem, <- Hp in Hpp'.
  destruct (parse_sound _ _ Hp') as (_ & _ & _ & _ & Hc').
  assert (p' = p).
  { rewrite <- (group_pieces_of _ _ Hc), <- (group_pieces_of _ _ Hc'). congruence. }
  subst p'. now rewrite to_string_show, Hp.
Qed.

(** ** compile and format *)

Definition fmt_pieces (ps : list piece) : str :=
  flat_map (fun p => match p with PLit c => [c] | PVar _ => [ch "{"; ch "}"] end) ps.

Lemma fmt_pieces_of p : compile_fmt p = lit "{}" ++ fmt_pieces (pieces_of p).
Proof.
  unfold compile_fmt.
  enough (H : forall f0, fold_left (fun f c => f ++ match c with
                                     | CConst n => n
                                     | CParam _ => lit "{}"
                                     end) p f0 = f0 ++ fmt_pieces (pieces_of p)) by apply H.
  induction p as [|c p IH]; intros f0; cbn [fold_left pieces_of flat_map].
  - now rewrite app_nil_r.
  - rewrite IH. fold (pieces_of p). unfold fmt_pieces at 2. rewrite flat_map_app.
    fold (fmt_pieces (pieces_of p)). rewrite app_assoc. f_equal. f_equal.
    destruct c as [s|n]; [|reflexivity]. cbn [pieces_of_component].
    induction s as [|x s IHs]; [reflexivity|]. cbn. f_equal. exact IHs.
Qed.

Lemma compile_args_ok p rename :
  compile_args p rename =
  match mapM (fun n => match assoc_last n rename with Some x => Ok x | None => Panic (lit "missing path name mapping " ++ n) end) (names p) with
  | Ok l => Ok l | Err e => Err e | Panic m => Panic m end.
Proof.
  induction p as [|[s|n] p IH]; cbn [compile_args]; auto.
  change (names (CParam n :: p)) with (n :: names p). cbn [mapM].
  destruct (assoc_last n rename); cbn [obind]; auto.
  rewrite IH. now destruct (mapM _ (names p)).
Qed.

Lemma format_pieces b ps vals :
  lax_from b ps -> no_stray ps -> forall m, mapM (fun n => match vals n with Some x => Ok x | None => Panic (@nil N) end) (vars ps) = Ok m ->
  format_macro (fmt_pieces ps) m =
  Some (expand (fun n => match vals n with Some x => x | None => [] end) ps).
Proof.
  revert b; induction ps as [|[c|n] ps IH]; intros b Hl Hns m Hm.
  - cbn in Hm. injection Hm as <-. reflexivity.
  - cbn in Hl. destruct Hl as (H1 & H2 & H3).
    cbn [fmt_pieces flat_map app format_macro]. fold (fmt_pieces ps).
    assert (Hc : c <> ch "}") by (intros ->; apply Hns; now left).
    apply N.eqb_neq in H1, Hc. rewrite H1, Hc.
    erewrite IH; eauto. intro. apply Hns. now right.
  - cbn in Hl. destruct Hl as (H1 & H2).
    cbn in Hm. apply obind_ok in Hm as (x & Hx & Hm). apply obind_ok in Hm as (m' & Hm' & Hm).
    injection Hm as <-. destruct (vals n) eqn:E; [|easy]. injection Hx as ->.
    cbn [fmt_pieces flat_map app format_macro]. fold (fmt_pieces ps).
    change (N.eqb (ch "{") (ch "{")) with true. change (N.eqb (ch "}") (ch "{")) with false.
    change (N.eqb (ch "}") (ch "}")) with true. cbn iota.
    erewrite IH; eauto.
    + cbn. now rewrite E.
    + intro. apply Hns. now right.
Qed.

Lemma format_stray b ps :
  lax_from b ps -> ~ no_stray ps -> forall m, format_macro (fmt_pieces ps) m = None.
Proof.
  revert b; induction ps as [|[c|n] ps IH]; intros b Hl Hns m.
  - exfalso. apply Hns. intros [].
  - cbn in Hl. destruct Hl as (H1 & H2 & H3).
    cbn [fmt_pieces flat_map app format_macro]. fold (fmt_pieces ps).
    pose proof H1 as H1'. apply N.eqb_neq in H1'. rewrite H1'.
    destruct (N.eqb_spec c (ch "}")) as [->|Hc].
    + destruct ps as [|[c'|n'] ps]; auto; cbn.
      cbn in H3. destruct H3 as (H4 & H5 & _).
      destruct (N.eqb_spec c' (ch "}")); auto. subst. now specialize (H5 eq_refl).
    + erewrite IH; eauto. intro Hn. apply Hns. unfold no_stray. cbn. intros [[=]|]; auto.
  - cbn in Hl. destruct Hl as (H1 & H2).
    cbn [fmt_pieces flat_map app format_macro]. fold (fmt_pieces ps).
    change (N.eqb (ch "{") (ch "{")) with true. change (N.eqb (ch "}") (ch "{")) with false.
    change (N.eqb (ch "}") (ch "}")) with true. cbn iota.
    destruct m as [|x m]; auto. erewrite IH; eauto.
    intro Hn. apply Hns. unfold no_stray. cbn. intros [[=]|]; auto.
Qed.

Lemma no_stray_squeeze b ps : no_stray (squeeze_pieces b ps) <-> no_stray ps.
Proof.
  unfold no_stray. enough (In (PLit (ch "}")) (squeeze_pieces b ps) <-> In (PLit (ch "}")) ps) by tauto.
  revert b; induction ps as [|[c|n] ps IH]; intros b; cbn; [tauto| |].
  - destruct (N.eqb c (ch "/")) eqn:E; [destruct b|]; cbn; rewrite IH; try tauto.
    apply eqb_ch in E. subst. intuition. discriminate.
  - rewrite IH. intuition.
Qed.

Lemma eval_fmt_base f base args :
  format_macro (lit "{}" ++ f) (base :: args) = option_map (app base) (format_macro f args).
Proof. reflexivity. Qed.

Lemma compile_total p rename :
  (forall n, In n (names p) -> exists x, assoc_last n rename = Some x) ->
  exists u, compile p rename = Ok u.
Proof.
  intro H. unfold compile. rewrite compile_args_ok.
  enough (exists l, mapM (fun n => match assoc_last n rename with Some x => Ok x | None => Panic (lit "missing path name mapping " ++ n) end) (names p) = Ok l) as (l & ->).
  { cbn. eauto. }
  induction (names p) as [|n ns IH]; cbn; eauto.
  destruct (H n) as (x & ->); [now left|]. cbn. destruct IH as (l & ->).
  - intros; apply H; now right.
  - cbn. eauto.
Qed.

Lemma compile_panics p rename :
  (exists m, compile p rename = Panic m) <-> exists n, In n (names p) /\ ~ In n (map fst rename).
Proof.
  unfold compile. rewrite compile_args_ok. induction (names p) as [|n ns IH].
  - cbn. split; [intros (m & H); easy | intros (n & [] & _)].
  - cbn [mapM]. destruct (assoc_last n rename) as [x|] eqn:E; cbn [obind].
    + destruct (mapM _ ns) as [l|e|m] eqn:E2; cbn [obind] in IH |- *.
      * split; [intros (m & H); easy|]. intros (n' & [<-|Hin] & Hni).
        -- apply assoc_last_In in E. apply (in_map fst) in E. easy.
        -- destruct IH as [_ IH]. destruct IH as (m & Hm); [eauto|easy].
      * split; [intros (m & H); easy|]. intros (n' & [<-|Hin] & Hni).
        -- apply assoc_last_In in E. apply (in_map fst) in E. easy.
        -- destruct IH as [_ IH]. destruct IH as (m & Hm); [eauto|easy].
      * split; [|eauto]. intros _. destruct IH as [IH _]. destruct IH as (n' & Hin & Hni); eauto.
        exists n'. split; auto. now right.
    + apply assoc_last_None in E. split; [|eauto]. intros _. exists n. split; auto. now left.
Qed.

Lemma compile_eval ps p rename u enc base env :
  strict ps -> parse (show ps) = Ok p -> compile p rename = Ok u ->
  eval_url enc base env u =
  Some (base ++ expand (fun n => match assoc_last n rename with Some x => enc (env x) | None => [] end)
                  (squeeze_pieces false ps)).
Proof.
  intros Hs Hp Hc. apply strict_lax in Hs as (Hl & Hns).
  pose proof (parse_complete _ Hl) as (p' & Hp' & Hpp). assert (p' = p) by congruence. subst p'.
  unfold compile in Hc. apply obind_ok in Hc as (args & Ha & Hu). injection Hu as <-.
  unfold eval_url. cbn [ue_fmt ue_args]. rewrite fmt_pieces_of, eval_fmt_base, Hpp.
  pose (vals := fun n => match assoc_last n rename with Some x => Some (enc (env x)) | None => None end).
  erewrite (format_pieces false _ vals).
  - cbn [option_map]. do 2 f_equal. unfold expand, vals.
    apply flat_map_ext. intros [c|n]; auto. now destruct (assoc_last n rename).
  - apply squeeze_pieces_lax; [easy|apply Hl].
  - now apply no_stray_squeeze.
  - rewrite compile_args_ok, names_vars, Hpp in Ha. clear - Ha.
    revert args Ha. induction (vars (squeeze_pieces false ps)) as [|n ns IH]; intros args Ha; cbn in *.
    + injection Ha as <-. reflexivity.
    + subst vals. cbn in *. destruct (assoc_last n rename) as [x|]; cbn in *; [|easy].
      destruct (mapM _ ns) as [l| |]; cbn in *; try easy. injection Ha as <-.
      now rewrite (IH l) by reflexivity.
Qed.

Lemma compile_eval_stray ps p rename u enc base env :
  lax ps -> ~ no_stray ps -> parse (show ps) = Ok p -> compile p rename = Ok u ->
  eval_url enc base env u = None.
Proof.
  intros Hl Hns Hp Hc.
  pose proof (parse_complete _ Hl) as (p' & Hp' & Hpp). assert (p' = p) by congruence. subst p'.
  unfold compile in Hc. apply obind_ok in Hc as (args & Ha & Hu). injection Hu as <-.
  unfold eval_url. cbn [ue_fmt ue_args]. rewrite fmt_pieces_of, eval_fmt_base, Hpp.
  erewrite format_stray; auto.
  - apply squeeze_pieces_lax; [easy|apply Hl].
  - now rewrite no_stray_squeeze.
Qed.

Lemma compile_compiles ps p rename :
  strict ps -> parse (show ps) = Ok p ->
  (forall n, In n (vars ps) -> In n (map fst rename)) ->
  exists u, compile p rename = Ok u /\
  forall enc base env, exists url, eval_url enc base env u = Some url.
Proof.
  intros Hs Hp Hd. destruct (compile_total p rename) as (u & Hu).
  - intros n Hn. rewrite (parse_names ps) in Hn by (auto; now apply strict_lax).
    apply Hd in Hn. destruct (assoc_last n rename) eqn:E; eauto.
    apply assoc_last_None in E. easy.
  - exists u. split; auto. intros. eexists. eapply compile_eval; eauto.
Qed.

(** ** Unique readability *)

Lemma app_name_inj n m r s :
  ~ In (ch "}") n -> ~ In (ch "}") m ->
  n ++ ch "}" :: r = m ++ ch "}" :: s -> n = m /\ r = s.
Proof.
  revert m; induction n as [|x n IH]; intros [|y m] Hn Hm E; cbn in E.
  - injection E as ->. auto.
  - injection E as <- _. exfalso. apply Hm. now left.
  - injection E as -> _. exfalso. apply Hn. now left.
  - injection E as -> E. apply IH in E as (-> & ->); auto; intro; [apply Hn|apply Hm]; now right.
Qed.

Lemma show_inj_from b b' ps qs :
  lax_from b ps -> lax_from b' qs -> show ps = show qs -> ps = qs.
Proof.
  revert b b' qs; induction ps as [|[c|n] ps IH]; intros b b' [|[c'|n'] qs] Hp Hq E;
    cbn [show flat_map show_piece app] in E; try fold (show ps) in E; try fold (show qs) in E; try easy;
    cbn [lax_from] in Hp, Hq.
  - injection E as -> E. f_equal. eapply IH; eauto; [apply Hp|apply Hq].
  - injection E as -> _. now destruct Hp.
  - injection E as <- _. now destruct Hq.
  - rewrite <- !app_assoc in E. injection E as E. destruct Hp as (Hn & Hp), Hq as (Hn' & Hq).
    cbn [app] in E. apply app_name_inj in E as (-> & E); try apply Hn; try apply Hn'.
    f_equal. eapply IH; eauto.
Qed.

Lemma show_inj ps qs : lax ps -> lax qs -> show ps = show qs -> ps = qs.
Proof. intros (_ & Hp) (_ & Hq). eapply show_inj_from; eauto. Qed.

(** ** Forms used by the property file *)

Lemma strict_accepted ps : strict ps -> exists p, parse (show ps) = Ok p.
Proof. intro H. apply parse_accepts_iff. exists ps. split; auto. now apply strict_lax. Qed.

Lemma parse_rejects t : (exists p, parse t = Ok p) \/ (exists m, parse t = Err (InvalidPath m)).
Proof. pose proof (parse_err t). destruct (parse t) as [|[]|]; try easy; eauto. Qed.

Lemma only_strict_refuted :
  exists t p, parse t = Ok p /\ forall ps, strict ps -> t <> show ps.
Proof.
  exists (lit "/{a}}"). eexists. split; [reflexivity|].
  intros ps H E. apply strict_balanced in H. rewrite <- E in H. discriminate H.
Qed.

Lemma compile_panics_iff ps p rename :
  lax ps -> parse (show ps) = Ok p ->
  ((exists m, compile p rename = Panic m) <->
   exists n, In n (vars ps) /\ ~ In n (map fst rename)).
Proof. intros Hl Hp. rewrite <- (parse_names ps p Hl Hp). apply compile_panics. Qed.

Lemma stray_never_compiles ps p rename u :
  lax ps -> ~ no_stray ps -> parse (show ps) = Ok p -> compile p rename = Ok u ->
  forall enc base env, eval_url enc base env u = None.
Proof. intros. eapply compile_eval_stray; eauto. Qed.

Lemma accepted_compiles_refuted :
  exists t p rename u, parse t = Ok p /\ compile p rename = Ok u /\
    (forall n, In n (names p) -> In n (map fst rename)) /\
    forall enc base env, eval_url enc base env u = None.
Proof.
  exists (lit "/{a}}"). eexists. exists [(lit "a", lit "a")]. eexists.
  repeat split. now cbn.
Qed.

(** When generated mocks compile. *)
From Verif Require Import Base OasModel TemplateModel TemplateSpec TemplateProofs MethodModel OpModel BuilderModel SanitizeModel ParamProofs
  GenerateModel GenerateSpec GenerateProofs ValidateProofs MockModel MockSpec MockProofs MockDoc MockGen
  CompileSpec CompileClientProofs CompileCor MockCompileSpec.
Local Open Scope N_scope.

(** ** Format strings *)

Section Format.
Variable n : str.
Notation piece_text := (fun q : str => if str_eqb q n then lit "{}" else lit ".*").
Notation rest ps := (texts piece_text ps ++ lit "$").

Lemma fs_plain c s k : c <> ch "{" -> c <> ch "}" -> format_string (c :: s) k <-> format_string s k.
Proof. intros H1 H2. split; [|now constructor]. intro H. inversion H; subst; auto; easy. Qed.
Lemma fs_hole s k : format_string (ch "{" :: ch "}" :: s) k <-> exists j, k = S j /\ format_string s j.
Proof.
  split; [|intros (j & -> & H); now constructor]. intro H. inversion H; subst; eauto; easy.
Qed.
Lemma rest_head ps : lax_from false ps -> exists c s, rest ps = c :: s /\ c <> ch "}".
Proof.
  destruct ps as [|[c|m] ps]; cbn [lax_from].
  - intros _. now exists (ch "$"), [].
  - intros (_ & H & _). exists c, (rest ps). split; [reflexivity|]. intro E. now specialize (H E).
  - intros _. rewrite texts_var. destruct (str_eqb m n); cbn; eexists _, _; (split; [reflexivity|easy]).
Qed.

Lemma fs_rest ps : forall b k, lax_from b ps ->
  format_string (rest ps) k <-> no_stray ps /\ k = count_occ str_eq_dec (vars ps) n.
Proof.
  induction ps as [|[c|m] ps IH]; intros b k Hl.
  - change (rest []) with (ch "$" :: []). rewrite fs_plain by easy. cbn. split.
    + intro H. inversion H. split; [intros []|reflexivity].
    + intros (_ & ->). constructor.
  - cbn in Hl. destruct Hl as (Hc & Hb & Hl). rewrite texts_lit. cbn [app].
    destruct (N.eq_dec c (ch "}")) as [->|Hn].
    + split.
      * destruct (rest_head ps Hl) as (c & s & -> & Hne). intro H. inversion H; subst; easy.
      * intros (H & _). exfalso. apply H. now left.
    + rewrite fs_plain by assumption. rewrite (IH false k Hl). cbn. unfold no_stray. cbn. split.
      * intros (H & ->). split; auto. intros [E|E]; auto. injection E as ->. easy.
      * intros (H & ->). auto.
  - cbn in Hl. destruct Hl as (_ & Hl). rewrite texts_var, <- app_assoc.
    assert (Hns : no_stray (PVar m :: ps) <-> no_stray ps).
    { unfold no_stray. cbn. split; intro H; intuition discriminate. }
    rewrite Hns. change (vars (PVar m :: ps)) with (m :: vars ps). cbn [count_occ].
    destruct (str_eqb m n) eqn:E.
    + apply str_eqb_spec in E. subst m. destruct (str_eq_dec n n) as [_|]; [|easy].
      change (lit "{}" ++ rest ps) with (ch "{" :: ch "}" :: rest ps). rewrite fs_hole. split.
      * intros (j & -> & H). apply (IH true j Hl) in H as (H & ->). auto.
      * intros (H & ->). eexists. split; [reflexivity|]. now apply (IH true _ Hl).
    + apply str_eqb_neq in E. destruct (str_eq_dec m n) as [|_]; [easy|].
      change (lit ".*" ++ rest ps) with (ch "." :: ch "*" :: rest ps). rewrite !fs_plain by easy. apply (IH true k Hl).
Qed.
End Format.

Lemma wildcard_format ps p n k : lax ps -> parse (show ps) = Ok p ->
  format_string (as_wildcard_param p n) k <-> no_stray ps /\ k = count_occ str_eq_dec (vars ps) n.
Proof.
  intros Hl Hp. destruct (parse_complete ps Hl) as (p' & Hp' & Hpp). assert (p' = p) by congruence. subst p'.
  rewrite wildcard_param_texts, Hpp. change (lit "^" ++ ?s) with (ch "^" :: s). rewrite fs_plain by easy.
  destruct Hl as (_ & Hl). pose proof (squeeze_pieces_lax ps false false ltac:(easy) Hl) as Hl'.
  rewrite (fs_rest n _ false k Hl'), no_stray_squeeze, vars_squeeze. reflexivity.
Qed.

(** ** Operations *)

Lemma Forall2_iff {A B} (R : A -> B -> Prop) (P : A -> Prop) (Q : B -> Prop) l r : Forall2 R l r ->
  (forall a b, R a b -> P a <-> Q b) -> Forall P l <-> Forall Q r.
Proof.
  intros F H. induction F as [|a b l r Hab F IH]; [split; constructor|]. rewrite !Forall_cons_iff, (H a b Hab), IH. reflexivity.
Qed.

Section Op.
Context (has : type_id -> rust_trait -> Prop) (by_reference : type_id -> Prop).
Context (types : type_id -> option type_info).

Lemma when_ok ps p q w : lax ps -> parse (show ps) = Ok p -> when_method_of types p q = Ok w ->
  matchable has by_reference ps q <-> when_method_ok has by_reference w.
Proof.
  intros Hl Hp H. unfold when_method_of in H. apply obind_ok in H as ([] & Ht & H). unfold when_type in Ht.
  apply obind_ok in H as (b & Hb & H). injection H as <-.
  unfold matchable, when_method_ok. cbn [wm_body wm_type].
  destruct (p_kind q) as [|[]| |[]] eqn:Ek, (p_typ q) as [t|] eqn:Et; try discriminate; injection Hb as <-;
    cbn; try reflexivity; try tauto.
  - rewrite (wildcard_format ps p _ _ Hl Hp). intuition congruence.
  - unfold passable. tauto.
  - unfold passable. tauto.
  - unfold passable. tauto.
  - unfold passable. tauto.
Qed.

Lemma wrapper_names (l : list str) : wrapper_names_ok l <-> NoDup l /\ ~ In (lit "new") l /\ ~ In (lit "into_inner") l.
Proof.
  unfold wrapper_names_ok. rewrite !NoDup_cons_iff. cbn [In]. split.
  - intros (H1 & H2 & H3). tauto.
  - intros (H1 & H2 & H3). repeat split; auto. intros [E|E]; auto. discriminate.
Qed.

Lemma mock_op_sound ps m o : lax ps -> parse (show ps) = Ok (m_path m) -> httpmock_method unicode15 types m = Ok o ->
  mock_op_ok has by_reference o <-> sound_mock has by_reference ps m.
Proof.
  intros Hl Hp Ho. destruct (mock_parts _ _ _ _ Ho) as (_ & _ & Hw & Ht). destruct (then_names _ _ _ Ho) as (Etm & Hms).
  assert (Ewm : map wm_name (mo_when_methods o) = map p_name (m_params m)).
  { clear - Hw. induction Hw as [|p w ps ws H _ IH]; cbn; auto. f_equal; auto. eapply when_method_name. exact H. }
  unfold mock_op_ok. rewrite Ewm, Etm.
  rewrite <- (Forall2_iff _ (matchable has by_reference ps) _ _ _ Hw (fun a b => when_ok ps _ a b Hl Hp)).
  assert (Hr : Forall (then_method_ok has by_reference) (mo_then_methods o)
    <-> forall r t, In r (m_responses m) -> o_typ r = RType t -> passable has by_reference t).
  { rewrite <- (Forall2_iff _ (fun r => forall t, o_typ r = RType t -> passable has by_reference t) _ _ _ Ht).
    - rewrite Forall_forall. split; intros H; eauto.
    - intros r t H. unfold then_method_of in H. apply obind_ok in H as (v & Hv & H). apply obind_ok in H as ([n s] & _ & H).
      injection H as <-. unfold then_method_ok. cbn [tm_value]. unfold then_value_of in Hv.
      destruct (o_typ r) as [t| | |] eqn:Et.
      + destruct (types t); [|easy]. injection Hv as <-. split; [intro HH; exact (HH t eq_refl)|]. intros HH t' [= <-]. exact HH.
      + injection Hv as <-. split; auto. discriminate.
      + injection Hv as <-. split; auto. discriminate.
      + injection Hv as <-. split; auto. discriminate. }
  rewrite Hr.
  assert (Hs : wrapper_names_ok (map name_of (map o_status (m_responses m))) <-> NoDup (map o_status (m_responses m))).
  { rewrite wrapper_names, Forall_forall in *. split.
    - intros (H & _). exact (NoDup_map_inv _ _ H).
    - intro H. split; [|split].
      + apply NoDup_map_inj; auto. intros x y Hx Hy. apply name_of_inj; auto.
      + intro Hi. apply in_map_iff in Hi as (s & E & Hi). exact (proj1 (name_of_fresh s (Hms s Hi)) E).
      + intro Hi. apply in_map_iff in Hi as (s & E & Hi). exact (proj2 (name_of_fresh s (Hms s Hi)) E). }
  rewrite Hs, wrapper_names. split.
  - intros ((H1 & H2 & H3) & H4 & H5 & H6). constructor; auto. intros p Hi. apply (in_map p_name) in Hi.
    split; intro E; rewrite E in Hi; auto.
  - intros [H1 H2 H3 H4 H5]. refine (conj (conj H1 (conj _ _)) (conj H3 (conj H4 H5)));
      intro Hi; apply in_map_iff in Hi as (p & E & Hi); now destruct (H2 p Hi).
Qed.
End Op.

(** ** Documents *)

Lemma cor_mock has by_reference add_ref_types types is_path d cp k ts l ms :
  httpmock unicode15 add_ref_types types is_path d cp = Ok k -> operations_in_order d l ->
  add_ref_types (match oa_components d with Some c => co_schemas c | None => [] end) = Ok ts ->
  Forall2 (processed unicode15 ts d) l ms ->
  mock_ok has by_reference k <-> sound_mocks has by_reference unicode15 l ms.
Proof.
  intros H Hl Hts Hms. unfold httpmock in H. apply obind_ok in H as ([] & Hv & H). apply obind_ok in H as (ts' & Hts' & H).
  assert (ts' = ts) by congruence. subst ts'.
  apply obind_ok in H as (groups & Hg & H). apply obind_ok in H as (ops & Ho & H).
  destruct (is_path cp); [|easy]. injection H as <-. unfold mock_ok. cbn [mk_ops].
  apply (process_paths unicode15 ts d _ 0) in Hg. rewrite <- (in_order_unique d l Hl) in Hg.
  assert (concat groups = ms) by exact (processed_unique _ _ _ _ _ _ Hg Hms). rewrite H in *. clear Hg H groups.
  apply mapM_ok in Ho.
  assert (E1 : map fst (combine (map m_operation_id ms) ops) = map (method_name unicode15) l).
  { clear - Ho Hms. revert ops Ho. induction Hms as [|e m l ms Hp _ IH]; intros ops Ho; inversion Ho; subst; cbn; auto.
    f_equal; auto. apply processed_facts in Hp. exact (fa_name _ _ _ _ Hp). }
  assert (E2 : flat_map (fun no : str * mock_op => [mo_when (snd no); mo_then (snd no)]) (combine (map m_operation_id ms) ops)
    = flat_map (fun e => [pascal unicode15 (method_name unicode15 e ++ lit "-when"); pascal unicode15 (method_name unicode15 e ++ lit "-then")]) l).
  { clear - Ho Hms. revert ops Ho. induction Hms as [|e m l ms Hp _ IH]; intros ops Ho; inversion Ho; subst; cbn [map combine flat_map]; auto.
    rewrite (IH _ H3). cbn [snd]. f_equal. apply processed_facts in Hp. rewrite <- (fa_name _ _ _ _ Hp).
    unfold httpmock_method in H1. apply obind_ok in H1 as (ws & _ & H1). apply obind_ok in H1 as (ths & _ & H1).
    injection H1 as <-. reflexivity. }
  assert (E3 : Forall (fun no : str * mock_op => mock_op_ok has by_reference (snd no)) (combine (map m_operation_id ms) ops)
    <-> Forall2 (fun e m => exists ps, do_path e = show ps /\ lax ps /\ sound_mock has by_reference ps m) l ms).
  { clear - Ho Hms. revert ops Ho. induction Hms as [|e m l ms Hp _ IH]; intros ops Ho; inversion Ho; subst; cbn [map combine].
    - split; constructor.
    - rewrite Forall_cons_iff, (IH _ H3). cbn [snd]. clear IH.
      apply processed_facts in Hp. pose proof (fa_path _ _ _ _ Hp) as Hpath.
      destruct (proj1 (parse_accepts_iff (do_path e)) (ex_intro _ _ Hpath)) as (ps & Eps & Hlax).
      assert (Hsh : parse (show ps) = Ok (m_path m)) by (rewrite <- Eps; exact Hpath).
      rewrite (mock_op_sound has by_reference types ps m y Hlax Hsh H1). split.
      + intros (Ha & Hb). constructor; eauto.
      + intro HF. inversion HF; subst. split; auto. destruct H4 as (ps' & Eps' & Hlax' & Hs).
        assert (ps' = ps); [|now subst]. apply show_inj; auto. congruence. }
  rewrite E1, E2, E3. unfold sound_mocks. split; [tauto|]. intros (Hd & Ha). split; [|auto].
  clear - Hd. induction l as [|e l IH]; cbn [map]; [constructor|]. cbn [flat_map app] in Hd.
  apply NoDup_cons_iff in Hd as (Hw & Hd). apply NoDup_cons_iff in Hd as (_ & Hd). constructor; auto.
  intro Hi. apply in_map_iff in Hi as (e' & Ee & Hi). apply Hw. right. apply in_flat_map. exists e'. split; auto. left. now rewrite Ee.
Qed.

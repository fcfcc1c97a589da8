(** What [generate_api!] expands to: neither hash maps nor the order of the keys matter. *)
From Coq Require Import Sorting.Permutation Sorting.Sorted.
From Verif Require Import Base OasModel OpModel BuilderModel MethodModel GenerateModel SanitizeModel ParamProofs GenerateProofs MacroModel
  MacroSpec MacroProofs SettingsModel SettingsSpec SettingsProofs SettingsMain.
Local Open Scope N_scope.

Lemma inr_inj {A B} (a b : B) : @inr A B a = inr b -> a = b.
Proof. congruence. Qed.

Section Options.
Context {T V I Sch : Type}.
Variable text : T -> str.
Variable U : unicode.
Variable semver : str -> option V.
Variable closure_body : list tree -> (list tree * list tree) + list tree.
Variable path : list tree -> option (list tree * list tree).
Variable stream : list tree -> T.
Variable path_text : type_path -> str.
Variable impl_of : str -> option I.
Variable impl_eqb : I -> I -> bool.
Variable default_impls : list I.
Hypothesis Hpath : no_paren path.

Notation entry := (entry T Sch).
Notation call := (type_call V I Sch).
Notation from_tokenstream := (from_tokenstream T V I Sch U semver closure_body path stream impl_of).
Notation macro_settings_of := (macro_settings_of T V I Sch text path_text impl_eqb default_impls).
Notation type_calls := (type_calls T V I Sch).
Notation patching := (@patching T text).
Notation replacement := (@replacement I path_text impl_eqb default_impls).
Notation conversion := (@conversion I Sch path_text impl_eqb default_impls).
Notation read_invocation := (read_invocation T V I Sch text U semver closure_body path stream path_text impl_of impl_eqb default_impls).

Definition patch_call_of (e : str * list patch_call) : call := CallPatch _ _ _ (fst e) (snd e).
Definition replace_call_of (e : str * (str * list I)) : call := CallReplacement _ _ _ (fst e) (fst (snd e)) (snd (snd e)).
Definition convert_call_of (e : Sch * str * list I) : call := CallConversion _ _ _ (fst (fst e)) (snd (fst e)) (snd e).

Lemma same_patches l l' : Permutation l l' -> NoDup (map fst l) -> forall a b,
  same_calls (a ++ map patch_call_of l ++ b) (a ++ map patch_call_of l' ++ b).
Proof.
  induction 1 as [|x l l' Hp IH|x y l|l l' l'' H1 IH1 H2 IH2]; intros Hnd a b; cbn [map app].
  - apply ScRefl.
  - inversion Hnd; subst. specialize (IH H2 (a ++ [patch_call_of x]) b). rewrite <- !app_assoc in IH. exact IH.
  - cbn in Hnd. inversion Hnd as [|? ? Hni _]; subst. apply ScPatch. intro E. apply Hni. left. congruence.
  - eapply ScTrans; [now apply IH1|]. apply IH2. eapply Permutation_NoDup; [apply Permutation_map; exact H1|auto].
Qed.
Lemma same_replacements l l' : Permutation l l' -> NoDup (map fst l) -> forall a b,
  same_calls (a ++ map replace_call_of l ++ b) (a ++ map replace_call_of l' ++ b).
Proof.
  induction 1 as [|x l l' Hp IH|x y l|l l' l'' H1 IH1 H2 IH2]; intros Hnd a b; cbn [map app].
  - apply ScRefl.
  - inversion Hnd; subst. specialize (IH H2 (a ++ [replace_call_of x]) b). rewrite <- !app_assoc in IH. exact IH.
  - cbn in Hnd. inversion Hnd as [|? ? Hni _]; subst. apply ScReplace. intro E. apply Hni. left. congruence.
  - eapply ScTrans; [now apply IH1|]. apply IH2. eapply Permutation_NoDup; [apply Permutation_map; exact H1|auto].
Qed.
Lemma same_impls o o' : order_ok (o_impls o) -> order_ok (o_impls o') -> forall l a b,
  same_calls (a ++ map replace_call_of (map (replacement o) l) ++ b) (a ++ map replace_call_of (map (replacement o') l) ++ b).
Proof.
  intros Ho Ho'. induction l as [|x l IH]; intros a b; [apply ScRefl|]. cbn [map app].
  eapply ScTrans; [apply (ScReplaceImpls _ _ _ _ (snd (snd (replacement o' x))))|].
  - cbn. transitivity (impls_of impl_eqb default_impls (snd x)); [symmetry; apply Ho|apply Ho'].
  - specialize (IH (a ++ [replace_call_of (replacement o' x)]) b). rewrite <- !app_assoc in IH. exact IH.
Qed.
Lemma same_conversions o o' : order_ok (o_impls o) -> order_ok (o_impls o') -> forall l a b,
  same_calls (a ++ map convert_call_of (map (conversion o) l) ++ b) (a ++ map convert_call_of (map (conversion o') l) ++ b).
Proof.
  intros Ho Ho'. induction l as [|x l IH]; intros a b; [apply ScRefl|]. cbn [map app].
  eapply ScTrans; [apply (ScConvertImpls _ _ _ _ (snd (conversion o' x)))|].
  - cbn. transitivity (impls_of impl_eqb default_impls (snd x)); [symmetry; apply Ho|apply Ho'].
  - specialize (IH (a ++ [convert_call_of (conversion o' x)]) b). rewrite <- !app_assoc in IH. exact IH.
Qed.

Lemma crates_any_order (p p' : list (str * macro_crate_spec V)) : Permutation p p' -> NoDup (map fst (map entry_crate p)) ->
  apply_crates p [] = apply_crates p' [].
Proof.
  intros Hp Hnd. apply MacroProofs.sorted_ext; try apply crates_sorted.
  intro k. rewrite !apply_inserts, !bt_inserts_assoc by constructor. cbn [assoc].
  assert (Hpm : Permutation (map entry_crate p) (map entry_crate p')) by now apply Permutation_map.
  assert (Hnd' : NoDup (map fst (map entry_crate p'))) by (eapply Permutation_NoDup; [apply Permutation_map; exact Hpm|auto]).
  replace (assoc_last k (map entry_crate p)) with (assoc_last k (map entry_crate p')); auto.
  destruct (assoc_last k (map entry_crate p')) as [v|] eqn:E.
  - symmetry. apply last_unique; auto. apply last_unique in E; auto. eapply Permutation_in; [symmetry; exact Hpm|auto].
  - destruct (assoc_last k (map entry_crate p)) as [v|] eqn:E'; auto. apply last_unique in E'; auto.
    assert (In (k, v) (map entry_crate p')) as Hin by (eapply Permutation_in; [exact Hpm|auto]).
    apply last_unique in Hin; auto. congruence.
Qed.

Lemma order_free o o' es spec s : orders_ok o -> orders_ok o' ->
  (forall l, In (EnCrates _ _ l) es -> separate_crates U semver l) ->
  read_invocation o (InvKeys _ _ es) = Some (spec, s) ->
  exists s', read_invocation o' (InvKeys _ _ es) = Some (spec, s') /\ read_settings _ _ _ _ s' = read_settings _ _ _ _ s
    /\ same_calls (type_calls (o_patch_out o) (o_replace_out o) s) (type_calls (o_patch_out o') (o_replace_out o') s').
Proof.
  intros (Hoc & Hopa & Hore & Hoi & Hopo & Horo) (Hoc' & Hopa' & Hore' & Hoi' & Hopo' & Horo') Hsep H. cbn in *.
  destruct (from_tokenstream es) as [m|] eqn:E; [|discriminate]. injection H as <- <-. eexists. split; [reflexivity|].
  rewrite !(settings_are text path_text impl_eqb default_impls). split; [reflexivity|].
  apply fields_read in E; auto. destruct E.
  assert (Hp0 : NoDup (map fst (ms_patch _ _ _ _ m)))
    by (destruct rf_patch as [(l & _ & -> & _)|[-> _]]; [apply hm_of_nodup|constructor]).
  assert (Hr0 : NoDup (map fst (ms_replace _ _ _ _ m)))
    by (destruct rf_replace as [(l & ? & _ & _ & -> & _)|[-> _]]; [apply hm_of_nodup|constructor]).
  assert (Hpnd : forall p, Permutation (ms_patch _ _ _ _ m) p -> NoDup (map fst (map patching p))).
  { intros p Hp. rewrite map_map. change (fun x => fst (patching x)) with (fun x : str * macro_patch T => fst x).
    eapply Permutation_NoDup; [apply Permutation_map; exact Hp|exact Hp0]. }
  assert (Hrnd : forall o p, Permutation (ms_replace _ _ _ _ m) p -> NoDup (map fst (map (replacement o) p))).
  { intros oo p Hp. rewrite map_map. change (fun x => fst (replacement oo x)) with (fun x : str * type_and_impls I => fst x).
    eapply Permutation_NoDup; [apply Permutation_map; exact Hp|exact Hr0]. }
  rewrite !hm_of_new by (apply Hpnd || apply Hrnd; apply Hopa || apply Hopa' || apply Hore || apply Hore').
  assert (Hcr : apply_crates (o_crates o _ (ms_crates _ _ _ _ m)) [] = apply_crates (o_crates o' _ (ms_crates _ _ _ _ m)) []).
  { apply crates_any_order; [transitivity (ms_crates _ _ _ _ m); [symmetry; apply Hoc|apply Hoc']|].
    destruct rf_crates as [(l & x & Hl & Hx & -> & _)|[-> _]].
    - apply (held_nodup U semver l x); auto.
    - rewrite (Permutation_nil (Hoc _ [])). constructor. }
  unfold SettingsModel.type_calls.
  cbn [gs_interface gs_extra_derives gs_unknown_crates gs_crates gs_patch gs_replace gs_convert gs_map_type].
  rewrite Hcr.
  fold patch_call_of. change (fun e : str * list patch_call => CallPatch V I Sch (fst e) (snd e)) with patch_call_of.
  change (fun e : str * (str * list I) => CallReplacement V I Sch (fst e) (fst (snd e)) (snd (snd e))) with replace_call_of.
  change (fun e : Sch * str * list I => CallConversion V I Sch (fst (fst e)) (snd (fst e)) (snd e)) with convert_call_of.
  match goal with |- same_calls (?x1 :: ?x2 :: ?a2 ++ ?x3 :: ?a4 ++ ?p ++ ?r ++ ?c ++ ?t) (_ :: _ :: _ ++ _ :: _ ++ ?p' ++ ?r' ++ ?c' ++ _) =>
    assert (Hlist : forall rest, x1 :: x2 :: a2 ++ x3 :: a4 ++ rest = (x1 :: x2 :: a2 ++ x3 :: a4) ++ rest)
      by (intro; cbn [app]; now rewrite <- app_assoc);
    rewrite !Hlist; clear Hlist; generalize (x1 :: x2 :: a2 ++ x3 :: a4); intro pre;
    apply (ScTrans _ (pre ++ p' ++ r ++ c ++ t));
    [|apply (ScTrans _ (pre ++ p' ++ r' ++ c ++ t));
      [rewrite !(app_assoc pre p')|rewrite !(app_assoc pre p'), !(app_assoc (pre ++ p') r')]]
  end.
  - apply same_patches.
    + transitivity (map patching (ms_patch _ _ _ _ m)).
      * eapply Permutation_trans; [symmetry; apply Hopo|]. apply Permutation_map. symmetry. apply Hopa.
      * eapply Permutation_trans; [|apply Hopo']. apply Permutation_map. apply Hopa'.
    + eapply Permutation_NoDup; [apply Permutation_map, Hopo|]. apply Hpnd, Hopa.
  - eapply ScTrans; [apply (same_replacements _ (map (replacement o) (ms_replace _ _ _ _ m)))|
      eapply ScTrans; [apply (same_impls o o' Hoi Hoi')|apply same_replacements]].
    + eapply Permutation_trans; [symmetry; apply Horo|]. apply Permutation_map. symmetry. apply Hore.
    + eapply Permutation_NoDup; [apply Permutation_map, Horo|]. apply Hrnd, Hore.
    + eapply Permutation_trans; [|apply Horo']. apply Permutation_map. apply Hore'.
    + apply Hrnd. reflexivity.
  - apply (same_conversions o o' Hoi Hoi').
Qed.

(** *** What the macro expands to *)

Variable manifest_dir : option str.
Variable current_dir : option str.
Variable open : str -> str + str.
Variable json : str -> option openapi.
Variable yaml : str -> openapi + str.
Variable error_text : error -> str.
Variable add_ref_types : list call -> list (str * ref_or schema) -> outcome type_space.
Variable types : list call -> type_id -> option type_info.

Notation generate_api := (generate_api T V I Sch text U semver closure_body path stream path_text impl_of impl_eqb default_impls
  manifest_dir current_dir open json yaml error_text add_ref_types types).

Lemma generate_congr o o' i i' spec s s' : read_invocation o i = Some (spec, s) -> read_invocation o' i' = Some (spec, s') ->
  read_settings _ _ _ _ s' = read_settings _ _ _ _ s ->
  add_ref_types (type_calls (o_patch_out o) (o_replace_out o) s) = add_ref_types (type_calls (o_patch_out o') (o_replace_out o') s') ->
  types (type_calls (o_patch_out o) (o_replace_out o) s) = types (type_calls (o_patch_out o') (o_replace_out o') s') ->
  generate_api o i = generate_api o' i'.
Proof.
  intros E E' Er Ea Et. unfold generate_api, SettingsModel.generate_api. rewrite E, E'.
  destruct (match manifest_dir with Some d => Some d | None => current_dir end) as [dir|]; [|reflexivity].
  destruct (open (path_join dir spec)) as [data|e]; [|reflexivity].
  destruct (read_document json yaml (path_join dir spec) data) as [d|e]; [|reflexivity].
  cbn [generator_new gn_calls gn_settings]. rewrite Er, Ea, Et. reflexivity.
Qed.
Lemma generate_order o o' es : orders_ok o -> orders_ok o' ->
  (forall l, In (EnCrates _ _ l) es -> separate_crates U semver l) ->
  (forall cs cs', same_calls cs cs' -> add_ref_types cs = add_ref_types cs' /\ types cs = types cs') ->
  generate_api o (InvKeys _ _ es) = generate_api o' (InvKeys _ _ es).
Proof.
  intros Ho Ho' Hsep Hty. destruct (read_invocation o (InvKeys _ _ es)) as [[spec s]|] eqn:E.
  - destruct (order_free o o' es spec s Ho Ho' Hsep E) as (s' & E' & Er & Hs). destruct (Hty _ _ Hs) as [Ha Ht].
    eapply generate_congr; eauto.
  - assert (E' : read_invocation o' (InvKeys _ _ es) = None)
      by (cbn in *; now destruct (from_tokenstream es)).
    unfold generate_api, SettingsModel.generate_api. now rewrite E, E'.
Qed.
Lemma keys_any_order o es es' : Permutation es es' -> generate_api o (InvKeys _ _ es) = generate_api o (InvKeys _ _ es').
Proof.
  intro Hp. assert (E : read_invocation o (InvKeys _ _ es) = read_invocation o (InvKeys _ _ es')).
  { cbn. now rewrite (any_order U semver closure_body path stream impl_of es es' Hp). }
  unfold generate_api, SettingsModel.generate_api. now rewrite E.
Qed.
Lemma string_form o o' spec : orders_ok o -> orders_ok o' ->
  generate_api o (InvString _ _ spec) = generate_api o' (InvKeys _ _ [EnSpec _ _ spec]).
Proof.
  intros (_ & _ & _ & _ & Hop & Hor) (Hoc & Hopa & Hore & Hoi & Hopo & Horo).
  assert (Hn : forall h, order_ok h -> forall A, h A [] = []) by (intros h Hh A; apply Permutation_nil; apply Hh).
  assert (E : read_invocation o' (InvKeys _ _ [EnSpec _ _ spec]) = Some (spec, default_settings _ _ _ _)).
  { cbn -[SettingsModel.macro_settings_of]. rewrite (settings_are text path_text impl_eqb default_impls). cbn.
    rewrite !(Hn _ Hoc), !(Hn _ Hopa), !(Hn _ Hore). reflexivity. }
  assert (Ec : type_calls (o_patch_out o) (o_replace_out o) (default_settings _ _ _ _)
    = type_calls (o_patch_out o') (o_replace_out o') (default_settings _ _ _ _)).
  { unfold SettingsModel.type_calls. cbn [default_settings gs_patch gs_replace].
    now rewrite (Hn _ Hop), (Hn _ Hopo), (Hn _ Hor), (Hn _ Horo). }
  eapply generate_congr; [reflexivity|exact E|reflexivity| |]; now rewrite Ec.
Qed.
Lemma other_ignored o a b k : generate_api o (InvKeys _ _ (a ++ EnOther _ _ k :: b)) = generate_api o (InvKeys _ _ (a ++ b)).
Proof.
  assert (E : read_invocation o (InvKeys _ _ (a ++ EnOther _ _ k :: b)) = read_invocation o (InvKeys _ _ (a ++ b))).
  { cbn. rewrite (any_order U semver closure_body path stream impl_of (a ++ EnOther _ _ k :: b) (EnOther _ _ k :: a ++ b))
      by (symmetry; apply Permutation_middle). reflexivity. }
  unfold generate_api, SettingsModel.generate_api. now rewrite E.
Qed.

Lemma located_cases dir spec p : located dir spec p ->
  (exists q, spec = lit "/" ++ q /\ p = spec)
  \/ (hd_error spec <> Some (ch "/")
      /\ ((exists d, dir = d ++ lit "/" /\ p = d ++ lit "/" ++ spec)
          \/ (dir <> [] /\ last dir 0 <> ch "/" /\ p = dir ++ lit "/" ++ spec) \/ (dir = [] /\ p = spec))).
Proof.
  destruct 1 as [q|d q Hq E|q Hq Hn Hl|q Hq E].
  - left. eauto.
  - right. split; auto. left. eauto.
  - right. split; auto.
  - right. split; auto.
Qed.
Lemma join_located dir spec p : path_join dir spec = p <-> located dir spec p.
Proof.
  unfold path_join. destruct (starts_with (lit "/") spec) eqn:E.
  - apply Base.starts_with_spec in E as (r & ->). split.
    + intros <-. constructor.
    + intro H. destruct (located_cases _ _ _ H) as [(q & _ & ->)|[Hq _]]; auto. now elim Hq.
  - assert (Hh : hd_error spec <> Some (ch "/")).
    { destruct spec as [|c r]; [discriminate|]. intros [= ->].
      assert (X : starts_with (lit "/") (ch "/" :: r) = true) by (apply Base.starts_with_spec; now exists r). congruence. }
    assert (Hno : forall q, spec <> lit "/" ++ q) by (intros q ->; now apply Hh).
    destruct dir as [|c dir].
    { split; [intros <-; now apply LcHere|]. intro H.
      destruct (located_cases _ _ _ H) as [(q & E1 & _)|[_ [(d & E1 & _)|[(E1 & _)|(_ & ->)]]]]; auto.
      - now elim (Hno q).
      - now destruct d.
      - now elim E1. }
    remember (c :: dir) as D eqn:ED. assert (HD : D <> []) by (subst; discriminate). clear ED c dir.
    destruct (exists_last HD) as (d & x & ->). unfold ends_with_char. rewrite rev_app_distr. cbn [rev app].
    assert (Hl : last (d ++ [x]) 0 = x) by apply last_last.
    destruct (N.eqb_spec x (ch "/")) as [->|Hx].
    + split.
      * intros <-. rewrite <- app_assoc. now apply LcSlash.
      * intro H. destruct (located_cases _ _ _ H) as [(q & E1 & _)|[_ [(d' & Ed & ->)|[(_ & Hl' & _)|(He & _)]]]].
        -- now elim (Hno q).
        -- apply app_inj_tail in Ed as [-> _]. now rewrite <- app_assoc.
        -- rewrite Hl in Hl'. now elim Hl'.
        -- now elim HD.
    + split.
      * intros <-. apply LcPlain; auto. now rewrite Hl.
      * intro H. destruct (located_cases _ _ _ H) as [(q & E1 & _)|[_ [(d' & Ed & ->)|[(_ & Hl' & ->)|(He & _)]]]]; auto.
        -- now elim (Hno q).
        -- apply app_inj_tail in Ed as [_ ->]. now elim Hx.
        -- now elim HD.
Qed.
Lemma directory_iff d : (match manifest_dir with Some d => Some d | None => current_dir end) = Some d
  <-> directory manifest_dir current_dir d.
Proof.
  split.
  - destruct manifest_dir eqn:E; intro H.
    + injection H as <-. now apply DirManifest.
    + now apply DirCurrent.
  - intros [x E|x E F]; rewrite E; auto.
Qed.
Lemma document_iff p data d : read_document json yaml p data = inl d <-> document_in json yaml data d.
Proof.
  unfold read_document. split.
  - destruct (json data) as [j|] eqn:E; [intros [= <-]; now apply DocJson|].
    destruct (yaml data) as [y|e] eqn:F; [intros [= <-]; now apply DocYaml|discriminate].
  - intros [x E|x E F]; rewrite E; auto. now rewrite F.
Qed.

Notation calls o s := (type_calls (o_patch_out o) (o_replace_out o) s).
Lemma expanded_iff o i code p : generate_api o i = Expanded code p <->
  exists spec s dir data d, read_invocation o i = Some (spec, s) /\ directory manifest_dir current_dir dir
    /\ located dir spec p /\ open p = inl data /\ document_in json yaml data d
    /\ generate_tokens U (add_ref_types (calls o s)) (types (calls o s)) (read_settings _ _ _ _ s) d = Ok code.
Proof.
  unfold generate_api, SettingsModel.generate_api. split.
  - destruct (read_invocation o i) as [[spec s]|] eqn:E1; [|discriminate].
    destruct (match manifest_dir with Some d => Some d | None => current_dir end) as [dir|] eqn:E2; [|discriminate].
    destruct (open (path_join dir spec)) as [data|e] eqn:E3; [|discriminate].
    destruct (read_document json yaml (path_join dir spec) data) as [d|e] eqn:E4; [|discriminate].
    cbn [generator_new gn_calls gn_settings].
    destruct (generate_tokens _ _ _ _ d) as [c|e|e] eqn:E5; try discriminate. intros [= <- <-].
    exists spec, s, dir, data, d. apply directory_iff in E2. apply document_iff in E4. repeat split; auto. now apply join_located.
  - intros (spec & s & dir & data & d & -> & E2 & Hl & E3 & E4 & E5). apply directory_iff in E2. rewrite E2.
    apply join_located in Hl. rewrite Hl, E3. apply (document_iff p) in E4. rewrite E4.
    cbn [generator_new gn_calls gn_settings]. rewrite E5. reflexivity.
Qed.
Lemma error_iff o i msg : generate_api o i = CompileError (Some msg) <->
  exists spec s dir p, read_invocation o i = Some (spec, s) /\ directory manifest_dir current_dir dir /\ located dir spec p
    /\ ((exists e, open p = inr e /\ msg = lit "couldn't read file " ++ p ++ lit ": " ++ e)
        \/ (exists data e, open p = inl data /\ json data = None /\ yaml data = inr e
              /\ msg = lit "failed to parse " ++ p ++ lit ": " ++ e)
        \/ (exists data d e, open p = inl data /\ document_in json yaml data d
              /\ generate_tokens U (add_ref_types (calls o s)) (types (calls o s)) (read_settings _ _ _ _ s) d = Err e
              /\ msg = lit "generation error for " ++ spec ++ lit ": " ++ error_text e)).
Proof.
  unfold generate_api, SettingsModel.generate_api. split.
  - destruct (read_invocation o i) as [[spec s]|] eqn:E1; [|discriminate].
    destruct (match manifest_dir with Some d => Some d | None => current_dir end) as [dir|] eqn:E2; [|discriminate].
    intro H. exists spec, s, dir, (path_join dir spec). apply directory_iff in E2.
    repeat split; auto; [now apply join_located|]. revert H.
    destruct (open (path_join dir spec)) as [data|e] eqn:E3.
    + destruct (read_document json yaml (path_join dir spec) data) as [d|e] eqn:E4.
      * apply document_iff in E4. cbn [generator_new gn_calls gn_settings].
        destruct (generate_tokens _ _ _ _ d) as [c|e|e] eqn:E5; try discriminate. intro H. right. right.
        exists data, d, e. repeat split; auto. symmetry. congruence.
      * intro H. right. left. unfold read_document in E4. destruct (json data) eqn:J; [discriminate|].
        destruct (yaml data) as [|e'] eqn:F; [discriminate|]. exists data, e'. repeat split; auto.
        assert (e = msg) by now injection H. subst e. symmetry. exact (inr_inj _ _ E4).
    + intro H. left. exists e. split; auto. symmetry. congruence.
  - intros (spec & s & dir & p & -> & E2 & Hl & H). apply directory_iff in E2. rewrite E2.
    apply join_located in Hl. rewrite Hl. destruct H as [(e & E3 & ->)|[(data & e & E3 & E4 & E5 & ->)|(data & d & e & E3 & E4 & E5 & ->)]];
      rewrite E3.
    + reflexivity.
    + unfold read_document. rewrite E4, E5. reflexivity.
    + apply (document_iff p) in E4. rewrite E4. cbn [generator_new gn_calls gn_settings]. rewrite E5. reflexivity.
Qed.
Lemma rejected_iff o es : generate_api o (InvKeys _ _ es) = CompileError None <->
  ~ ((exists s, In (EnSpec _ _ s) es) /\ not_repeated es /\ Forall (readable_value U semver closure_body path) es).
Proof.
  rewrite <- (accepted_iff U semver closure_body path stream impl_of Hpath es).
  unfold generate_api, SettingsModel.generate_api. cbn [SettingsModel.read_invocation].
  destruct (from_tokenstream es) as [m|] eqn:E.
  - split; [|intro H; elim H; eauto]. intros H. exfalso. revert H.
    destruct (match manifest_dir with Some d => Some d | None => current_dir end) as [dir|]; [|discriminate].
    destruct (open _) as [data|e]; [|discriminate]. destruct (read_document _ _ _ _) as [d|e]; [|discriminate].
    destruct (generate_tokens _ _ _ _ _); discriminate.
  - split; auto. intros _ (m & H). discriminate.
Qed.
End Options.

(** A macro and a build script that say the same generate the same. *)
From Coq Require Import Permutation Sorted.
From Verif Require Import Base OasModel OpModel BuilderModel MethodModel GenerateModel SanitizeModel ParamProofs GenerateProofs MacroModel
  MacroSpec MacroProofs SettingsModel SettingsSpec SettingsProofs SettingsMain SettingsOrder ScriptModel ScriptSpec ScriptProofs AgreeSpec.
Local Open Scope N_scope.

Section Same.
Context {T V I Sch : Type}.
Notation GS := (gen_settings T V I Sch).
Notation type_calls := (type_calls T V I Sch).

Definition like_replacement (x y : str * (str * list I)) : Prop :=
  fst x = fst y /\ fst (snd x) = fst (snd y) /\ Permutation (snd (snd x)) (snd (snd y)).
Definition like_conversion (x y : Sch * str * list I) : Prop := fst x = fst y /\ Permutation (snd x) (snd y).

Lemma like_replacements l l' : Forall2 like_replacement l l' -> forall a b,
  same_calls (a ++ map (replace_call_of (V:=V) (Sch:=Sch)) l ++ b) (a ++ map replace_call_of l' ++ b).
Proof.
  induction 1 as [|[n [r i]] [n' [r' i']] l l' (E1 & E2 & Hp) _ IH]; intros a b; [apply ScRefl|]. cbn [map app fst snd] in *. subst n' r'.
  eapply ScTrans; [apply (ScReplaceImpls _ _ _ _ i'); exact Hp|].
  specialize (IH (a ++ [replace_call_of (n, (r, i'))]) b). rewrite <- !app_assoc in IH. exact IH.
Qed.
Lemma like_conversions l l' : Forall2 like_conversion l l' -> forall a b,
  same_calls (a ++ map (convert_call_of (V:=V)) l ++ b) (a ++ map convert_call_of l' ++ b).
Proof.
  induction 1 as [|[[h n] i] [[h' n'] i'] l l' (E1 & Hp) _ IH]; intros a b; [apply ScRefl|]. cbn [map app fst snd] in *. injection E1 as <- <-.
  eapply ScTrans; [apply (ScConvertImpls _ _ _ _ i'); exact Hp|].
  specialize (IH (a ++ [convert_call_of (h, n, i')]) b). rewrite <- !app_assoc in IH. exact IH.
Qed.

Lemma matched_up (l' : list (str * (str * list I))) : forall l, NoDup (map fst l) -> NoDup (map fst l') ->
  (forall x, In x l -> In (fst x) (map fst l')) -> (forall y, In y l' -> exists x, In x l /\ like_replacement x y) ->
  exists m, Permutation l m /\ Forall2 like_replacement m l'.
Proof.
  induction l' as [|y l' IH]; intros l Hn Hn' H1 H2.
  - destruct l as [|x l]; [exists []; split; constructor|]. elim (H1 x). now left.
  - destruct (H2 y (or_introl eq_refl)) as (x & Hx & Hl). apply in_split in Hx as (a & b & ->).
    rewrite map_app in Hn. cbn in Hn. inversion Hn' as [|? ? Hy Hn'']; subst.
    pose proof (NoDup_remove_1 _ _ _ Hn) as Hab. pose proof (NoDup_remove_2 _ _ _ Hn) as Hxab. rewrite <- map_app in Hab, Hxab.
    destruct (IH (a ++ b) Hab Hn'') as (m & Hp & Hf).
    + intros z Hz. destruct (H1 z) as [E|Hi]; [apply in_app_or in Hz as [Hz|Hz]; apply in_or_app; cbn; auto| |exact Hi].
      exfalso. apply Hxab. destruct Hl as [Exy _]. rewrite Exy, E. now apply in_map.
    + intros z Hz. destruct (H2 z (or_intror Hz)) as (w & Hw & Hlw). exists w. split; [|exact Hlw].
      apply in_app_or in Hw as [Hw|[<-|Hw]]; [apply in_or_app; now left| |apply in_or_app; now right].
      exfalso. apply Hy. destruct Hl as [E1 _], Hlw as [E2 _]. rewrite <- E1, E2. now apply in_map.
    + exists (x :: m). split; [|constructor; assumption]. rewrite <- Permutation_middle. now constructor.
Qed.

Lemma settings_same (s s' : GS) op orr op' orr' : order_ok op -> order_ok orr -> order_ok op' -> order_ok orr' ->
  gs_interface _ _ _ _ s = gs_interface _ _ _ _ s' -> gs_extra_derives _ _ _ _ s = gs_extra_derives _ _ _ _ s' ->
  gs_unknown_crates _ _ _ _ s = gs_unknown_crates _ _ _ _ s' -> gs_crates _ _ _ _ s = gs_crates _ _ _ _ s' ->
  gs_map_type _ _ _ _ s = gs_map_type _ _ _ _ s' ->
  NoDup (map fst (gs_patch _ _ _ _ s)) -> Permutation (gs_patch _ _ _ _ s) (gs_patch _ _ _ _ s') ->
  NoDup (map fst (gs_replace _ _ _ _ s)) ->
  (exists m, Permutation (gs_replace _ _ _ _ s) m /\ Forall2 like_replacement m (gs_replace _ _ _ _ s')) ->
  Forall2 like_conversion (gs_convert _ _ _ _ s) (gs_convert _ _ _ _ s') ->
  same_calls (type_calls op orr s) (type_calls op' orr' s').
Proof.
  intros Hop Hor Hop' Hor' E1 E2 E3 E4 E5 Hpn Hp Hrn (mm & Hr & Hrl) Hc. unfold SettingsModel.type_calls.
  rewrite E1, E2, E3, E4, E5.
  change (fun e : str * list patch_call => CallPatch V I Sch (fst e) (snd e)) with (patch_call_of (V:=V) (I:=I) (Sch:=Sch)).
  change (fun e : str * (str * list I) => CallReplacement V I Sch (fst e) (fst (snd e)) (snd (snd e))) with (replace_call_of (V:=V) (I:=I) (Sch:=Sch)).
  change (fun e : Sch * str * list I => CallConversion V I Sch (fst (fst e)) (snd (fst e)) (snd e)) with (convert_call_of (V:=V) (I:=I) (Sch:=Sch)).
  match goal with |- same_calls (?a1 ++ ?a2 ++ ?a3 ++ ?a4 ++ ?p ++ ?r ++ ?c ++ ?t) (_ ++ _ ++ _ ++ _ ++ ?p' ++ ?r' ++ ?c' ++ _) =>
    assert (Hlist : forall rest, a1 ++ a2 ++ a3 ++ a4 ++ rest = (a1 ++ a2 ++ a3 ++ a4) ++ rest) by (intro; now rewrite <- !app_assoc);
    rewrite !Hlist; clear Hlist; generalize (a1 ++ a2 ++ a3 ++ a4); intro pre;
    apply (ScTrans _ (pre ++ p' ++ r ++ c ++ t));
    [|apply (ScTrans _ (pre ++ p' ++ r' ++ c ++ t));
      [rewrite !(app_assoc pre p')|rewrite !(app_assoc pre p'), !(app_assoc (pre ++ p') r')]]
  end.
  - apply same_patches.
    + transitivity (gs_patch _ _ _ _ s); [symmetry; apply Hop|]. transitivity (gs_patch _ _ _ _ s'); [exact Hp|apply Hop'].
    + eapply Permutation_NoDup; [apply Permutation_map, Hop|exact Hpn].
  - assert (Hrn' : NoDup (map fst (gs_replace _ _ _ _ s'))).
    { replace (map fst (gs_replace _ _ _ _ s')) with (map fst mm).
      - eapply Permutation_NoDup; [apply Permutation_map, Hr|exact Hrn].
      - clear -Hrl. induction Hrl as [|x y l l' (E & _) _ IH]; [reflexivity|]. cbn. now rewrite E, IH. }
    eapply ScTrans; [apply (same_replacements _ mm)|eapply ScTrans; [apply (like_replacements _ _ Hrl)|apply same_replacements]].
    + transitivity (gs_replace _ _ _ _ s); [symmetry; apply Hor|exact Hr].
    + eapply Permutation_NoDup; [apply Permutation_map, Hor|exact Hrn].
    + apply Hor'.
    + exact Hrn'.
  - now apply like_conversions.
Qed.
End Same.

Section Agree.
Context {T V I Sch : Type}.
Variable text : T -> str.
Variable U : unicode.
Variable semver : str -> option V.
Variable closure_body : list tree -> (list tree * list tree) + list tree.
Variable path : list tree -> option (list tree * list tree).
Variable stream : list tree -> T.
Variable path_text : type_path -> str.
Variable impl_of : str -> option I.
Variable impl_eqb : I -> I -> bool.
Variable default_impls : list I.
Hypothesis Hpath : no_paren path.
Hypothesis eqb_ok : forall i j, impl_eqb i j = true <-> i = j.
Hypothesis defaults_nodup : NoDup default_impls.
Notation read_invocation := (read_invocation T V I Sch text U semver closure_body path stream path_text impl_of impl_eqb default_impls).
Notation agrees := (agrees text U semver closure_body path stream path_text impl_of default_impls).
Notation type_calls := (type_calls T V I Sch).
Notation type_means := (type_means path_text impl_of default_impls).
Notation patching := (@patching T text).
Notation replacement := (@replacement I path_text impl_eqb default_impls).
Notation conversion := (@conversion I Sch path_text impl_eqb default_impls).

Lemma means_one ts r i r' i' : type_means ts r i -> type_means ts r' i' -> r = r' /\ Permutation i i'.
Proof.
  intros (ld & s & l & ws & E & -> & Hn & Hd) (ld' & s' & l' & ws' & E' & -> & Hn' & Hd').
  destruct (traits_decided impl_of impl_eqb eqb_ok default_impls ld s l ws defaults_nodup) as (ty & P & En & _ & D).
  destruct (traits_decided impl_of impl_eqb eqb_ok default_impls ld' s' l' ws' defaults_nodup) as (ty' & P' & En' & _ & D').
  rewrite <- E in P. rewrite <- E' in P'. rewrite P in P'. injection P' as <-. split; [congruence|].
  apply NoDup_Permutation; auto. intro x. now rewrite Hd, Hd', <- D, <- D'.
Qed.

Lemma keyed_perm {A} (l l' : list (str * A)) : NoDup (map fst l) -> NoDup (map fst l') -> (forall n v, In (n, v) l <-> In (n, v) l') -> Permutation l l'.
Proof.
  intros H H' Hi. apply NoDup_Permutation; [now apply nodup_of_keys|now apply nodup_of_keys|]. intros [n v]. apply Hi.
Qed.

Lemma sorted_same {A} (l l' : list (str * A)) : StronglySorted key_lt l -> StronglySorted key_lt l' ->
  (forall n v, In (n, v) l <-> In (n, v) l') -> l = l'.
Proof.
  intros H H' Hi. apply MacroProofs.sorted_ext; auto. intro k.
  destruct (assoc k l) as [v|] eqn:E.
  - symmetry. apply (sorted_assoc l' H'). apply Hi. now apply (sorted_assoc l H).
  - destruct (assoc k l') as [v|] eqn:E'; [|reflexivity]. apply (sorted_assoc l' H'), Hi, (sorted_assoc l H) in E'. congruence.
Qed.

Lemma once (es : list (entry T Sch)) e f : not_repeated es -> In e es -> In f es -> same_option e f -> e = f.
Proof.
  intros Hn He Hf Hs. apply in_split in He as (a & b & ->). apply in_app_or in Hf as [Hf|[Hf|Hf]]; [|exact Hf|].
  - exfalso. apply in_split in Hf as (a1 & a2 & ->). apply (Hn a1 f a2 e b); [now rewrite <- app_assoc|].
    destruct e, f; cbn in *; auto.
  - exfalso. apply in_split in Hf as (b1 & b2 & ->). exact (Hn a e b1 f b2 eq_refl Hs).
Qed.

Theorem script_agrees o es spec s calls op orr : orders_ok o -> order_ok op -> order_ok orr ->
  (forall l, In (EnCrates _ _ l) es -> separate_crates U semver l) ->
  read_invocation o (InvKeys _ _ es) = Some (spec, s) -> agrees es calls ->
  same_for_generator s (settings_after T V I Sch calls)
  /\ same_calls (type_calls (o_patch_out o) (o_replace_out o) s) (type_calls op orr (settings_after T V I Sch calls)).
Proof.
  intros Ho Hop Hor Hsep H Ha.
  destruct (delivered text U semver closure_body path stream path_text impl_of impl_eqb default_impls Hpath eqb_ok defaults_nodup o es spec s Ho H)
    as (_ & Hds & Hdt).
  pose proof (generator_told calls) as Ht. set (s' := settings_after T V I Sch calls) in *.
  assert (Egen : same_for_generator s s').
  { destruct Hds, Ht. destruct Ha. unfold same_for_generator. repeat split.
    - eapply settled_unique; [|apply ag_interface, ds_interface|exact tl_interface]. cbn. congruence.
    - eapply settled_unique; [|apply ag_tag, ds_tag|exact tl_tag]. cbn. congruence.
    - eapply settled_opt_unique; [|apply ag_inner, ds_inner|exact tl_inner]. cbn. congruence.
    - eapply settled_opt_unique; [|apply ag_pre, ds_pre|exact tl_pre]. cbn. congruence.
    - eapply settled_opt_unique; [|apply ag_pre_async, ds_pre_async|exact tl_pre_async]. cbn. congruence.
    - eapply settled_opt_unique; [|apply ag_post, ds_post|exact tl_post]. cbn. congruence.
    - eapply settled_opt_unique; [|apply ag_post_async, ds_post_async|exact tl_post_async]. cbn. congruence. }
  split; [exact Egen|].
  destruct (patches_settled calls) as [Hp1 Hp2]. destruct (replacements_settled calls) as [Hr1 Hr2].
  destruct (crates_settled calls) as [Hc1 Hc2]. fold s' in Hp1, Hp2, Hr1, Hr2, Hc1, Hc2.
  destruct Ho as (Hoc & Hopa & Hore & Hoi & Hopo & Horo). cbn in H.
  destruct (from_tokenstream _ _ _ _ _ _ _ _ _ _ es) as [m|] eqn:E; [|discriminate]. injection H as <- Es.
  pose proof E as Eread. apply fields_read in E; auto.
  assert (Hpnd : NoDup (map fst (map patching (o_patch o _ (ms_patch _ _ _ _ m))))).
  { rewrite map_map. change (fun x => fst (patching x)) with (fun x : str * macro_patch T => fst x).
    apply (Permutation_NoDup (l := map fst (ms_patch _ _ _ _ m))); [apply Permutation_map, Hopa|].
    destruct E as [_ _ _ _ _ _ _ _ _ _ _ _ [(l & _ & -> & _)|[-> _]] _ _]; [apply hm_of_nodup|constructor]. }
  assert (Hrnd : NoDup (map fst (map (replacement o) (o_replace o _ (ms_replace _ _ _ _ m))))).
  { rewrite map_map. change (fun x => fst (replacement o x)) with (fun x : str * type_and_impls I => fst x).
    apply (Permutation_NoDup (l := map fst (ms_replace _ _ _ _ m))); [apply Permutation_map, Hore|].
    destruct E as [_ _ _ _ _ _ _ _ _ _ _ _ _ [(l & ? & _ & _ & -> & _)|[-> _]] _]; [apply hm_of_nodup|constructor]. }
  assert (Es' := settings_are text path_text impl_eqb default_impls (V:=V) (Sch:=Sch) o m). rewrite Es in Es'.
  rewrite (hm_of_new _ Hpnd), (hm_of_new _ Hrnd) in Es'.
  assert (G1 : gs_crates _ _ _ _ s = apply_crates (o_crates o _ (ms_crates _ _ _ _ m)) []) by now rewrite Es'.
  assert (G2 : gs_patch _ _ _ _ s = map patching (o_patch o _ (ms_patch _ _ _ _ m))) by now rewrite Es'.
  assert (G3 : gs_replace _ _ _ _ s = map (replacement o) (o_replace o _ (ms_replace _ _ _ _ m))) by now rewrite Es'.
  apply settings_same; auto.
  - apply Egen.
  - rewrite <- (calls_derives (o_patch_out o) (o_replace_out o) s). unfold s'. rewrite derives_settled. symmetry. apply (ag_derives _ _ _ _ _ _ _ _ _ _ _ Ha).
    apply Hdt.
  - eapply settled_unique; [|apply (ag_unknown _ _ _ _ _ _ _ _ _ _ _ Ha)|apply policy_settled]; [cbn; congruence|].
    apply (dt_unknown _ _ _ _ _ _ _ _ _ Hdt). now apply call_unknown.
  - apply sorted_same; [rewrite G1; apply crates_sorted|exact Hc1|]. intros n [v r]. rewrite Hc2.
    transitivity (last_said (fun c a => c = SetCrate T V I Sch n (fst a) (snd a)) calls (v, r)).
    2:{ split; intros (pre & c & post & Ec & Hc & Hl); exists pre, c, post; (split; [exact Ec|split; [exact Hc|]]).
        - intros x b Hx Hb. apply (Hl x (cs_version b, cs_rename b) Hx). exact Hb.
        - intros x b Hx Hb. apply (Hl x (CrateSpec (fst b) (snd b)) Hx). exact Hb. }
    rewrite (ag_crate _ _ _ _ _ _ _ _ _ _ _ Ha). split.
    + intro Hin. rewrite G1 in Hin. apply crates_In, assoc_last_In, in_map_iff in Hin. destruct Hin as ([k a] & Ee & He).
      apply (Permutation_in _ (Permutation_sym (Hoc _ _))) in He.
      destruct (rf_crates _ _ _ _ _ _ _ _ E) as [(l & x & Hl & Hx & Em & _)|[Em _]]; rewrite Em in He; [|destruct He].
      apply hm_of_In in He.
      destruct (proj2 (last_in_map (fun a b => parse_crate_spec U semver a = Some b) l x (parsed_entries U semver l x Hx)) _ _ He) as (w & Hw & Ew).
      exists l, k, w. split; [exact Hl|]. split; [exact Hw|]. destruct a as [oo vv]. apply spec_iff in Ew.
      unfold entry_crate in Ee. cbn in Ee. destruct oo as [oc|]; injection Ee as <- <- <-; [now apply CfRename|now apply CfPlain].
    + intros (l & k & w & Hl & Hw & Hcf). apply (call_crate (o_patch_out o) (o_replace_out o) s).
      exact (dt_crates_all _ _ _ _ _ _ _ _ _ Hdt l k w n v r Hl (Hsep l Hl) Hw Hcf).
  - eapply settled_opt_unique; [|apply (ag_map _ _ _ _ _ _ _ _ _ _ _ Ha)|apply map_settled]; [cbn; congruence|].
    destruct (gs_map_type _ _ _ _ s) as [t|] eqn:Em; cbn.
    + apply (call_map (o_patch_out o) (o_replace_out o)) in Em. apply (dt_map_type _ _ _ _ _ _ _ _ _ Hdt) in Em as (x & Hx & ->). eauto.
    + intros e t He (x & -> & ->). assert (Hc : In (CallMapType V I Sch (text x)) (type_calls (o_patch_out o) (o_replace_out o) s))
        by (apply (dt_map_type _ _ _ _ _ _ _ _ _ Hdt); eauto).
      apply call_map in Hc. congruence.
  - now rewrite G2.
  - apply keyed_perm; [now rewrite G2|exact Hp1|]. intros n p. rewrite Hp2, (ag_patch _ _ _ _ _ _ _ _ _ _ _ Ha), G2, in_map_iff. split.
    + intros ((k & a) & [= <- <-] & Hin). apply (Permutation_in _ (Permutation_sym (Hopa _ _))) in Hin.
      destruct (rf_patch _ _ _ _ _ _ _ _ E) as [(l & Hl & Em & _)|[Em _]]; rewrite Em in Hin; [|destruct Hin].
      exists l, a. apply hm_of_In in Hin. auto.
    + intros (l & a & Hl & Hl' & ->). exists (n, a). split; [reflexivity|]. apply (Permutation_in _ (Hopa _ _)).
      destruct (rf_patch _ _ _ _ _ _ _ _ E) as [(l' & _ & Em & Hu)|[_ Hn]]; [|now elim (Hn l)]. rewrite Em. apply Hu in Hl as ->. now apply hm_of_In.
  - now rewrite G3.
  - assert (Hfwd : forall n r i, In (n, (r, i)) (gs_replace _ _ _ _ s) -> exists l ts, In (EnReplace _ _ l) es /\ last_in n l ts /\ type_means ts r i).
    { intros n r i Hin. apply (call_replace (o_patch_out o) (o_replace_out o) s Horo) in Hin. now apply (dt_replace _ _ _ _ _ _ _ _ _ Hdt). }
    apply matched_up; [now rewrite G3|exact Hr1| |].
    + intros (n & r & i) Hin. apply Hfwd in Hin as (l & ts & Hl & Hts & _). destruct (ag_replace_all _ _ _ _ _ _ _ _ _ _ _ Ha l n ts Hl Hts) as (a & Hla).
      apply Hr2 in Hla. apply (in_map fst) in Hla. exact Hla.
    + intros (n & r & i) Hin. apply Hr2 in Hin. apply (ag_replace _ _ _ _ _ _ _ _ _ _ _ Ha) in Hin as (l & ts & Hl & Hts & Hm).
      destruct (dt_replace_all _ _ _ _ _ _ _ _ _ Hdt l n ts Hl Hts) as (r' & i' & Hin & Hm').
      apply (call_replace (o_patch_out o) (o_replace_out o) s Horo) in Hin. exists (n, (r', i')). split; [exact Hin|].
      destruct (means_one _ _ _ _ _ Hm' Hm) as [-> Hp]. unfold like_replacement. auto.
  - rewrite <- (calls_conversions (o_patch_out o) (o_replace_out o) s). unfold s'. rewrite conversions_settled.
    assert (Hu : forall l l', In (EnConvert T Sch l) es -> In (EnConvert _ _ l') es -> l = l').
    { intros l l' Hl Hl'. assert (Hnr : not_repeated es).
      { apply (accepted_iff U semver closure_body path stream impl_of Hpath es). eauto. }
      pose proof (once _ _ _ Hnr Hl Hl' Logic.I) as X. now injection X. }
    destruct (dt_convert _ _ _ _ _ _ _ _ _ Hdt) as [(e & He & w & -> & Hw)|[Hn Ew]];
      destruct (ag_convert _ _ _ _ _ _ _ _ _ _ _ Ha) as [(e' & He' & w' & -> & Hw')|[Hn' Ew']].
    + rewrite (Hu _ _ He' He) in Hw'. clear - Hw Hw' eqb_ok defaults_nodup. revert Hw'. generalize (conversions_added calls). induction Hw as [|x c w l (E1 & E2) _ IH]; intros l' Hw';
        inversion Hw' as [|? c' ? l'' (E1' & E2') Hw'']; subst; constructor; auto.
      destruct (means_one _ _ _ _ _ E2 E2') as [E3 Hp]. destruct c as [[]], c' as [[]]; cbn in *. unfold like_conversion. cbn. split; [congruence|exact Hp].
    + exfalso. eapply Hn'; [exact He|]. eexists. split; [reflexivity|]. exact Hw.
    + exfalso. eapply Hn; [exact He'|]. eexists. split; [reflexivity|]. exact Hw'.
    + rewrite Ew, Ew'. constructor.
Qed.
End Agree.

(** The same code from a macro, a build script and cargo-progenitor. *)
From Coq Require Import Permutation.
From Verif Require Import Base OasModel OpModel BuilderModel MethodModel GenerateModel SanitizeModel CargoModel SpaceModel CrateModel CrateSpec
  CrateProofs MacroModel MacroSpec MacroProofs SettingsModel SettingsSpec SettingsProofs SettingsMain SettingsOrder ScriptModel ScriptSpec
  ScriptProofs AgreeSpec AgreeProofs.
Local Open Scope N_scope.

Section Code.
Context {T V I Sch : Type}.
Variable text : T -> str.
Variable U : unicode.
Variable semver : str -> option V.
Variable closure_body : list tree -> (list tree * list tree) + list tree.
Variable path : list tree -> option (list tree * list tree).
Variable stream : list tree -> T.
Variable path_text : type_path -> str.
Variable impl_of : str -> option I.
Variable impl_eqb : I -> I -> bool.
Variable default_impls : list I.
Hypothesis Hpath : no_paren path.
Hypothesis eqb_ok : forall i j, impl_eqb i j = true <-> i = j.
Hypothesis defaults_nodup : NoDup default_impls.
Variable manifest_dir current_dir : option str.
Variable open : str -> str + str.
Variable json : str -> option openapi.
Variable yaml : str -> openapi + str.
Variable error_text : error -> str.
Variable add_ref_types : list (type_call V I Sch) -> list (str * ref_or schema) -> outcome type_space.
Variable types : list (type_call V I Sch) -> type_id -> option type_info.
Hypothesis indifferent : forall cs cs', same_calls cs cs' -> add_ref_types cs = add_ref_types cs' /\ types cs = types cs'.
Notation read_invocation := (read_invocation T V I Sch text U semver closure_body path stream path_text impl_of impl_eqb default_impls).
Notation agrees := (agrees text U semver closure_body path stream path_text impl_of default_impls).
Notation generate_api := (generate_api T V I Sch text U semver closure_body path stream path_text impl_of impl_eqb default_impls
  manifest_dir current_dir open json yaml error_text add_ref_types types).
Notation script := (@script_code T V I Sch U add_ref_types types).

Lemma read_iff o es spec : orders_ok o -> (exists s, read_invocation o (InvKeys _ _ es) = Some (spec, s)) <->
  In (EnSpec _ _ spec) es /\ not_repeated es /\ Forall (readable_value U semver closure_body path) es.
Proof.
  intro Ho. pose proof (accepted_iff U semver closure_body path stream impl_of Hpath es) as Ha. split.
  - intros (s & H).
    destruct (delivered text U semver closure_body path stream path_text impl_of impl_eqb default_impls Hpath eqb_ok defaults_nodup o es spec s Ho H)
      as (Hi & _ & _).
    split; [exact Hi|]. apply Ha. cbn in H. match type of H with context [match ?f with Some _ => _ | None => _ end] => destruct f as [m|]; [eauto|discriminate] end.
  - intros (Hi & Hn & Hr). destruct (proj2 Ha (conj (ex_intro _ spec Hi) (conj Hn Hr))) as (m & E).
    assert (H : exists x, read_invocation o (InvKeys _ _ es) = Some x) by (cbn; rewrite E; eauto).
    destruct H as ([spec' s] & H).
    destruct (delivered text U semver closure_body path stream path_text impl_of impl_eqb default_impls Hpath eqb_ok defaults_nodup o es spec' s Ho H)
      as (Hi' & _ & _).
    assert (Es : EnSpec T Sch spec = EnSpec _ _ spec') by (apply (once es); cbn; auto). injection Es as <-. eauto.
Qed.

Lemma macro_generates o es spec s calls op orr d : orders_ok o -> order_ok op -> order_ok orr ->
  (forall l, In (EnCrates _ _ l) es -> separate_crates U semver l) ->
  read_invocation o (InvKeys _ _ es) = Some (spec, s) -> agrees es calls ->
  generate_tokens U (add_ref_types (type_calls _ _ _ _ (o_patch_out o) (o_replace_out o) s))
    (types (type_calls _ _ _ _ (o_patch_out o) (o_replace_out o) s)) (read_settings _ _ _ _ s) d = script op orr calls d.
Proof.
  intros Ho Hop Hor Hsep H Ha.
  destruct (script_agrees text U semver closure_body path stream path_text impl_of impl_eqb default_impls Hpath eqb_ok defaults_nodup
    o es spec s calls op orr Ho Hop Hor Hsep H Ha) as ((E1 & E2 & E3 & E4 & E5 & E6 & E7) & Hs).
  unfold script_code. cbn [generator_new gn_calls gn_settings]. destruct (indifferent _ _ Hs) as [-> ->].
  unfold read_settings. now rewrite E1, E2, E3, E4, E5, E6, E7.
Qed.

(** The code of the macro is the code of the script. *)
Theorem macro_code o es calls op orr code p : orders_ok o -> order_ok op -> order_ok orr ->
  (forall l, In (EnCrates _ _ l) es -> separate_crates U semver l) -> agrees es calls ->
  (generate_api o (InvKeys _ _ es) = Expanded code p <->
   not_repeated es /\ Forall (readable_value U semver closure_body path) es
   /\ exists spec dir data d, In (EnSpec _ _ spec) es /\ directory manifest_dir current_dir dir /\ located dir spec p
        /\ open p = inl data /\ document_in json yaml data d /\ script op orr calls d = Ok code).
Proof.
  intros Ho Hop Hor Hsep Ha. split.
  - intro H. apply expanded_iff in H as (spec & s & dir & data & d & E & Hd & Hl & Hf & Hj & Hg).
    assert (Hr : exists s, read_invocation o (InvKeys _ _ es) = Some (spec, s)) by eauto.
    apply (read_iff o es spec Ho) in Hr as (Hi & Hn & Hr). repeat split; auto. exists spec, dir, data, d. repeat split; auto.
    rewrite <- Hg. symmetry. eapply macro_generates; eauto.
  - intros (Hn & Hr & spec & dir & data & d & Hi & Hd & Hl & Hf & Hj & Hg).
    destruct (proj2 (read_iff o es spec Ho) (conj Hi (conj Hn Hr))) as (s & E).
    apply expanded_iff. exists spec, s, dir, data, d. repeat split; auto. rewrite <- Hg. eapply macro_generates; eauto.
Qed.

(** So are its errors. *)
Theorem macro_errors o es calls op orr spec dir p data d e : orders_ok o -> order_ok op -> order_ok orr ->
  (forall l, In (EnCrates _ _ l) es -> separate_crates U semver l) -> agrees es calls ->
  not_repeated es -> Forall (readable_value U semver closure_body path) es -> In (EnSpec _ _ spec) es ->
  directory manifest_dir current_dir dir -> located dir spec p -> open p = inl data -> document_in json yaml data d ->
  script op orr calls d = Err e ->
  generate_api o (InvKeys _ _ es) = CompileError (Some (lit "generation error for " ++ spec ++ lit ": " ++ error_text e)).
Proof.
  intros Ho Hop Hor Hsep Ha Hn Hr Hi Hd Hl Hf Hj Hg.
  destruct (proj2 (read_iff o es spec Ho) (conj Hi (conj Hn Hr))) as (s & E).
  apply error_iff. exists spec, s, dir, p. repeat split; auto. right. right. exists data, d, e. repeat split; auto.
  rewrite <- Hg. eapply macro_generates; eauto.
Qed.

Ltac never := intros c a He; cbn in He; destruct He as [<-|[<-|[]]]; discriminate.
Ltac no_option := let x := fresh in intros [x|] He; cbn in He;
  [destruct He as (e & He & Hs); exfalso; destruct He as [<-|[<-|[<-|[]]]]; try (destruct Hs as (? & Hs & _)); discriminate|clear He; cbn; never].
Lemma command_agrees spec i t : agrees (command_entries T Sch spec i t) (command_calls T V I Sch i t).
Proof.
  split.
  - intros v [(e & He & ->)|[Hn _]]; [|elim (Hn (EnInterface _ _ i) i); cbn; auto].
    cbn in He. destruct He as [He|[He|[He|[]]]]; try discriminate. injection He as <-. left.
    exists [], (SetInterface _ _ _ _ i), [SetTag _ _ _ _ t]. repeat split. intros x b [<-|[]]. discriminate.
  - intros v [(e & He & ->)|[Hn _]]; [|elim (Hn (EnTags _ _ t) t); cbn; auto].
    cbn in He. destruct He as [He|[He|[He|[]]]]; try discriminate. injection He as <-. left.
    exists [SetInterface _ _ _ _ i], (SetTag _ _ _ _ t), []. repeat split. intros x b [].
  - no_option.
  - no_option.
  - no_option.
  - no_option.
  - no_option.
  - intros l [(e & He & ts & Hs & _)|[_ ->]]; [|reflexivity]. cbn in He. destruct He as [<-|[<-|[<-|[]]]]; discriminate.
  - intros l [(e & He & Hs)|[_ ->]]; [|right; split; [never|reflexivity]]. cbn in He. destruct He as [<-|[<-|[<-|[]]]]; discriminate.
  - no_option.
  - intros n v r. split.
    + intros (pre & c & post & E & -> & _). exfalso.
      assert (He : In (SetCrate T V I Sch n v r) (command_calls T V I Sch i t)) by (rewrite E; apply in_elt). cbn in He.
      destruct He as [He|[He|[]]]; discriminate.
    + intros (l & k & s & He & _). cbn in He. destruct He as [He|[He|[He|[]]]]; discriminate.
  - intros n v. split.
    + intros (pre & c & post & E & -> & _). exfalso.
      assert (He : In (SetPatch T V I Sch n v) (command_calls T V I Sch i t)) by (rewrite E; apply in_elt). cbn in He.
      destruct He as [He|[He|[]]]; discriminate.
    + intros (l & s & He & _). cbn in He. destruct He as [He|[He|[He|[]]]]; discriminate.
  - intros n r v (pre & c & post & E & -> & _). exfalso.
    assert (He : In (SetReplacement T V I Sch n r v) (command_calls T V I Sch i t)) by (rewrite E; apply in_elt). cbn in He.
    destruct He as [He|[He|[]]]; discriminate.
  - intros l n ts He. cbn in He. destruct He as [He|[He|[He|[]]]]; discriminate.
  - right. split; [|reflexivity]. intros e a He (w & -> & _). cbn in He. destruct He as [He|[He|[He|[]]]]; discriminate.
Qed.
Lemma command_entries_fine spec i t : not_repeated (command_entries T Sch spec i t)
  /\ Forall (readable_value U semver closure_body path) (command_entries T Sch spec i t).
Proof.
  split.
  - intros l1 e l2 f l3 E. unfold AgreeSpec.command_entries in E.
    destruct l1 as [|x [|y [|z l1]]]; cbn in E.
    + injection E as <- E. destruct l2 as [|x [|y l2]]; cbn in E.
      * injection E as <- E. cbn. easy.
      * injection E as _ <- E. cbn. easy.
      * exfalso. apply (f_equal (@length _)) in E. cbn in E. rewrite app_length in E. cbn in E. lia.
    + injection E as _ <- E. destruct l2 as [|x' l2]; cbn in E.
      * injection E as <- E. cbn. easy.
      * exfalso. apply (f_equal (@length _)) in E. cbn in E. rewrite app_length in E. cbn in E. lia.
    + exfalso. apply (f_equal (@length _)) in E. cbn in E. rewrite app_length in E. cbn in E. lia.
    + exfalso. apply (f_equal (@length _)) in E. cbn in E. rewrite !app_length in E. cbn in E. rewrite app_length in E. cbn in E. lia.
  - unfold AgreeSpec.command_entries. repeat constructor.
Qed.

(** The settings of cargo-progenitor are those of a script. *)
Lemma command_settings a : crate_settings a
  = read_settings _ _ _ _ (settings_after T V I Sch (command_calls T V I Sch (ca_interface a) (ca_tags a))).
Proof. reflexivity. Qed.

Section Command.
Variable mkdir readable : list str -> bool.
Variable writes : list str -> write_result.
Variable text_of : generated_code -> str.
Variable uses_of : settings -> openapi -> type_uses.
Variable rustfmt : str -> option str.
Variable client_code : str.
Variable windows non_release : bool.
Variable pkg_version : option str.
Notation source a g := (if ca_include_client a then lit "mod progenitor_client;" ++ [10; 10] ++ text_of g else text_of g).

(** The library that is written is the code of the macro, formatted. *)
Theorem command_code a fs fs' o op orr spec dir p : orders_ok o -> order_ok op -> order_ok orr ->
  directory manifest_dir current_dir dir -> located dir spec p ->
  (forall data, content (ca_input a) fs = Some data -> open p = inl data) ->
  let told := gn_calls T V I Sch (generator_new _ _ _ _ op orr (settings_after _ _ _ _ (command_calls T V I Sch (ca_interface a) (ca_tags a)))) in
  main json (fun c => match yaml c with inl d => Some d | inr _ => None end) mkdir readable writes
    (generate_tokens U (add_ref_types told) (types told)) text_of uses_of rustfmt client_code windows non_release pkg_version a fs
    = (ExitOk, fs') ->
  exists code formatted lib,
    generate_api o (InvKeys _ _ (command_entries T Sch spec (ca_interface a) (ca_tags a))) = Expanded code p
    /\ rustfmt (source a code) = Some formatted /\ space_out_items windows formatted = Ok lib
    /\ content (lib_path a) fs' = Some lib.
Proof.
  intros Ho Hop Hor Hd Hl Hf told Hm. apply main_files in Hm.
  destruct Hm as (d & g & formatted & lib & (_ & data & Hc & Hdoc) & Hg & _ & Hfm & Hlib & Hct & _).
  exists g, formatted, lib. split; [|auto].
  destruct (command_entries_fine spec (ca_interface a) (ca_tags a)) as [Hn Hr].
  apply (macro_code o (command_entries T Sch spec (ca_interface a) (ca_tags a)) (command_calls T V I Sch (ca_interface a) (ca_tags a)) op orr g p);
    auto; [|apply command_agrees|].
  - intros l He. cbn in He. destruct He as [He|[He|[He|[]]]]; discriminate.
  - repeat split; auto. exists spec, dir, data, d. repeat split; auto; [now left|].
    destruct Hdoc as [Hj|Hj Hy]; [now apply DocJson|]. apply DocYaml; [exact Hj|]. destruct (yaml data); congruence.
Qed.
End Command.
End Code.

(** The keys of [generate_api!]. *)
From Coq Require Import Sorting.Permutation.
From Verif Require Import Base OasModel BuilderModel OpModel GenerateModel MacroModel SettingsModel SettingsSpec SettingsProofs SettingsMain SettingsOrder
  KeysModel KeysSpec.

Section Keys.
Context {W T Sch : Type}.
Variable R : readers W T Sch.

Lemma str_case a b : Bool.reflect (a = b) (str_eqb a b).
Proof. apply Bool.iff_reflect. symmetry. apply str_eqb_spec. Qed.

Lemma option_map_some {A B} (f : A -> B) o b : option_map f o = Some b <-> exists a, o = Some a /\ b = f a.
Proof. destruct o as [a|]; cbn; split; [intros [= <-]; eauto|intros (x & [= <-] & ->); reflexivity|easy|intros (x & [=] & _)]. Qed.

Lemma interface_iff s i : interface_named s = Some i <->
  (s = lit "Positional" /\ i = Positional) \/ (s = lit "Builder" /\ i = Builder).
Proof.
  unfold interface_named. destruct (str_case s (lit "Positional")) as [->|N1].
  - split; [intros [= <-]; auto|]. intros [[_ ->]|[E _]]; [reflexivity|discriminate E].
  - destruct (str_case s (lit "Builder")) as [->|N2]; split.
    + intros [= <-]. auto.
    + intros [[E _]|[_ ->]]; [now elim N1|reflexivity].
    + discriminate.
    + intros [[E _]|[E _]]; [now elim N1|now elim N2].
Qed.
Lemma tag_iff s i : tag_named s = Some i <-> (s = lit "Merged" /\ i = Merged) \/ (s = lit "Separate" /\ i = Separate).
Proof.
  unfold tag_named. destruct (str_case s (lit "Merged")) as [->|N1].
  - split; [intros [= <-]; auto|]. intros [[_ ->]|[E _]]; [reflexivity|discriminate E].
  - destruct (str_case s (lit "Separate")) as [->|N2]; split.
    + intros [= <-]. auto.
    + intros [[E _]|[_ ->]]; [now elim N1|reflexivity].
    + discriminate.
    + intros [[E _]|[E _]]; [now elim N1|now elim N2].
Qed.

Lemma read_entry_stands k w e : read_entry W T Sch R (k, w) = Some e -> stands R w k e.
Proof.
  unfold read_entry. cbn [fst snd].
  destruct (str_case k (lit "spec")) as [->|N1]; [intro H; apply option_map_some in H as (a & Ha & ->); now constructor|].
  destruct (str_case k (lit "interface")) as [->|N2].
  { intro H; apply option_map_some in H as (a & Ha & ->). destruct (r_variant R w) as [v|] eqn:E; [|discriminate Ha].
    apply interface_iff in Ha as [[-> ->]|[-> ->]]; now constructor. }
  destruct (str_case k (lit "tags")) as [->|N3].
  { intro H; apply option_map_some in H as (a & Ha & ->). destruct (r_variant R w) as [v|] eqn:E; [|discriminate Ha].
    apply tag_iff in Ha as [[-> ->]|[-> ->]]; now constructor. }
  destruct (str_case k (lit "inner_type")) as [->|N4]; [intro H; apply option_map_some in H as (a & Ha & ->); now constructor|].
  destruct (str_case k (lit "pre_hook")) as [->|N5]; [intro H; apply option_map_some in H as (a & Ha & ->); now constructor|].
  destruct (str_case k (lit "pre_hook_async")) as [->|N6]; [intro H; apply option_map_some in H as (a & Ha & ->); now constructor|].
  destruct (str_case k (lit "post_hook")) as [->|N7]; [intro H; apply option_map_some in H as (a & Ha & ->); now constructor|].
  destruct (str_case k (lit "post_hook_async")) as [->|N8]; [intro H; apply option_map_some in H as (a & Ha & ->); now constructor|].
  destruct (str_case k (lit "map_type")) as [->|N9]; [intro H; apply option_map_some in H as (a & Ha & ->); now constructor|].
  destruct (str_case k (lit "derives")) as [->|N10]; [intro H; apply option_map_some in H as (a & Ha & ->); now constructor|].
  destruct (str_case k (lit "unknown_crates")) as [->|N11].
  { intro H; apply option_map_some in H as (a & Ha & ->). destruct (r_variant R w) as [v|] eqn:E; [|discriminate Ha].
    now apply (StUnknown R w v). }
  destruct (str_case k (lit "crates")) as [->|N12]; [intro H; apply option_map_some in H as (a & Ha & ->); now constructor|].
  destruct (str_case k (lit "patch")) as [->|N13]; [intro H; apply option_map_some in H as (a & Ha & ->); now constructor|].
  destruct (str_case k (lit "replace")) as [->|N14]; [intro H; apply option_map_some in H as (a & Ha & ->); now constructor|].
  destruct (str_case k (lit "convert")) as [->|N15]; [intro H; apply option_map_some in H as (a & Ha & ->); now constructor|].
  intros [= <-]. constructor. cbn [In option_names]. intuition congruence.
Qed.

Lemma stands_read k w e : stands R w k e -> read_entry W T Sch R (k, w) = Some e.
Proof.
  destruct 1 as [s H|H|H|H|H|t H|ts H|ts H|ts H|ts H|t H|l H|v p H Hp|l H|l H|l H|l H|k Hk];
    try (unfold read_entry; cbn [fst snd]; vm_compute str_eqb; cbv iota; rewrite H; try reflexivity).
  - cbn [and_then]. rewrite Hp. reflexivity.
  - unfold read_entry. cbn [fst snd].
    repeat match goal with |- context [str_eqb k ?n] => destruct (str_case k n) as [->|?]; [exfalso; apply Hk; cbn; tauto|] end.
    reflexivity.
Qed.

Lemma read_entries_iff ws es : read_entries W T Sch R ws = Some es <-> Forall2 (fun kw e => stands R (snd kw) (fst kw) e) ws es.
Proof.
  revert es. induction ws as [|[k w] ws IH]; intro es; cbn [read_entries].
  - split; [intros [= <-]; constructor|intro H; now inversion H].
  - split.
    + destruct (read_entry W T Sch R (k, w)) as [e|] eqn:E; [|easy]. destruct (read_entries W T Sch R ws) as [l|]; [|easy].
      intros [= <-]. constructor; [now apply read_entry_stands|now apply IH].
    + intro H. inversion H as [|? e ? l H1 H2]; subst. apply stands_read in H1. cbn [fst snd] in H1. rewrite H1.
      apply IH in H2. now rewrite H2.
Qed.

Lemma stands_same w w' k k' e f : stands R w k e -> stands R w' k' f -> (same_option e f <-> k = k' /\ In k option_names).
Proof.
  intros H1 H2.
  destruct H1 as [s H|H|H|H|H|t H|ts H|ts H|ts H|ts H|t H|l H|v p H Hp|l H|l H|l H|l H|k Hk];
  destruct H2 as [s' H'|H'|H'|H'|H'|t' H'|ts' H'|ts' H'|ts' H'|ts' H'|t' H'|l' H'|v' p' H' Hp'|l' H'|l' H'|l' H'|l' H'|k' Hk'];
  cbn [same_option]; split; try easy; try (intros [E _]; discriminate E);
  try (intros _; split; [reflexivity|cbn; tauto]);
  try (intros [<- Hi]; exfalso; try (apply Hk' in Hi; exact Hi); apply Hk; cbn; tauto);
  try (intros [-> Hi]; exfalso; apply Hk; exact Hi).
Qed.

Lemma once_iff ws es : Forall2 (fun kw e => stands R (snd kw) (fst kw) e) ws es -> (not_repeated es <-> written_once ws).
Proof.
  intro H. split.
  - intros Hn k l1 v l2 w l3 Hk ->. apply Forall2_app_inv_l in H as (m1 & m2 & H1 & H2 & ->).
    inversion H2 as [|? e ? m3 He H3]; subst. apply Forall2_app_inv_l in H3 as (m4 & m5 & _ & H5 & ->).
    inversion H5 as [|? f ? m6 Hf H6]; subst. apply (Hn m1 e m4 f m6 eq_refl). apply (stands_same v w k k); auto.
  - intros Hn m1 e m2 f m3 -> Hs. apply Forall2_app_inv_r in H as (l1 & l2 & H1 & H2 & ->).
    inversion H2 as [|[k v] ? l3 ? He H3]; subst. apply Forall2_app_inv_r in H3 as (l4 & l5 & _ & H5 & ->).
    inversion H5 as [|[k' w] ? l6 ? Hf H6]; subst. cbn [fst snd] in *.
    destruct (proj1 (stands_same v w k k' e f He Hf) Hs) as [<- Hk]. now apply (Hn k l1 v l4 w l6 Hk).
Qed.

Lemma key_names w k e : stands R w k e -> key T Sch e = Some k <-> In k option_names.
Proof.
  intros H. destruct H as [s H|H|H|H|H|t H|ts H|ts H|ts H|ts H|t H|l H|v p H Hp|l H|l H|l H|l H|k Hk]; cbn [key];
    try (split; [intros _; cbn; tauto|intros _; reflexivity]).
  split; [discriminate|intro Hi; now elim Hk].
Qed.

Lemma spec_written ws es : Forall2 (fun kw e => stands R (snd kw) (fst kw) e) ws es ->
  (exists s, In (EnSpec T Sch s) es) <-> In (lit "spec") (map fst ws).
Proof.
  induction 1 as [|[k w] e ws es H _ IH]; cbn [In map fst]; [split; [intros (s & [])|intros []]|]. cbn [fst snd] in H. split.
  - intros (s & [->|Hs]); [left; now inversion H|right; apply IH; eauto].
  - intros [->|Hi]; [|apply IH in Hi as (s & Hs); eauto]. inversion H as [s Hs E1 E2| | | | | | | | | | | | | | | | |k Hk E1 E2]; subst; [eauto|].
    elim Hk. cbn. tauto.
Qed.
End Keys.

Lemma written_rejected {W T V I Sch} (R : readers W T Sch) text U (semver : str -> option V) closure_body path stream path_text
    (impl_of : str -> option I) impl_eqb default_impls :
  no_paren path -> forall manifest_dir current_dir open json yaml error_text add_ref_types types o ws,
  generate_written W T Sch R (generate_api T V I Sch text U semver closure_body path stream path_text impl_of impl_eqb default_impls
    manifest_dir current_dir open json yaml error_text add_ref_types types o) ws = CompileError None
  <-> ~ (In (lit "spec") (map fst ws) /\ written_once ws
         /\ exists es, Forall2 (fun kw e => stands R (snd kw) (fst kw) e) ws es
            /\ Forall (readable_value U semver closure_body path) es).
Proof.
  intros Hp manifest_dir current_dir open json yaml error_text add_ref_types types o ws. unfold generate_written.
  destruct (read_entries W T Sch R ws) as [es|] eqn:E.
  - apply read_entries_iff in E. rewrite rejected_iff by exact Hp. apply not_iff_compat.
    rewrite (spec_written R ws es E), (once_iff R ws es E). split.
    + intros (H1 & H2 & H3). eauto 6.
    + intros (H1 & H2 & es' & H3 & H4). repeat split; auto.
      apply read_entries_iff in E. apply read_entries_iff in H3. rewrite E in H3. now injection H3 as <-.
  - split; [|reflexivity]. intros _ (_ & _ & es & H & _). apply read_entries_iff in H. rewrite E in H. discriminate H.
Qed.

Lemma written_means {W T Sch} (R : readers W T Sch) api ws es :
  Forall2 (fun kw e => stands R (snd kw) (fst kw) e) ws es -> generate_written W T Sch R api ws = api (InvKeys T Sch es).
Proof. intro H. unfold generate_written. apply read_entries_iff in H. now rewrite H. Qed.

Lemma default_generator {T V I Sch} o o' : order_ok o -> order_ok o' ->
  gn_settings T V I Sch (generator_default T V I Sch) = gn_settings T V I Sch (generator_new T V I Sch o o' (default_settings T V I Sch))
  /\ (forall c, In c (gn_calls T V I Sch (generator_default T V I Sch)) <-> c = CallTypeMod V I Sch (lit "types"))
  /\ forall c, In c (gn_calls T V I Sch (generator_new T V I Sch o o' (default_settings T V I Sch)))
       <-> c = CallTypeMod V I Sch (lit "types") \/ c = CallStructBuilder V I Sch false
           \/ c = CallUnknownCrates V I Sch PolicyGenerate.
Proof.
  intros Ho Ho'. split; [reflexivity|]. split.
  - intro c. cbn [generator_default gn_calls In]. split; [intros [<-|[]]; reflexivity|intros ->; auto].
  - intro c. unfold generator_new, type_calls. cbn [gn_calls default_settings gs_interface gs_extra_derives gs_unknown_crates gs_crates gs_patch gs_replace gs_convert gs_map_type map app].
    rewrite (Permutation_nil (Ho _ [])), (Permutation_nil (Ho' _ [])). cbn [map app In].
    split; [intros [<-|[<-|[<-|[]]]]; auto|intros [->|[->| ->]]; auto].
Qed.

(** Every option of [generate_api!] is delivered, whatever the order of hash maps. *)
From Coq Require Import Sorting.Permutation Sorting.Sorted.
From Verif Require Import Base OpModel GenerateModel SanitizeModel ParamProofs GenerateProofs MacroModel MacroSpec MacroProofs
  SettingsModel SettingsSpec SettingsProofs.
Local Open Scope N_scope.

Lemma flat_map_none {A B} (f : A -> list B) l : (forall x, In x l -> f x = []) -> flat_map f l = [].
Proof. induction l as [|x l IH]; cbn; intro H; auto. rewrite (H x) by auto. apply IH. auto. Qed.
Lemma flat_map_map_none {A B C} (f : B -> list C) (g : A -> B) l : (forall x, f (g x) = []) -> flat_map f (map g l) = [].
Proof. intro H. apply flat_map_none. intros x Hx. apply in_map_iff in Hx as (y & <- & _). apply H. Qed.
Lemma flat_map_map_one {A B C} (f : B -> list C) (g : A -> B) (h : A -> C) l : (forall x, f (g x) = [h x]) ->
  flat_map f (map g l) = map h l.
Proof. intro H. induction l as [|x l IH]; cbn; auto. now rewrite H, IH. Qed.

Section Options.
Context {T V I Sch : Type}.
Variable text : T -> str.
Variable U : unicode.
Variable semver : str -> option V.
Variable closure_body : list tree -> (list tree * list tree) + list tree.
Variable path : list tree -> option (list tree * list tree).
Variable stream : list tree -> T.
Variable path_text : type_path -> str.
Variable impl_of : str -> option I.
Variable impl_eqb : I -> I -> bool.
Variable default_impls : list I.
Hypothesis Hpath : no_paren path.
Hypothesis eqb_ok : forall i j, impl_eqb i j = true <-> i = j.
Hypothesis defaults_nodup : NoDup default_impls.

Notation entry := (entry T Sch).
Notation key := (@key T Sch).
Notation keys := (@keys T Sch).
Notation value_ok := (value_ok T V I Sch U semver closure_body path stream impl_of).
Notation fields := (fields T V I Sch U semver closure_body path stream impl_of).
Notation field := (field T Sch).
Notation hook_value := (hook_value T closure_body path stream).
Notation from_tokenstream := (from_tokenstream T V I Sch U semver closure_body path stream impl_of).
Notation parse_types := (parse_types I impl_of).
Notation macro_settings_of := (macro_settings_of T V I Sch text path_text impl_eqb default_impls).
Notation type_calls := (type_calls T V I Sch).
Notation patching := (@patching T text).
Notation replacement := (@replacement I path_text impl_eqb default_impls).
Notation conversion := (@conversion I Sch path_text impl_eqb default_impls).

Section Read.
Variables (es fs : list entry).
Hypothesis Hfs : fields es [] = Some fs.

Lemma field_cases {A B} (con : B -> entry) (parse : B -> option A) (sel : entry -> option A) :
  (forall b, sel (con b) = parse b) -> (forall e a, sel e = Some a -> exists b, e = con b) ->
  (forall b, known (con b) = true) -> (forall b b', key (con b) = key (con b')) ->
  (forall b, value_ok (con b) = true -> exists a, parse b = Some a) ->
  (exists b a, In (con b) es /\ parse b = Some a /\ field sel fs = Some a /\ forall b', In (con b') es -> con b' = con b)
  \/ (field sel fs = None /\ forall b, ~ In (con b) es).
Proof.
  intros Hsel Hcon Hkn Hkey Hok.
  assert (Hnd : NoDup (keys fs)) by (apply (fields_accept U semver closure_body path stream impl_of Hpath es fs Hfs)).
  pose proof (fun e => fields_known U semver closure_body path stream impl_of Hpath es fs e Hfs) as Hin.
  destruct (field sel fs) as [a|] eqn:E.
  - left. apply field_In in E as (e & He & E). destruct (Hcon e a E) as (b & ->). exists b, a.
    rewrite Hsel in E. repeat split; auto; [now apply Hin|].
    intros b' Hb'. apply (key_unique fs); auto.
    + apply Hin. auto.
    + specialize (Hkn b'). unfold known in Hkn. destruct (key (con b')); [discriminate|discriminate Hkn].
  - right. split; auto. intros b Hb. assert (He : In (con b) fs) by (apply Hin; auto).
    pose proof (field_None _ _ E _ He) as X. rewrite Hsel in X.
    destruct (proj1 (fields_iff U semver closure_body path stream impl_of es [] fs) Hfs) as (_ & Hv & _).
    rewrite Forall_forall in Hv. destruct (Hok b (Hv _ Hb)) as (a & Ea). congruence.
Qed.
End Read.

Lemma delivered_chosen {A} (con : A -> entry) es (o : option A) d :
  (forall a b, con a = con b -> a = b) ->
  (exists b a, In (con b) es /\ Some b = Some a /\ o = Some a /\ forall b', In (con b') es -> con b' = con b)
  \/ (o = None /\ forall b, ~ In (con b) es) ->
  chosen (fun e a => e = con a) d es (or_default d o).
Proof.
  intros Hinj [(b & a & Hb & [= <-] & -> & Hu)|[-> Hn]]; cbn.
  - left. exists (con b). auto.
  - right. split; auto. intros e a He ->. exact (Hn a He).
Qed.
Lemma delivered_opt {A B} (con : B -> entry) (parse : B -> option A) (means : B -> A -> Prop) es (o : option A) :
  (forall a b, con a = con b -> a = b) -> (forall b a, parse b = Some a <-> means b a) ->
  (exists b a, In (con b) es /\ parse b = Some a /\ o = Some a /\ forall b', In (con b') es -> con b' = con b)
  \/ (o = None /\ forall b, ~ In (con b) es) ->
  chosen_opt (fun e a => exists b, e = con b /\ means b a) es o.
Proof.
  intros Hinj Hm [(b & a & Hb & Ha & -> & Hu)|[-> Hn]]; cbn.
  - exists (con b). split; auto. exists b. split; auto. now apply Hm.
  - intros e a He (b & -> & _). exact (Hn b He).
Qed.

Lemma or_default_Some {A} (d a : A) o : o = Some a -> or_default d o = a.
Proof. now intros ->. Qed.
Lemma or_default_None {A} (d : A) o : o = None -> or_default d o = d.
Proof. now intros ->. Qed.


(** What was read, field by field. *)
Record read_fields (es : list entry) (m : macro_settings T V I Sch) : Prop := {
  rf_spec : In (EnSpec _ _ (ms_spec _ _ _ _ m)) es;
  rf_interface : chosen (fun e i => e = EnInterface _ _ i) Positional es (ms_interface _ _ _ _ m);
  rf_tags : chosen (fun e t => e = EnTags _ _ t) Merged es (ms_tags _ _ _ _ m);
  rf_inner : chosen_opt (fun e t => e = EnInnerType _ _ t) es (ms_inner_type _ _ _ _ m);
  rf_pre : chosen_opt (fun e t => exists ts, e = EnPreHook _ _ ts /\ hook_given closure_body path stream ts t) es (ms_pre_hook _ _ _ _ m);
  rf_pre_async : chosen_opt (fun e t => exists ts, e = EnPreHookAsync _ _ ts /\ hook_given closure_body path stream ts t) es (ms_pre_hook_async _ _ _ _ m);
  rf_post : chosen_opt (fun e t => exists ts, e = EnPostHook _ _ ts /\ hook_given closure_body path stream ts t) es (ms_post_hook _ _ _ _ m);
  rf_post_async : chosen_opt (fun e t => exists ts, e = EnPostHookAsync _ _ ts /\ hook_given closure_body path stream ts t) es (ms_post_hook_async _ _ _ _ m);
  rf_map_type : forall t, ms_map_type _ _ _ _ m = Some t <-> In (EnMapType _ _ t) es;
  rf_derives : chosen (fun e l => e = EnDerives _ _ l) [] es (ms_derives _ _ _ _ m);
  rf_unknown : forall p, ms_unknown_crates _ _ _ _ m = p <-> chosen (fun e p => e = EnUnknownCrates _ _ p) PolicyGenerate es p;
  rf_crates : (exists l x, In (EnCrates _ _ l) es /\ parse_crates U semver l = Some x /\ ms_crates _ _ _ _ m = hm_of x
      /\ forall l', In (EnCrates _ _ l') es -> l' = l)
    \/ (ms_crates _ _ _ _ m = [] /\ forall l, ~ In (EnCrates _ _ l) es);
  rf_patch : (exists l, In (EnPatch _ _ l) es /\ ms_patch _ _ _ _ m = hm_of l /\ forall l', In (EnPatch _ _ l') es -> l' = l)
    \/ (ms_patch _ _ _ _ m = [] /\ forall l, ~ In (EnPatch _ _ l) es);
  rf_replace : (exists l x, In (EnReplace _ _ l) es /\ parse_types l = Some x /\ ms_replace _ _ _ _ m = hm_of x
      /\ forall l', In (EnReplace _ _ l') es -> l' = l)
    \/ (ms_replace _ _ _ _ m = [] /\ forall l, ~ In (EnReplace _ _ l) es);
  rf_convert : (exists l, In (EnConvert _ _ l) es /\ parse_types l = Some (ms_convert _ _ _ _ m))
    \/ (ms_convert _ _ _ _ m = [] /\ forall l, ~ In (EnConvert _ _ l) es)
}.

Lemma fields_read es m : from_tokenstream es = Some m -> read_fields es m.
Proof.
  unfold from_tokenstream. destruct (fields es []) as [fs|] eqn:E; [|discriminate].
  pose proof (fun A B c p s => @field_cases es fs E A B c p s) as FC.
  destruct (FC _ _ (EnSpec T Sch) (@Some _) (fun e => match e with EnSpec _ _ s => Some s | _ => None end)) as [(sp & sp' & Hsp & [= <-] & Es & _)|[Es _]];
    [reflexivity|intros [] a; cbn; try discriminate; eauto|reflexivity|reflexivity|eauto| |rewrite Es; discriminate].
  rewrite Es. intros [= <-].
  constructor; cbn [ms_spec ms_interface ms_tags ms_inner_type ms_pre_hook ms_pre_hook_async ms_post_hook ms_post_hook_async
    ms_map_type ms_derives ms_unknown_crates ms_crates ms_patch ms_replace ms_convert].
  - exact Hsp.
  - apply delivered_chosen; [now intros a b [=]|]. apply FC;
      [reflexivity|intros [] a; cbn; try discriminate; eauto|reflexivity|reflexivity|eauto].
  - apply delivered_chosen; [now intros a b [=]|]. apply FC;
      [reflexivity|intros [] a; cbn; try discriminate; eauto|reflexivity|reflexivity|eauto].
  - destruct (FC _ _ (EnInnerType T Sch) (@Some _) (fun e => match e with EnInnerType _ _ t => Some t | _ => None end))
      as [(b & a & Hb & [= <-] & -> & _)|[-> Hn]];
      [reflexivity|intros [] a; cbn; try discriminate; eauto|reflexivity|reflexivity|eauto| |].
    + exists (EnInnerType _ _ b). auto.
    + intros e a He ->. exact (Hn a He).
  - apply (delivered_opt (EnPreHook T Sch) hook_value); [now intros a b [=]|intros; now apply hook_value_iff|]. apply FC;
      [reflexivity|intros [] a; cbn; try discriminate; eauto|reflexivity|reflexivity|intro; cbn; apply given_iff].
  - apply (delivered_opt (EnPreHookAsync T Sch) hook_value); [now intros a b [=]|intros; now apply hook_value_iff|]. apply FC;
      [reflexivity|intros [] a; cbn; try discriminate; eauto|reflexivity|reflexivity|intro; cbn; apply given_iff].
  - apply (delivered_opt (EnPostHook T Sch) hook_value); [now intros a b [=]|intros; now apply hook_value_iff|]. apply FC;
      [reflexivity|intros [] a; cbn; try discriminate; eauto|reflexivity|reflexivity|intro; cbn; apply given_iff].
  - apply (delivered_opt (EnPostHookAsync T Sch) hook_value); [now intros a b [=]|intros; now apply hook_value_iff|]. apply FC;
      [reflexivity|intros [] a; cbn; try discriminate; eauto|reflexivity|reflexivity|intro; cbn; apply given_iff].
  - intro t. destruct (FC _ _ (EnMapType T Sch) (@Some _) (fun e => match e with EnMapType _ _ t => Some t | _ => None end))
      as [(b & a & Hb & [= <-] & -> & Hu)|[-> Hn]];
      [reflexivity|intros [] a; cbn; try discriminate; eauto|reflexivity|reflexivity|eauto| |].
    + split; [intros [= <-]; auto|]. intro H. apply Hu in H. congruence.
    + split; [discriminate|]. intro H. now apply Hn in H.
  - apply delivered_chosen; [now intros a b [=]|]. apply FC;
      [reflexivity|intros [] a; cbn; try discriminate; eauto|reflexivity|reflexivity|eauto].
  - intro p. destruct (FC _ _ (EnUnknownCrates T Sch) (@Some _) (fun e => match e with EnUnknownCrates _ _ t => Some t | _ => None end))
      as [(b & a & Hb & [= <-] & -> & Hu)|[-> Hn]];
      [reflexivity|intros [] a; cbn; try discriminate; eauto|reflexivity|reflexivity|eauto| |]; cbn [or_default].
    + split.
      * intros <-. left. exists (EnUnknownCrates _ _ b). auto.
      * intros [(e & He & ->)|[Hno _]]; [apply Hu in He; congruence|]. now elim (Hno _ b Hb).
    + split.
      * intros <-. right. split; auto. intros e a He ->. exact (Hn a He).
      * intros [(e & He & ->)|[_ ->]]; auto. now apply Hn in He.
  - destruct (FC _ _ (EnCrates T Sch) (parse_crates U semver) (fun e => match e with EnCrates _ _ l => parse_crates U semver l | _ => None end))
      as [(b & a & Hb & Ha & -> & Hu)|[-> Hn]];
      [reflexivity|intros [] a; cbn; try discriminate; eauto|reflexivity|reflexivity|intro; cbn; apply given_iff| |]; cbn [or_default].
    + left. exists b, a. repeat split; auto. intros l' Hl. apply Hu in Hl. congruence.
    + right. split; auto.
  - destruct (FC _ _ (EnPatch T Sch) (@Some _) (fun e => match e with EnPatch _ _ t => Some t | _ => None end))
      as [(b & a & Hb & [= <-] & -> & Hu)|[-> Hn]];
      [reflexivity|intros [] a; cbn; try discriminate; eauto|reflexivity|reflexivity|eauto| |]; cbn [or_default].
    + left. exists b. repeat split; auto. intros l' Hl. apply Hu in Hl. congruence.
    + right. split; auto.
  - destruct (FC _ _ (EnReplace T Sch) parse_types (fun e => match e with EnReplace _ _ l => parse_types l | _ => None end))
      as [(b & a & Hb & Ha & -> & Hu)|[-> Hn]];
      [reflexivity|intros [] a; cbn; try discriminate; eauto|reflexivity|reflexivity|intro; cbn; apply given_iff| |]; cbn [or_default].
    + left. exists b, a. repeat split; auto. intros l' Hl. apply Hu in Hl. congruence.
    + right. split; auto.
  - destruct (FC _ _ (EnConvert T Sch) parse_types (fun e => match e with EnConvert _ _ l => parse_types l | _ => None end))
      as [(b & a & Hb & Ha & -> & Hu)|[-> Hn]];
      [reflexivity|intros [] a; cbn; try discriminate; eauto|reflexivity|reflexivity|intro; cbn; apply given_iff| |]; cbn [or_default].
    + left. exists b. auto.
    + right. split; auto.
Qed.

(** *** The calls *)

Notation GS := (gen_settings T V I Sch).
Notation call := (type_call V I Sch).
Section Calls.
Variables (op orr : hash_order) (s : GS).
Hypothesis Hop : order_ok op.
Hypothesis Hor : order_ok orr.
Notation cs := (type_calls op orr s).

Ltac side H := repeat (rewrite in_app_iff in H || rewrite in_map_iff in H);
  destruct H as [H|[H|[H|[H|[H|[H|[H|H]]]]]]];
  [destruct H as [H|[H|[]]]; try discriminate H|destruct H as (?x & H & ?Hx); try discriminate H
  |destruct H as [H|[]]; try discriminate H|destruct H as (?x & H & ?Hx); try discriminate H
  |destruct H as (?x & H & ?Hx); try discriminate H|destruct H as (?x & H & ?Hx); try discriminate H
  |destruct H as (?x & H & ?Hx); try discriminate H
  |destruct (gs_map_type T V I Sch s) eqn:?E; [destruct H as [H|[]]; try discriminate H|destruct H]].
Ltac at_ n := unfold SettingsModel.type_calls; repeat rewrite in_app_iff; rewrite ?in_map_iff; n.

Lemma call_mod m : In (CallTypeMod _ _ _ m) cs <-> m = lit "types".
Proof.
  split.
  - intro H. unfold SettingsModel.type_calls in H. side H. now injection H.
  - intros ->. now left.
Qed.
Lemma call_builder b : In (CallStructBuilder _ _ _ b) cs <-> (b = true <-> gs_interface _ _ _ _ s = Builder).
Proof.
  split.
  - intro H. unfold SettingsModel.type_calls in H. side H. injection H as <-. destruct (gs_interface _ _ _ _ s); split; easy.
  - intro H. right. left. f_equal. destruct H as [H1 H2].
    destruct (gs_interface _ _ _ _ s), b; auto; [discriminate (H1 eq_refl)|symmetry; exact (H2 eq_refl)].
Qed.
Lemma call_unknown p : In (CallUnknownCrates _ _ _ p) cs <-> gs_unknown_crates _ _ _ _ s = p.
Proof.
  split.
  - intro H. unfold SettingsModel.type_calls in H. side H. now injection H.
  - intros <-. at_ ltac:(do 2 right; left; now left).
Qed.
Lemma call_map t : In (CallMapType _ _ _ t) cs <-> gs_map_type _ _ _ _ s = Some t.
Proof.
  split.
  - intro H. unfold SettingsModel.type_calls in H. side H. congruence.
  - intros E. at_ ltac:(do 7 right). rewrite E. now left.
Qed.
Lemma call_crate c v r : In (CallCrate _ _ _ c v r) cs <-> In (c, CrateSpec v r) (gs_crates _ _ _ _ s).
Proof.
  split.
  - intro H. unfold SettingsModel.type_calls in H. side H. injection H as <- <- <-. destruct x as [? []]. exact Hx.
  - intros E. at_ ltac:(do 3 right; left). exists (c, CrateSpec v r). auto.
Qed.
Lemma call_patch n p : In (CallPatch _ _ _ n p) cs <-> In (n, p) (gs_patch _ _ _ _ s).
Proof.
  split.
  - intro H. unfold SettingsModel.type_calls in H. side H. injection H as <- <-. destruct x.
    eapply Permutation_in; [symmetry; apply Hop|exact Hx].
  - intros E. at_ ltac:(do 4 right; left). exists (n, p). split; auto. eapply Permutation_in; [apply Hop|exact E].
Qed.
Lemma call_replace n r i : In (CallReplacement _ _ _ n r i) cs <-> In (n, (r, i)) (gs_replace _ _ _ _ s).
Proof.
  split.
  - intro H. unfold SettingsModel.type_calls in H. side H. injection H as <- <- <-. destruct x as [? []].
    eapply Permutation_in; [symmetry; apply Hor|exact Hx].
  - intros E. at_ ltac:(do 5 right; left). exists (n, (r, i)). split; auto. eapply Permutation_in; [apply Hor|exact E].
Qed.

Ltac kinds := unfold SettingsModel.type_calls; repeat rewrite flat_map_app; cbn [flat_map app];
  repeat match goal with
  | |- context [flat_map ?f (map ?g ?l)] => rewrite (flat_map_map_none f g l) by reflexivity
  end;
  destruct (gs_map_type T V I Sch s); cbn [flat_map app]; rewrite ?app_nil_r.

Lemma calls_derives : derives_in cs = gs_extra_derives _ _ _ _ s.
Proof.
  unfold derives_in. kinds; rewrite (flat_map_map_one _ _ (fun d => d)) by reflexivity; now rewrite map_id.
Qed.
Lemma calls_crates : crates_in cs = map fst (gs_crates _ _ _ _ s).
Proof. unfold crates_in. kinds; now rewrite (flat_map_map_one _ _ fst) by reflexivity. Qed.
Lemma calls_patches : patches_in cs = map fst (op _ (gs_patch _ _ _ _ s)).
Proof. unfold patches_in. kinds; now rewrite (flat_map_map_one _ _ fst) by reflexivity. Qed.
Lemma calls_replacements : replacements_in cs = map fst (orr _ (gs_replace _ _ _ _ s)).
Proof. unfold replacements_in. kinds; now rewrite (flat_map_map_one _ _ fst) by reflexivity. Qed.
Lemma calls_conversions : conversions_in cs = gs_convert _ _ _ _ s.
Proof.
  unfold conversions_in. kinds; (rewrite (flat_map_map_one _ _ (fun d => d)) by (intros [[] ?]; reflexivity)); now rewrite map_id.
Qed.
End Calls.

(** *** Crates *)

Lemma nodup_image {A B} (f : A -> B) l : NoDup (map f l) -> forall l', NoDup l' -> incl l' l -> NoDup (map f l').
Proof.
  intros Hl. assert (Hinj : forall x y, In x l -> In y l -> f x = f y -> x = y).
  { clear - Hl. induction l as [|a l IH]; [easy|]. inversion Hl as [|? ? Hni Hnd]; subst.
    intros x y [->|Hx] [->|Hy] E; auto.
    - elim Hni. rewrite E. now apply in_map.
    - elim Hni. rewrite <- E. now apply in_map. }
  induction 1 as [|x l' Hni Hnd IH]; cbn; intro Hi; constructor.
  - intro Hin. apply in_map_iff in Hin as (y & E & Hy). apply Hni. replace x with y; auto. apply Hinj; auto; apply Hi; cbn; auto.
  - apply IH. intros y Hy. apply Hi. now right.
Qed.
Lemma nodup_of_keys {A} (l : list (str * A)) : NoDup (map fst l) -> NoDup l.
Proof. apply NoDup_map_inv. Qed.

Lemma crates_sorted l : StronglySorted key_lt (apply_crates (V:=V) l []).
Proof. rewrite apply_inserts. apply bt_inserts_sorted. constructor. Qed.
Lemma crates_In l c v : In (c, v) (apply_crates (V:=V) l []) <-> assoc_last c (map entry_crate l) = Some v.
Proof.
  pose proof (crates_sorted l) as Hs. assert (H : In (c, v) (apply_crates (V:=V) l []) <-> assoc c (apply_crates l []) = Some v).
  { split; [now apply assoc_in|apply assoc_In]. }
  rewrite H, apply_inserts, bt_inserts_assoc by constructor. cbn [assoc]. destruct (assoc_last c (map entry_crate l)); easy.
Qed.
Lemma parsed_In l x e : parse_crates U semver l = Some x -> In e x ->
  exists w, In w l /\ configures U semver w (fst (entry_crate e)) (cs_version (snd (entry_crate e))) (cs_rename (snd (entry_crate e))).
Proof.
  intros H He. apply crates_iff in H. assert (Hin : In (entry_crate e) (map entry_crate x)) by now apply in_map.
  induction H as [|w kv l kvs [_ Ha] _ IH]; [easy|]. destruct Hin as [->|Hin].
  - exists w. split; [now left|exact Ha].
  - destruct (IH Hin) as (w' & ? & ?). exists w'. split; [now right|auto].
Qed.
(** The entries of the section and what they were read as. *)
Lemma parsed_entries : forall l x, parse_crates U semver l = Some x ->
  Forall2 (fun w e => fst w = fst e /\ parse_crate_spec U semver (snd w) = Some (snd e)) l x.
Proof.
  induction l as [|[k s] l IH]; cbn; intros x H; [injection H as <-; constructor|].
  destruct (parse_crate_name U k) as [n|] eqn:E1; [|discriminate].
  destruct (parse_crate_spec U semver s) as [[o v]|] eqn:E2; [|discriminate].
  destruct (parse_crates U semver l) as [es'|]; [|discriminate]. injection H as <-.
  apply name_iff in E1 as [-> Hn]. constructor; auto.
Qed.
Lemma held_nodup l x (p : list (str * macro_crate_spec V)) : parse_crates U semver l = Some x -> separate_crates U semver l ->
  Permutation (hm_of x) p -> NoDup (map fst (map entry_crate p)).
Proof.
  intros Hx Hs Hp. rewrite map_map. eapply Permutation_NoDup; [apply Permutation_map; exact Hp|].
  apply (nodup_image _ x).
  - rewrite <- map_map. now apply (separate_nodup U semver l x Hx).
  - apply nodup_of_keys, hm_of_nodup.
  - intros [k v] H. apply hm_of_In in H. now apply last_in_In.
Qed.

(** *** Everything is delivered *)

Notation read_invocation := (read_invocation T V I Sch text U semver closure_body path stream path_text impl_of impl_eqb default_impls).

Lemma patch_meant a : patch_means text a (type_patch T text a).
Proof.
  unfold patch_means, type_patch. split.
  - intro r. rewrite in_app_iff, in_map_iff. split.
    + intros [H|(x & H & _)]; [|discriminate]. destruct (mp_rename T a); [destruct H as [[= ->]|[]]; auto|easy].
    + intros ->. left. now left.
  - rewrite flat_map_app. destruct (mp_rename T a); cbn [flat_map app];
      now rewrite (flat_map_map_one _ _ text) by reflexivity.
Qed.

Lemma delivered o es spec s : orders_ok o -> read_invocation o (InvKeys _ _ es) = Some (spec, s) ->
  In (EnSpec _ _ spec) es /\ delivered_settings closure_body path stream es s
  /\ delivered_types text U semver path_text impl_of default_impls es (gs_interface _ _ _ _ s) (type_calls (o_patch_out o) (o_replace_out o) s).
Proof.
  intros (Hoc & Hopa & Hore & Hoi & Hopo & Horo) H. cbn in H.
  destruct (from_tokenstream es) as [m|] eqn:E; [|discriminate]. injection H as <- <-.
  apply fields_read in E. rewrite (settings_are text path_text impl_eqb default_impls). destruct E.
  assert (Hpnd : NoDup (map fst (map patching (o_patch o _ (ms_patch _ _ _ _ m))))).
  { rewrite map_map. change (fun x => fst (patching x)) with (fun x : str * macro_patch T => fst x).
    apply (Permutation_NoDup (l := map fst (ms_patch _ _ _ _ m))); [apply Permutation_map, Hopa|].
    destruct rf_patch0 as [(l & _ & -> & _)|[-> _]]; [apply hm_of_nodup|constructor]. }
  assert (Hrnd : NoDup (map fst (map (replacement o) (o_replace o _ (ms_replace _ _ _ _ m))))).
  { rewrite map_map. change (fun x => fst (replacement o x)) with (fun x : str * type_and_impls I => fst x).
    apply (Permutation_NoDup (l := map fst (ms_replace _ _ _ _ m))); [apply Permutation_map, Hore|].
    destruct rf_replace0 as [(l & ? & _ & _ & -> & _)|[-> _]]; [apply hm_of_nodup|constructor]. }
  rewrite (hm_of_new _ Hpnd), (hm_of_new _ Hrnd).
  split; [auto|]. split; constructor; cbn [gs_interface gs_tag gs_inner_type gs_pre_hook gs_pre_hook_async gs_post_hook gs_post_hook_async]; auto.
  - intro. apply call_mod.
  - intro. apply call_builder.
  - rewrite calls_derives. cbn [gs_extra_derives]. destruct rf_derives0 as [(e & He & ->)|[Hn ->]].
    + left. exists (EnDerives _ _ (ms_derives _ _ _ _ m)). split; auto. eexists; split; reflexivity.
    + right. split; auto. intros e a He (ts & -> & _). now apply (Hn _ ts He).
  - intro p. rewrite call_unknown. cbn [gs_unknown_crates]. apply rf_unknown0.
  - intro t. rewrite call_map. cbn [gs_map_type]. split.
    + destruct (ms_map_type _ _ _ _ m) as [x|] eqn:Em; [|discriminate]. intros [= <-]. exists x. split; auto. now apply rf_map_type0.
    + intros (x & Hx & ->). apply rf_map_type0 in Hx. now rewrite Hx.
  - intros c v r Hc. apply call_crate in Hc. cbn [gs_crates] in Hc. apply crates_In, assoc_last_In, in_map_iff in Hc.
    destruct Hc as (e & Ee & He). apply (Permutation_in _ (Permutation_sym (Hoc _ _))) in He.
    destruct rf_crates0 as [(l & x & Hl & Hx & Em & _)|[Em _]]; rewrite Em in He; [|destruct He].
    destruct e as [k0 v0]. apply hm_of_In, last_in_In in He. destruct (parsed_In l x _ Hx He) as (w & Hw & Hc).
    rewrite Ee in Hc. exists l, w. auto.
  - intros l k sp c v r Hl Hs Hk Hc. apply call_crate. cbn [gs_crates]. apply crates_In.
    destruct rf_crates0 as [(l' & x & Hl' & Hx & Em & Hu)|[_ Hn]]; [|now elim (Hn l)].
    apply Hu in Hl as ->. rewrite Em.
    pose proof (held_nodup l' x _ Hx Hs (Hoc _ (hm_of x))) as Hnd.
    apply last_unique; auto.
    apply configures_entry in Hc as (orig & Ep & ->). apply in_map.
    apply (Permutation_in _ (Hoc _ _)). apply hm_of_In.
    apply (last_in_map (fun a b => parse_crate_spec U semver a = Some b) l' x (parsed_entries l' x Hx)) in Hk as (b & Hb & Eb).
    congruence.
  - rewrite calls_crates. cbn [gs_crates]. apply sorted_nodup, crates_sorted.
  - intros n p Hp. apply call_patch in Hp; auto. cbn [gs_patch] in Hp. apply in_map_iff in Hp as ((k & a) & [= <- <-] & Ha).
    apply (Permutation_in _ (Permutation_sym (Hopa _ _))) in Ha.
    destruct rf_patch0 as [(l & Hl & Em & _)|[Em _]]; rewrite Em in Ha; [|destruct Ha].
    exists l, a. apply hm_of_In in Ha. repeat split; auto; apply patch_meant.
  - intros l n a Hl Ha. exists (type_patch T text a). split; [|apply patch_meant]. apply call_patch; auto. cbn [gs_patch].
    destruct rf_patch0 as [(l' & Hl' & Em & Hu)|[_ Hn]]; [|now elim (Hn l)]. apply Hu in Hl as ->.
    apply in_map_iff. exists (n, a). split; auto. apply (Permutation_in _ (Hopa _ _)). rewrite Em. now apply hm_of_In.
  - rewrite calls_patches. cbn [gs_patch]. eapply Permutation_NoDup; [apply Permutation_map, Hopo|exact Hpnd].
  - intros n r i Hp. apply call_replace in Hp; auto. cbn [gs_replace] in Hp. apply in_map_iff in Hp as ((k & a) & [= <- <- <-] & Ha).
    apply (Permutation_in _ (Permutation_sym (Hore _ _))) in Ha.
    destruct rf_replace0 as [(l & x & Hl & Hx & Em & _)|[Em _]]; rewrite Em in Ha; [|destruct Ha].
    apply hm_of_In in Ha.
    apply (proj2 (last_in_map (fun a b => parse_all impl_of a = Some b) l x (proj1 (types_parsed impl_of l x) Hx))) in Ha as (ts & Hts & Et).
    exists l, ts. repeat split; auto. apply (parsed_means path_text impl_of impl_eqb default_impls eqb_ok defaults_nodup ts a Et). apply Hoi.
  - intros l n ts Hl Hts. destruct rf_replace0 as [(l' & x & Hl' & Hx & Em & Hu)|[_ Hn]]; [|now elim (Hn l)].
    apply Hu in Hl as ->.
    apply (last_in_map (fun a b => parse_all impl_of a = Some b) l' x (proj1 (types_parsed impl_of l' x) Hx)) in Hts as (a & Ha & Et).
    exists (path_text (ti_name a)), (o_impls o _ (impls_of impl_eqb default_impls a)). split.
    + apply call_replace; auto. cbn [gs_replace]. apply in_map_iff. exists (n, a). split; auto.
      apply (Permutation_in _ (Hore _ _)). rewrite Em. now apply hm_of_In.
    + apply (parsed_means path_text impl_of impl_eqb default_impls eqb_ok defaults_nodup ts a Et). apply Hoi.
  - rewrite calls_replacements. cbn [gs_replace]. eapply Permutation_NoDup; [apply Permutation_map, Horo|exact Hrnd].
  - rewrite calls_conversions. cbn [gs_convert]. destruct rf_convert0 as [(l & Hl & Hx)|[Em Hn]].
    + left. exists (EnConvert _ _ l). split; auto. exists l. split; auto. apply types_parsed in Hx. clear Hl.
      induction Hx as [|w y l x [E1 E2] _ IH]; cbn [map]; constructor; auto. split; auto. cbn [snd fst conversion].
      apply (parsed_means path_text impl_of impl_eqb default_impls eqb_ok defaults_nodup _ _ E2). apply Hoi.
    + right. rewrite Em. split; auto. intros e a He (w & -> & _). exact (Hn w He).
Qed.
End Options.

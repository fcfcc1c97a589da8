(** The settings after any calls of a build script. *)
From Coq Require Import Permutation Sorted.
From Verif Require Import Base OasModel OpModel BuilderModel GenerateModel MacroModel SettingsModel SettingsSpec ParamProofs SettingsProofs
  SettingsMain ScriptModel ScriptSpec.
Local Open Scope N_scope.

Section Script.
Context {T V I Sch : Type}.
Notation call := (call T V I Sch).
Notation gen_settings := (gen_settings T V I Sch).
Notation apply_call := (apply_call T V I Sch).
Notation settings_after := (settings_after T V I Sch).
Notation default_settings := (default_settings T V I Sch).

Lemma after_snoc calls c : settings_after (calls ++ [c]) = apply_call c (settings_after calls).
Proof. unfold settings_after. now rewrite fold_left_app. Qed.

Lemma last_snoc {A} (says : call -> A -> Prop) calls c a :
  last_said says (calls ++ [c]) a <-> says c a \/ ((forall b, ~ says c b) /\ last_said says calls a).
Proof.
  split.
  - intros (pre & x & post & E & Hs & Hp). destruct post as [|y post _] using rev_ind.
    + apply app_inj_tail in E as [-> <-]. now left.
    + right. change (pre ++ x :: post ++ [y]) with (pre ++ (x :: post) ++ [y]) in E. rewrite app_assoc in E.
      apply app_inj_tail in E as [-> <-]. split.
      * intros b. apply Hp. apply in_or_app. right. now left.
      * exists pre, x, post. split; [reflexivity|]. split; [exact Hs|]. intros z b Hz. apply Hp. apply in_or_app. now left.
  - intros [H|[Hn (pre & x & post & -> & Hs & Hp)]].
    + exists calls, c, []. split; [reflexivity|]. split; [exact H|]. intros x b [].
    + exists pre, x, (post ++ [c]). split; [now rewrite <- app_assoc|]. split; [exact Hs|].
      intros z b Hz. apply in_app_or in Hz as [Hz|[<-|[]]]; auto.
Qed.
Lemma never_snoc {A} (says : call -> A -> Prop) calls c :
  never_said says (calls ++ [c]) <-> (forall b, ~ says c b) /\ never_said says calls.
Proof.
  unfold never_said. split.
  - intro H. split; [intro b; apply H; apply in_or_app; right; now left|]. intros x a Hx. apply H. apply in_or_app. now left.
  - intros [H1 H2] x a Hx. apply in_app_or in Hx as [Hx|[<-|[]]]; auto.
Qed.

(** One value. *)
Lemma value_settled {A} (says : call -> A -> Prop) (d : A) (pr : gen_settings -> A) : pr default_settings = d ->
  (forall c s, says c (pr (apply_call c s)) \/ ((forall a, ~ says c a) /\ pr (apply_call c s) = pr s)) ->
  forall calls, settled says d calls (pr (settings_after calls)).
Proof.
  intros Hd Hc. induction calls as [|c calls IH] using rev_ind.
  - right. split; [intros c a []|exact Hd].
  - rewrite after_snoc. unfold settled. rewrite last_snoc, never_snoc. destruct (Hc c (settings_after calls)) as [H|[H1 H2]]; [auto|].
    rewrite H2. destruct IH as [IH|[IH E]]; auto.
Qed.
Lemma opt_settled {A} (says : call -> A -> Prop) (pr : gen_settings -> option A) : pr default_settings = None ->
  (forall c s, (exists a, says c a /\ pr (apply_call c s) = Some a) \/ ((forall a, ~ says c a) /\ pr (apply_call c s) = pr s)) ->
  forall calls, settled_opt says calls (pr (settings_after calls)).
Proof.
  intros Hd Hc. induction calls as [|c calls IH] using rev_ind.
  - change (settings_after []) with default_settings. rewrite Hd. intros c a [].
  - rewrite after_snoc. destruct (Hc c (settings_after calls)) as [(a & H & ->)|[H1 ->]].
    + cbn. apply last_snoc. now left.
    + destruct (pr (settings_after calls)); cbn in *; [apply last_snoc; now right|apply never_snoc; now split].
Qed.

(** Values by name. *)
Lemma named_settled {A} (says : str -> call -> A -> Prop) (pr : gen_settings -> list (str * A)) (ok : list (str * A) -> Prop)
    (ins : str -> A -> list (str * A) -> list (str * A)) : pr default_settings = [] -> ok [] ->
  (forall k v m, ok m -> ok (ins k v m) /\ forall x, In x (ins k v m) <-> x = (k, v) \/ (fst x <> k /\ In x m)) ->
  (forall c s, (exists k v, (forall n a, says n c a <-> n = k /\ a = v) /\ pr (apply_call c s) = ins k v (pr s))
    \/ ((forall n a, ~ says n c a) /\ pr (apply_call c s) = pr s)) ->
  forall calls, ok (pr (settings_after calls)) /\ forall n v, In (n, v) (pr (settings_after calls)) <-> last_said (says n) calls v.
Proof.
  intros Hd H0 Hi Hc. induction calls as [|c calls [IH1 IH2]] using rev_ind.
  - change (settings_after []) with default_settings. rewrite Hd. split; [exact H0|]. intros n v. split; [intros []|].
    intros (pre & x & post & E & _). now destruct pre.
  - rewrite after_snoc. destruct (Hc c (settings_after calls)) as [(k & v & Hs & ->)|[H1 ->]].
    + destruct (Hi k v _ IH1) as [H2 H3]. split; [exact H2|]. intros n w. rewrite H3, last_snoc, Hs, IH2. cbn [fst]. split.
      * intros [[= -> ->]|[Hn H]]; [now left|]. right. split; [|exact H]. intros b Hb. apply Hs in Hb. tauto.
      * intros [[-> ->]|[Hn H]]; [now left|]. right. split; [|exact H]. intros ->. apply (Hn v). now apply Hs.
    + split; [exact IH1|]. intros n w. rewrite last_snoc, IH2. split; [intro H; right; auto|]. intros [H|[_ H]]; [now apply H1 in H|exact H].
Qed.

Lemma hm_step {A} k (v : A) m : NoDup (map fst m) ->
  NoDup (map fst (hm_insert k v m)) /\ forall x, In x (hm_insert k v m) <-> x = (k, v) \/ (fst x <> k /\ In x m).
Proof. intro H. split; [now apply hm_insert_nodup|]. intro x. now apply hm_insert_In. Qed.
Lemma sorted_assoc {A} (m : list (str * A)) : StronglySorted key_lt m -> forall k v, In (k, v) m <-> assoc k m = Some v.
Proof.
  intro Hs. apply sorted_nodup in Hs. intros k v. induction m as [|[k' v'] m IH]; cbn; [easy|].
  inversion Hs as [|? ? Hn Hs']; subst. destruct (str_eqb k k') eqn:E.
  - apply str_eqb_spec in E as <-. split; [|intros [= ->]; auto]. intros [[= ->]|H]; [reflexivity|].
    elim Hn. apply in_map_iff. now exists (k, v).
  - rewrite <- IH by auto. split; [|auto]. intros [[= -> ->]|H]; [now rewrite str_eqb_refl in E|exact H].
Qed.
Lemma bt_step {A} k (v : A) m : StronglySorted key_lt m ->
  StronglySorted key_lt (bt_insert k v m) /\ forall x, In x (bt_insert k v m) <-> x = (k, v) \/ (fst x <> k /\ In x m).
Proof.
  intro H. pose proof (bt_insert_sorted k v m H) as H'. split; [exact H'|]. intros [n w].
  rewrite (sorted_assoc _ H'), (bt_insert_assoc k v m n H), (sorted_assoc _ H). cbn [fst].
  destruct (str_eqb n k) eqn:E.
  - apply str_eqb_spec in E as ->. split; [intros [= ->]; auto|]. intros [[= ->]|[Hn _]]; [reflexivity|now elim Hn].
  - split; [|intros [[= -> ->]|[_ Hn]]; [now rewrite str_eqb_refl in E|exact Hn]].
    intro Ha. right. split; [|exact Ha]. intros ->. now rewrite str_eqb_refl in E.
Qed.

Ltac by_call := let c := fresh in let s := fresh in intros c s; destruct c; cbn;
  first [now left | left; eexists; split; reflexivity | right; split; [intros; discriminate|reflexivity]].

Theorem generator_told calls : told_generator calls (settings_after calls).
Proof.
  split; first [apply value_settled | apply opt_settled]; try reflexivity; by_call.
Qed.

Lemma policy_settled calls : settled (fun c p => c = SetUnknownCrates _ _ _ _ p) PolicyGenerate calls (gs_unknown_crates _ _ _ _ (settings_after calls)).
Proof. apply (value_settled _ _ (gs_unknown_crates _ _ _ _)); [reflexivity|by_call]. Qed.
Lemma map_settled calls : settled_opt (fun c p => c = SetMapType _ _ _ _ p) calls (gs_map_type _ _ _ _ (settings_after calls)).
Proof. apply opt_settled; [reflexivity|by_call]. Qed.
Lemma derives_settled calls : gs_extra_derives _ _ _ _ (settings_after calls) = derives_added calls.
Proof.
  induction calls as [|c calls IH] using rev_ind; [reflexivity|]. rewrite after_snoc. unfold derives_added in *. rewrite flat_map_app, <- IH.
  destruct c; cbn; try (now rewrite app_nil_r). reflexivity.
Qed.
Lemma conversions_settled calls : gs_convert _ _ _ _ (settings_after calls) = conversions_added calls.
Proof.
  induction calls as [|c calls IH] using rev_ind; [reflexivity|]. rewrite after_snoc. unfold conversions_added in *. rewrite flat_map_app, <- IH.
  destruct c; cbn; try (now rewrite app_nil_r). reflexivity.
Qed.

Lemma patches_settled calls : NoDup (map fst (gs_patch _ _ _ _ (settings_after calls)))
  /\ forall n v, In (n, v) (gs_patch _ _ _ _ (settings_after calls)) <-> last_said (fun c p => c = SetPatch _ _ _ _ n p) calls v.
Proof.
  apply (named_settled (fun n c p => c = SetPatch _ _ _ _ n p) (gs_patch _ _ _ _) (fun m => NoDup (map fst m)) hm_insert);
    [reflexivity|constructor|apply @hm_step|].
  intros c s. destruct c; try (right; split; [intros; discriminate|reflexivity]).
  left. exists type_name, patch. split; [|reflexivity]. intros n a. split; [now intros [= -> ->]|now intros [-> ->]].
Qed.
Lemma replacements_settled calls : NoDup (map fst (gs_replace _ _ _ _ (settings_after calls)))
  /\ forall n v, In (n, v) (gs_replace _ _ _ _ (settings_after calls))
     <-> last_said (fun c a => c = SetReplacement _ _ _ _ n (fst a) (snd a)) calls v.
Proof.
  apply (named_settled (fun n c a => c = SetReplacement _ _ _ _ n (fst a) (snd a)) (gs_replace _ _ _ _) (fun m => NoDup (map fst m)) hm_insert);
    [reflexivity|constructor|apply @hm_step|].
  intros c s. destruct c; try (right; split; [intros; discriminate|reflexivity]).
  left. exists type_name, (replace_name, impls). split; [|reflexivity]. intros n [a b]. cbn.
  split; [now intros [= -> -> ->]|now intros [-> [= -> ->]]].
Qed.
Lemma crates_settled calls : StronglySorted key_lt (gs_crates _ _ _ _ (settings_after calls))
  /\ forall n v, In (n, v) (gs_crates _ _ _ _ (settings_after calls))
     <-> last_said (fun c a => c = SetCrate _ _ _ _ n (cs_version a) (cs_rename a)) calls v.
Proof.
  apply (named_settled (fun n c a => c = SetCrate _ _ _ _ n (cs_version a) (cs_rename a)) (gs_crates _ _ _ _)
    (fun m => StronglySorted key_lt m) bt_insert); [reflexivity|constructor|apply @bt_step|].
  intros c s. destruct c; try (right; split; [intros; discriminate|reflexivity]).
  left. exists name, (CrateSpec v rename). split; [|reflexivity]. intros n [a b]. cbn.
  split; [now intros [= -> -> ->]|now intros [-> [= -> ->]]].
Qed.

Lemma settled_unique {A} (says : call -> A -> Prop) d calls v w : (forall c a b, says c a -> says c b -> a = b) ->
  settled says d calls v -> settled says d calls w -> v = w.
Proof.
  intros Hf. revert v w. induction calls as [|c calls IH] using rev_ind; intros v w.
  - intros [(pre & x & post & E & _)|[_ ->]]; [now destruct pre|]. intros [(pre & x & post & E & _)|[_ ->]]; [now destruct pre|reflexivity].
  - unfold settled. rewrite !last_snoc, !never_snoc.
    intros [[H|[Hn H]]|[[Hn H] ->]] [[H'|[Hn' H']]|[[Hn' H'] ->]]; try (now elim (Hn w)); try (now elim (Hn' v)); eauto.
    + apply IH; [now left|now left].
    + apply IH; [now left|now right].
    + apply IH; [now right|now left].
Qed.
Lemma settled_opt_iff {A} (says : call -> A -> Prop) calls o a : (forall c x y, says c x -> says c y -> x = y) ->
  settled_opt says calls o -> (o = Some a <-> last_said says calls a).
Proof.
  intros Hf H. destruct o as [b|]; cbn in H.
  - split; [intros [= <-]; exact H|]. intro H'. f_equal. apply (settled_unique says a calls); [exact Hf|now left|now left].
  - split; [discriminate|]. intros (pre & c & post & -> & Hs & _). elim (H c a); [|exact Hs]. apply in_or_app. right. now left.
Qed.
Lemma settled_iff {A} (says : call -> A -> Prop) d calls v w : (forall c a b, says c a -> says c b -> a = b) ->
  settled says d calls v -> (v = w <-> settled says d calls w).
Proof. intros Hf H. split; [now intros <-|]. intro H'. exact (settled_unique _ _ _ _ _ Hf H H'). Qed.

Theorem typify_told op orr calls : order_ok op -> order_ok orr ->
  told_typify calls (gn_calls _ _ _ _ (generator_new _ _ _ _ op orr (settings_after calls))).
Proof.
  intros Hop Hor. destruct (patches_settled calls) as [Hp1 Hp2]. destruct (replacements_settled calls) as [Hr1 Hr2].
  destruct (crates_settled calls) as [Hc1 Hc2]. cbn [generator_new gn_calls]. split.
  - apply call_mod.
  - intro b. rewrite call_builder. rewrite (settled_iff (fun c i => c = SetInterface _ _ _ _ i) Positional calls _ Builder ltac:(congruence) (tl_interface _ _ (generator_told calls))).
    reflexivity.
  - rewrite calls_derives. apply derives_settled.
  - intro p. rewrite call_unknown. apply settled_iff; [congruence|apply policy_settled].
  - intros n v r. rewrite call_crate, Hc2. clear. split; intros (pre & c & post & E & Hs & Hn); cbn in Hs.
    + exists pre, c, post. split; [exact E|]. split; [exact Hs|]. intros x [b b'] Hx. exact (Hn x (CrateSpec b b') Hx).
    + exists pre, c, post. split; [exact E|]. split; [exact Hs|]. intros x [b b'] Hx. exact (Hn x (b, b') Hx).
  - rewrite calls_crates. now apply sorted_nodup.
  - intros n p. rewrite call_patch by exact Hop. apply Hp2.
  - rewrite calls_patches. apply (Permutation_NoDup (Permutation_map fst (Hop _ _)) Hp1).
  - intros n r i. rewrite call_replace by exact Hor. apply Hr2.
  - rewrite calls_replacements. apply (Permutation_NoDup (Permutation_map fst (Hor _ _)) Hr1).
  - rewrite calls_conversions. apply conversions_settled.
  - intro t. rewrite call_map. apply settled_opt_iff; [congruence|apply map_settled].
Qed.

(** *** Calls about different things *)

Lemma last_swap {A} (says : call -> A -> Prop) pre c c' post a : (forall b b', says c b -> says c' b' -> False) ->
  last_said says (pre ++ c :: c' :: post) a <-> last_said says (pre ++ c' :: c :: post) a.
Proof.
  intro Hd. induction post as [|x post IH] using rev_ind.
  - change [c; c'] with ([c] ++ [c']). change [c'; c] with ([c'] ++ [c]). rewrite !app_assoc, !last_snoc. split.
    + intros [H|[H [H'|[H' H'']]]]; [right; split; [intros b Hb; exact (Hd _ _ Hb H)|now left]|now left|right; split; [exact H'|right; now split]].
    + intros [H|[H [H'|[H' H'']]]]; [right; split; [intros b Hb; exact (Hd _ _ H Hb)|now left]|now left|right; split; [exact H'|right; now split]].
  - change (pre ++ c :: c' :: post ++ [x]) with (pre ++ (c :: c' :: post) ++ [x]).
    change (pre ++ c' :: c :: post ++ [x]) with (pre ++ (c' :: c :: post) ++ [x]). rewrite !app_assoc, !last_snoc, IH. reflexivity.
Qed.
Lemma never_swap {A} (says : call -> A -> Prop) pre c c' post :
  never_said says (pre ++ c :: c' :: post) <-> never_said says (pre ++ c' :: c :: post).
Proof.
  unfold never_said. split; intros H x a Hx; apply (H x a); apply in_app_or in Hx as [Hx|[Hx|[Hx|Hx]]]; apply in_or_app; cbn; auto.
Qed.
Lemma settled_swap {A} (says : call -> A -> Prop) d pre c c' post a : (forall b b', says c b -> says c' b' -> False) ->
  settled says d (pre ++ c :: c' :: post) a -> settled says d (pre ++ c' :: c :: post) a.
Proof. intros Hd. unfold settled. rewrite last_swap, never_swap by exact Hd. auto. Qed.
Lemma settled_opt_swap {A} (says : call -> A -> Prop) pre c c' post o : (forall b b', says c b -> says c' b' -> False) ->
  settled_opt says (pre ++ c :: c' :: post) o -> settled_opt says (pre ++ c' :: c :: post) o.
Proof. intros Hd. destruct o; cbn; [now rewrite last_swap by exact Hd|now rewrite never_swap]. Qed.
Lemma settled_opt_unique {A} (says : call -> A -> Prop) calls o o' : (forall c x y, says c x -> says c y -> x = y) ->
  settled_opt says calls o -> settled_opt says calls o' -> o = o'.
Proof.
  intros Hf H H'. destruct o as [a|].
  - symmetry. apply (settled_opt_iff says calls o' a Hf H'). exact H.
  - destruct o' as [a|]; [|reflexivity]. apply (settled_opt_iff says calls None a Hf H) in H'. exact H'.
Qed.

Lemma subject_sym (c c' : call) : same_subject c c' -> same_subject c' c.
Proof. destruct 1; constructor. Qed.

Theorem swapped op orr op' orr' pre c c' post : order_ok op -> order_ok orr -> order_ok op' -> order_ok orr' -> ~ same_subject c c' ->
  let g := generator_new _ _ _ _ op orr (settings_after (pre ++ c :: c' :: post)) in
  let g' := generator_new _ _ _ _ op' orr' (settings_after (pre ++ c' :: c :: post)) in
  read_settings _ _ _ _ (gn_settings _ _ _ _ g) = read_settings _ _ _ _ (gn_settings _ _ _ _ g')
  /\ Permutation (gn_calls _ _ _ _ g) (gn_calls _ _ _ _ g') /\ derives_in (gn_calls _ _ _ _ g) = derives_in (gn_calls _ _ _ _ g')
  /\ conversions_in (gn_calls _ _ _ _ g) = conversions_in (gn_calls _ _ _ _ g').
Proof.
  intros Hop Hor Hop' Hor' Hd. cbv zeta. cbn [generator_new gn_calls gn_settings].
  set (l := pre ++ c :: c' :: post). set (l' := pre ++ c' :: c :: post).
  destruct (generator_told l) as [A1 A2 A3 A4 A5 A6 A7]. destruct (generator_told l') as [B1 B2 B3 B4 B5 B6 B7].
  assert (E1 : gs_interface _ _ _ _ (settings_after l) = gs_interface _ _ _ _ (settings_after l')).
  { apply (settled_unique (fun c x => c = SetInterface _ _ _ _ x) Positional l' _ _ ltac:(congruence)); [|exact B1]. apply settled_swap; [|exact A1]. intros b b' -> ->. apply Hd. constructor. }
  assert (E2 : gs_tag _ _ _ _ (settings_after l) = gs_tag _ _ _ _ (settings_after l')).
  { apply (settled_unique (fun c x => c = SetTag _ _ _ _ x) Merged l' _ _ ltac:(congruence)); [|exact B2]. apply settled_swap; [|exact A2]. intros b b' -> ->. apply Hd. constructor. }
  assert (E3 : gs_inner_type _ _ _ _ (settings_after l) = gs_inner_type _ _ _ _ (settings_after l')).
  { apply (settled_opt_unique (fun c x => c = SetInnerType _ _ _ _ x) l' _ _ ltac:(congruence)); [|exact B3]. apply settled_opt_swap; [|exact A3]. intros b b' -> ->. apply Hd. constructor. }
  assert (E4 : gs_pre_hook _ _ _ _ (settings_after l) = gs_pre_hook _ _ _ _ (settings_after l')).
  { apply (settled_opt_unique (fun c x => c = SetPreHook _ _ _ _ x) l' _ _ ltac:(congruence)); [|exact B4]. apply settled_opt_swap; [|exact A4]. intros b b' -> ->. apply Hd. constructor. }
  assert (E5 : gs_pre_hook_async _ _ _ _ (settings_after l) = gs_pre_hook_async _ _ _ _ (settings_after l')).
  { apply (settled_opt_unique (fun c x => c = SetPreHookAsync _ _ _ _ x) l' _ _ ltac:(congruence)); [|exact B5]. apply settled_opt_swap; [|exact A5]. intros b b' -> ->. apply Hd. constructor. }
  assert (E6 : gs_post_hook _ _ _ _ (settings_after l) = gs_post_hook _ _ _ _ (settings_after l')).
  { apply (settled_opt_unique (fun c x => c = SetPostHook _ _ _ _ x) l' _ _ ltac:(congruence)); [|exact B6]. apply settled_opt_swap; [|exact A6]. intros b b' -> ->. apply Hd. constructor. }
  assert (E7 : gs_post_hook_async _ _ _ _ (settings_after l) = gs_post_hook_async _ _ _ _ (settings_after l')).
  { apply (settled_opt_unique (fun c x => c = SetPostHookAsync _ _ _ _ x) l' _ _ ltac:(congruence)); [|exact B7]. apply settled_opt_swap; [|exact A7]. intros b b' -> ->. apply Hd. constructor. }
  assert (E8 : gs_unknown_crates _ _ _ _ (settings_after l) = gs_unknown_crates _ _ _ _ (settings_after l')).
  { apply (settled_unique (fun c p => c = SetUnknownCrates _ _ _ _ p) PolicyGenerate l' _ _ ltac:(congruence)); [|apply policy_settled].
    apply settled_swap; [|apply policy_settled]. intros b b' -> ->. apply Hd. constructor. }
  assert (E9 : gs_map_type _ _ _ _ (settings_after l) = gs_map_type _ _ _ _ (settings_after l')).
  { apply (settled_opt_unique (fun c p => c = SetMapType _ _ _ _ p) l' _ _ ltac:(congruence)); [|apply map_settled].
    apply settled_opt_swap; [|apply map_settled]. intros b b' -> ->. apply Hd. constructor. }
  assert (E10 : gs_extra_derives _ _ _ _ (settings_after l) = gs_extra_derives _ _ _ _ (settings_after l')).
  { rewrite !derives_settled. unfold derives_added, l, l'. rewrite !flat_map_app. cbn [flat_map]. f_equal. rewrite !app_assoc. f_equal.
    clear - Hd. destruct c; try (cbn; now rewrite app_nil_r). destruct c'; try reflexivity. elim Hd. constructor. }
  assert (E11 : gs_convert _ _ _ _ (settings_after l) = gs_convert _ _ _ _ (settings_after l')).
  { rewrite !conversions_settled. unfold conversions_added, l, l'. rewrite !flat_map_app. cbn [flat_map]. f_equal. rewrite !app_assoc. f_equal.
    clear - Hd. destruct c; try (cbn; now rewrite app_nil_r). destruct c'; try reflexivity. elim Hd. constructor. }
  assert (E12 : gs_crates _ _ _ _ (settings_after l) = gs_crates _ _ _ _ (settings_after l')).
  { destruct (crates_settled l) as [S1 S2]. destruct (crates_settled l') as [S3 S4]. apply sorted_ext; auto. intro n.
    assert (Hx : forall v, assoc n (gs_crates _ _ _ _ (settings_after l)) = Some v <-> assoc n (gs_crates _ _ _ _ (settings_after l')) = Some v).
    { intro v. rewrite <- (sorted_assoc _ S1), <- (sorted_assoc _ S3), S2, S4. apply last_swap. intros b b' -> ->. apply Hd. constructor. }
    destruct (assoc n (gs_crates _ _ _ _ (settings_after l))) as [v|]; [symmetry; now apply Hx|].
    destruct (assoc n (gs_crates _ _ _ _ (settings_after l'))) as [v|]; [now apply Hx|reflexivity]. }
  assert (E13 : Permutation (gs_patch _ _ _ _ (settings_after l)) (gs_patch _ _ _ _ (settings_after l'))).
  { destruct (patches_settled l) as [S1 S2]. destruct (patches_settled l') as [S3 S4].
    apply NoDup_Permutation; try (now apply nodup_of_keys). intros [n v]. rewrite S2, S4. apply last_swap. intros b b' -> ->. apply Hd. constructor. }
  assert (E14 : Permutation (gs_replace _ _ _ _ (settings_after l)) (gs_replace _ _ _ _ (settings_after l'))).
  { destruct (replacements_settled l) as [S1 S2]. destruct (replacements_settled l') as [S3 S4].
    apply NoDup_Permutation; try (now apply nodup_of_keys). intros [n v]. rewrite S2, S4. apply last_swap. intros b b' -> ->. apply Hd. constructor. }
  split; [unfold read_settings; congruence|]. rewrite !calls_derives, !calls_conversions. split; [|auto].
  unfold type_calls. rewrite E1, E8, E9, E10, E11, E12. apply Permutation_app_head, Permutation_app_head, Permutation_app_head, Permutation_app_head.
  apply Permutation_app; [|apply Permutation_app; [|reflexivity]]; apply Permutation_map.
  - rewrite <- (Hop _ _), <- (Hop' _ _). exact E13.
  - rewrite <- (Hor _ _), <- (Hor' _ _). exact E14.
Qed.
End Script.

(** Generators do not tell such documents apart. *)
From Coq Require Import Sorted.
From Verif Require Import Base OasModel TemplateModel MethodModel OpModel BuilderModel SanitizeModel GenerateModel MockModel CliModel
  RefSpec RefProofs ParamSpec ParamProofs DocSpec SupportSpec FailSpec FailProofs AlikeSpec.
Local Open Scope N_scope.

Lemma same_refl {A} (x : outcome A) : same_outcome x x.
Proof. now destruct x. Qed.
Lemma same_bind {A B} (x x' : outcome A) (f f' : A -> outcome B) : same_outcome x x' -> (forall a, same_outcome (f a) (f' a)) ->
  same_outcome (obind x f) (obind x' f').
Proof. destruct x, x'; cbn; try easy; intros H Hf; subst; auto. Qed.
Lemma same_mapM {A A' B} (f : A -> outcome B) (f' : A' -> outcome B) l l' : Forall2 (fun a a' => same_outcome (f a) (f' a')) l l' ->
  same_outcome (mapM f l) (mapM f' l').
Proof.
  induction 1 as [|a a' l l' H _ IH]; cbn [mapM]; [reflexivity|]. apply same_bind; [exact H|]. intro b.
  apply same_bind; [exact IH|]. intro; apply same_refl.
Qed.

Lemma same_item {A} (get : components -> list (str * ref_or A)) comps comps' r r' : alike get comps comps' r r' ->
  same_outcome (item get comps r) (item get comps' r').
Proof.
  intro H. destruct (item get comps r) as [a|e|m] eqn:E; [|now elim (item_never_err _ _ _ _ E)|].
  - apply item_ok_iff, H, item_ok_iff in E. rewrite E. reflexivity.
  - destruct (item get comps' r') as [a|e|m'] eqn:E'; [|now elim (item_never_err _ _ _ _ E')|exact Logic.I].
    apply item_ok_iff, H, item_ok_iff in E'. congruence.
Qed.

Lemma items_there comps l : all_there comps l <-> exists ps, Forall2 (resolves co_parameters comps) l ps.
Proof.
  split.
  - induction l as [|r l IH]; intro H; [exists []; constructor|]. destruct (H r (or_introl eq_refl)) as (p & Hp).
    destruct IH as (ps & Hps); [intros r' Hr; apply H; now right|]. exists (p :: ps). now constructor.
  - intros (ps & H) r Hr. induction H as [|a b l ps Hab _ IH]; [easy|]. destruct Hr as [->|Hr]; [eauto|auto].
Qed.
Lemma items_panic comps l : ~ all_there comps l -> exists m, items co_parameters l comps = Panic m.
Proof.
  intro H. destruct (items co_parameters l comps) as [ps|e|m] eqn:E; [| |eauto].
  - elim H. apply items_there. exists ps. apply mapM_ok in E. eapply forall2_impl; [|exact E]. intros a b. apply item_ok_iff.
  - exfalso. revert E. unfold items. clear H. induction l as [|r l IH]; cbn [mapM]; [discriminate|].
    destruct (item co_parameters comps r) as [a|e'|m'] eqn:Ei; cbn [obind]; [|now elim (item_never_err _ _ _ _ Ei)|discriminate].
    destruct (mapM _ l); cbn [obind]; try discriminate. intros [= ->]. now apply IH.
Qed.

Lemma combined_alike others own others' own' : (forall p, effective others own p <-> effective others' own' p) ->
  combined others own = combined others' own'.
Proof.
  intro H. apply sorted_ext; try apply combined_sorted. intro n.
  assert (K : forall a b p, assoc n (combined a b) = Some p <-> In (n, p) (combined a b)).
  { intros a b p. split; [apply assoc_In|]. intro Hi. apply assoc_nodup_In; [|exact Hi]. rewrite combined_names. apply combined_nodup. }
  destruct (assoc n (combined others own)) as [p|] eqn:E.
  - apply K, combined_In in E as (E & En). symmetry. apply K, combined_In. split; [now apply H|exact En].
  - destruct (assoc n (combined others' own')) as [p|] eqn:E'; [|reflexivity].
    apply K, combined_In in E' as (E' & En). assert (Hi : In (n, p) (combined others own)) by (apply combined_In; split; [now apply H|exact En]).
    apply K in Hi. congruence.
Qed.

Section Operation.
Variables (snake pascal : str -> str) (ts : type_space) (comps comps' : option components) (shared shared' : list (ref_or parameter)) (op op' : operation).
Hypothesis H : operation_alike comps comps' shared shared' op op'.
Hypothesis Hs : forall r, alike co_schemas comps comps' r r.

Lemma same_body oid : same_outcome (get_body_param pascal ts oid (op_request_body op) comps) (get_body_param pascal ts oid (op_request_body op') comps').
Proof.
  pose proof (oa_body _ _ _ _ _ _ H) as Hb. destruct (op_request_body op) as [b|], (op_request_body op') as [b'|]; cbn in Hb; try easy.
  unfold get_body_param. apply same_bind; [now apply same_item|]. intro x.
  destruct (rb_content x) as [|[cs mt] [|? ?]]; try apply same_refl.
  destruct (mt_schema mt) as [sch|]; [|apply same_refl]. apply same_bind; [apply same_refl|]. intro ct.
  apply same_bind; [|intro; apply same_refl].
  destruct ct; try apply same_refl; (apply same_bind; [apply same_item, Hs|intro; apply same_refl]).
Qed.

Lemma same_answers oid ws : same_outcome (process_responses pascal ts oid ws comps op) (process_responses pascal ts oid ws comps' op').
Proof.
  unfold process_responses. apply same_bind; [|intro; apply same_refl]. apply same_mapM.
  assert (G : forall s r r', alike co_responses comps comps' r r' ->
    same_outcome (process_response pascal ts oid ws comps (s, r)) (process_response pascal ts oid ws comps' (s, r'))).
  { intros s r r' Hr. unfold process_response. apply same_bind; [now apply same_item|]. intro doc. apply same_refl. }
  unfold documented. apply Forall2_app.
  - pose proof (oa_default _ _ _ _ _ _ H) as Hd. destruct (op_default op), (op_default op'); cbn in Hd; try easy. constructor; auto.
  - pose proof (oa_answers _ _ _ _ _ _ H) as Ha. induction Ha as [|[a r] [a' r'] l l' (E & Hr) _ IH]; cbn; constructor; auto.
    cbn in E, Hr |- *. subst a'. now apply G.
Qed.

Lemma same_operation path verb : same_outcome (process_operation snake pascal ts op comps path verb shared)
  (process_operation snake pascal ts op' comps' path verb shared').
Proof.
  unfold process_operation. rewrite <- (oa_id _ _ _ _ _ _ H). destruct (op_id op) as [oid|]; [|exact Logic.I].
  rewrite <- (oa_extended _ _ _ _ _ _ H), <- (oa_tagged _ _ _ _ _ _ H), <- (oa_summary _ _ _ _ _ _ H), <- (oa_described _ _ _ _ _ _ H).
  pose proof (oa_there _ _ _ _ _ _ H) as Ht. pose proof (oa_counts _ _ _ _ _ _ H) as Hc.
  unfold parameter_map.
  assert (D : forall c l l2, (exists m, items co_parameters l c = Panic m) \/ (exists ps, items co_parameters l c = Ok ps /\ (exists m, items co_parameters l2 c = Panic m))
    \/ exists ps qs, items co_parameters l c = Ok ps /\ items co_parameters l2 c = Ok qs
      /\ Forall2 (resolves co_parameters c) l ps /\ Forall2 (resolves co_parameters c) l2 qs).
  { intros c l l2. assert (N : forall l e, items co_parameters l c <> Err e).
    { clear. unfold items. induction l as [|r l IH]; cbn [mapM]; intros e; [discriminate|].
      destruct (item co_parameters c r) as [a|e'|m'] eqn:Ei; cbn [obind]; [|now elim (item_never_err _ _ _ _ Ei)|discriminate].
      specialize (IH e). destruct (mapM _ l); cbn [obind]; try discriminate. congruence. }
    assert (R : forall l ps, items co_parameters l c = Ok ps -> Forall2 (resolves co_parameters c) l ps).
    { intros l0 ps E. apply mapM_ok in E. eapply forall2_impl; [|exact E]. intros a b. apply item_ok_iff. }
    destruct (items co_parameters l c) as [ps|e|m] eqn:E1; [|now elim (N _ _ E1)|left; eauto].
    destruct (items co_parameters l2 c) as [qs|e|m] eqn:E2; [|now elim (N _ _ E2)|right; left; eauto].
    right; right. exists ps, qs. auto. }
  assert (Hno : forall c l l2, (exists m, items co_parameters l c = Panic m) \/ (exists ps, items co_parameters l c = Ok ps /\ (exists m, items co_parameters l2 c = Panic m)) ->
    ~ all_there c (l ++ l2)).
  { intros c l l2 Hp Ha.
    assert (K : forall l0, all_there c l0 -> exists ps, items co_parameters l0 c = Ok ps).
    { intros l0 Hl. destruct (items co_parameters l0 c) as [ps|e|m] eqn:E; [eauto| |]; exfalso.
      - destruct (proj1 (items_there c l0) Hl) as (ps & Hps). assert (E' : items co_parameters l0 c = Ok ps); [|congruence].
        clear -Hps. unfold items. induction Hps as [|a b l r Hab _ IH]; cbn [mapM]; [reflexivity|]. apply item_ok_iff in Hab. rewrite Hab. cbn [obind]. now rewrite IH.
      - destruct (proj1 (items_there c l0) Hl) as (ps & Hps). assert (E' : items co_parameters l0 c = Ok ps); [|congruence].
        clear -Hps. unfold items. induction Hps as [|a b l r Hab _ IH]; cbn [mapM]; [reflexivity|]. apply item_ok_iff in Hab. rewrite Hab. cbn [obind]. now rewrite IH. }
    destruct Hp as [(m & Hm)|(ps & _ & m & Hm)].
    - destruct (K l) as (? & E); [intros r Hr; apply Ha, in_or_app; auto|congruence].
    - destruct (K l2) as (? & E); [intros r Hr; apply Ha, in_or_app; auto|congruence]. }
  assert (Hyes : forall c l l2 ps qs, Forall2 (resolves co_parameters c) l ps -> Forall2 (resolves co_parameters c) l2 qs -> all_there c (l ++ l2)).
  { intros c l l2 ps qs F1 F2. apply items_there. exists (ps ++ qs). now apply Forall2_app. }
  destruct (D comps shared (op_parameters op)) as [(m & E)|[(ps & E1 & m & E)|(ps & qs & E1 & E2 & F1 & F2)]];
  destruct (D comps' shared' (op_parameters op')) as [(m' & E')|[(ps' & E1' & m' & E')|(ps' & qs' & E1' & E2' & F1' & F2')]].
  1: now rewrite E, E'.
  1: rewrite E, E1'; cbn [obind]; now rewrite E'.
  2: rewrite E1; cbn [obind]; now rewrite E, E'.
  2: rewrite E1, E1'; cbn [obind]; now rewrite E, E'.
  5: { rewrite E1, E1'. cbn [obind]. rewrite E2, E2'. cbn [obind].
    assert (Ecomb : combined ps qs = combined ps' qs').
    { apply combined_alike. intro p. split; intro He.
      - destruct (proj1 (Hc p) (counts_intro _ _ _ _ _ _ F1 F2 He)) as [o1 o2 G1 G2 He'].
        rewrite (resolves_all_fun _ _ _ _ _ F1' G1), (resolves_all_fun _ _ _ _ _ F2' G2). exact He'.
      - destruct (proj2 (Hc p) (counts_intro _ _ _ _ _ _ F1' F2' He)) as [o1 o2 G1 G2 He'].
        rewrite (resolves_all_fun _ _ _ _ _ F1 G1), (resolves_all_fun _ _ _ _ _ F2 G2). exact He'. }
    unfold combined in Ecomb. rewrite Ecomb. apply same_bind; [apply same_refl|]. intro params.
    apply same_bind; [apply same_body|]. intro body. apply same_bind; [apply same_refl|]. intro tmp. apply same_bind; [apply same_refl|]. intro sorted.
    apply same_bind; [apply same_answers|]. intro responses. apply same_refl. }
  all: exfalso.
  - apply (Hno comps shared (op_parameters op)); [left; eauto|]. apply Ht. exact (Hyes _ _ _ _ _ F1' F2').
  - apply (Hno comps shared (op_parameters op)); [right; eauto|]. apply Ht. exact (Hyes _ _ _ _ _ F1' F2').
  - apply (Hno comps' shared' (op_parameters op')); [left; eauto|]. apply Ht. exact (Hyes _ _ _ _ _ F1 F2).
  - apply (Hno comps' shared' (op_parameters op')); [right; eauto|]. apply Ht. exact (Hyes _ _ _ _ _ F1 F2).
Qed.
End Operation.

(** ** Documents *)

Section Document.
Variables (U : unicode) (d d' : openapi).
Hypothesis H : document_alike d d'.

Lemma schemas_alike r : alike co_schemas (oa_components d) (oa_components d') r r.
Proof.
  assert (G : forall d d', component_schemas d = component_schemas d' -> forall r x,
    resolves co_schemas (oa_components d) r x -> resolves co_schemas (oa_components d') r x).
  { clear. intros d d' E r x Hr. induction Hr as [a|reference key c r a Ec Hl Ha _ IH]; [constructor|].
    unfold component_schemas in E. rewrite Ec in E. destruct (oa_components d') as [c'|] eqn:Ec'.
    - apply (res_ref _ _ reference key c' r a eq_refl Hl); [now rewrite <- E|exact IH].
    - rewrite E in Ha. discriminate. }
  intro x. split; apply G; [|symmetry]; exact (da_schemas _ _ H).
Qed.

Lemma iter_alike i i' : item_alike (oa_components d) (oa_components d') i i' ->
  Forall2 (fun a b => fst a = fst b /\ operation_alike (oa_components d) (oa_components d') (pi_parameters i) (pi_parameters i') (snd a) (snd b))
    (path_item_iter i) (path_item_iter i').
Proof.
  intro Hi. unfold item_alike in Hi.
  repeat match goal with Hf : Forall _ (_ :: _) |- _ => let a := fresh "G" in let b := fresh "F" in inversion Hf as [|? ? a b]; clear Hf; subst end.
  unfold path_item_iter. cbn [flat_map].
  repeat match goal with G : both _ (?v i) (?v i') |- _ => revert G; destruct (v i), (v i'); cbn; intro G; try easy end;
  repeat (constructor; [auto|]); constructor.
Qed.

Lemma same_path ts : Forall2 (fun p p' => same_outcome (process_path U ts (oa_components d) p) (process_path U ts (oa_components d') p'))
  (oa_paths d) (oa_paths d').
Proof.
  pose proof (da_paths _ _ H) as Hp. eapply forall2_impl; [|exact Hp]. intros [path r] [path' r'] (E & Hi). cbn in E, Hi. subst path'.
  unfold process_path. cbn [fst snd]. destruct r as [x|i], r' as [x'|i']; try easy. apply iter_alike in Hi. apply same_mapM.
  eapply forall2_impl; [|exact Hi]. intros [v o] [v' o'] (Ev & Ho). cbn in Ev, Ho |- *. subst v'. apply same_operation; [exact Ho|exact schemas_alike].
Qed.

Lemma same_validity : validate_openapi U d = validate_openapi U d'.
Proof.
  unfold validate_openapi. rewrite <- (da_openapi _ _ H). destruct (validate_openapi_spec_version U (oa_openapi d)); cbn [obind]; auto.
  enough (E : validate_paths (oa_paths d) [] = validate_paths (oa_paths d') []) by now rewrite E.
  pose proof (da_paths _ _ H) as Hp. generalize (@nil str). induction Hp as [|[path r] [path' r'] l l' (E & Hi) _ IH]; intro seen; [reflexivity|].
  cbn [fst snd] in E, Hi. cbn [validate_paths]. subst path'. destruct r as [x|i], r' as [x'|i']; try easy.
  assert (Ev : forall seen, validate_operations path (path_item_iter i) seen = validate_operations path (path_item_iter i') seen).
  { apply iter_alike in Hi. clear -Hi. induction Hi as [|[v o] [v' o'] l l' (_ & Ho) _ IH]; intro seen; [reflexivity|].
    cbn in Ho |- *. rewrite <- (oa_id _ _ _ _ _ _ Ho). destruct (op_id o) as [oid|]; [|reflexivity]. destruct (mem oid seen); [reflexivity|apply IH]. }
  rewrite Ev. destruct (validate_operations path (path_item_iter i') seen); cbn [obind]; auto.
Qed.

Variable add_ref_types : list (str * ref_or schema) -> outcome type_space.

Lemma same_reading {A} (f f' : list (list op_method) -> outcome A) : (forall g, same_outcome (f g) (f' g)) ->
  same_outcome (do _ <- validate_openapi U d; do ts <- add_ref_types (match oa_components d with Some c => co_schemas c | None => [] end);
     do groups <- mapM (process_path U ts (oa_components d)) (oa_paths d); f groups)
    (do _ <- validate_openapi U d'; do ts <- add_ref_types (match oa_components d' with Some c => co_schemas c | None => [] end);
     do groups <- mapM (process_path U ts (oa_components d')) (oa_paths d'); f' groups).
Proof.
  intro Hf. fold (component_schemas d) (component_schemas d'). rewrite same_validity, (da_schemas _ _ H).
  apply same_bind; [apply same_refl|]. intros _. apply same_bind; [apply same_refl|]. intro ts.
  apply same_bind; [apply same_mapM, same_path|]. exact Hf.
Qed.

Lemma same_client types s : same_outcome (generate_tokens U add_ref_types types s d) (generate_tokens U add_ref_types types s d').
Proof.
  unfold generate_tokens. apply same_reading. intro g. cbv zeta. unfold client_docstring.
  rewrite (da_title _ _ H), (da_description _ _ H), (da_terms _ _ H), (da_version _ _ H), (da_tags _ _ H). apply same_refl.
Qed.
Lemma same_mock types is_path crate : same_outcome (httpmock U add_ref_types types is_path d crate) (httpmock U add_ref_types types is_path d' crate).
Proof. unfold httpmock. apply same_reading. intro g. apply same_refl. Qed.
Lemma same_cli types is_path crate : same_outcome (cli U types is_path add_ref_types d crate) (cli U types is_path add_ref_types d' crate).
Proof. unfold cli. apply same_reading. intro g. apply same_refl. Qed.
End Document.

(** ** References written out *)

Section Written.
Variable comps : option components.

Lemma written_alike {A} (get : components -> list (str * ref_or A)) r r' : written_out get comps r r' -> alike get comps comps r r'.
Proof.
  intros [r0|r0 x Hx] y; [reflexivity|]. split.
  - intro Hy. rewrite (resolves_fun _ _ _ _ _ Hy Hx). constructor.
  - intro Hy. inversion Hy; subst. exact Hx.
Qed.
Lemma both_impl {A B} (R R' : A -> B -> Prop) a b : (forall x y, R x y -> R' x y) -> both R a b -> both R' a b.
Proof. intros H. destruct a, b; cbn; auto. Qed.

Lemma written_resolve l l' : Forall2 (written_out co_parameters comps) l l' -> forall xs,
  Forall2 (resolves co_parameters comps) l xs <-> Forall2 (resolves co_parameters comps) l' xs.
Proof.
  induction 1 as [|a b l l' Hab _ IH]; intro xs; [reflexivity|]. apply written_alike in Hab.
  split; intro Hf; inversion Hf as [|? x ? ? Ha Hl]; subst; constructor; try (now apply Hab); now apply IH.
Qed.

Lemma written_operation shared shared' op op' : Forall2 (written_out co_parameters comps) shared shared' ->
  operation_written comps op op' -> operation_alike comps comps shared shared' op op'.
Proof.
  intros Hs [E1 E2 E3 E4 E5 Hp Hb Hd Ha]. split; auto.
  - rewrite !items_there. pose proof (written_resolve _ _ (Forall2_app Hs Hp)) as Hr. split; intros (xs & Hx); exists xs; now apply Hr.
  - intro p. split; intros [o w Ho Hw He]; apply (counts_intro _ _ _ _ o w); auto; try (now apply (written_resolve _ _ Hs)); now apply (written_resolve _ _ Hp).
  - revert Hb. apply both_impl. intros; now apply written_alike.
  - revert Hd. apply both_impl. intros; now apply written_alike.
  - eapply forall2_impl; [|exact Ha]. intros a b (E & Hw). split; [exact E|now apply written_alike].
Qed.
End Written.

Lemma written_document d d' : document_written d d' -> document_alike d d'.
Proof.
  intros [paths Hp]. split; try reflexivity. cbn. eapply forall2_impl; [|exact Hp]. intros [n r] [n' r'] (E & Hr). split; [exact E|].
  cbn in Hr |- *. destruct r, r'; auto. destruct Hr as [Hs Ho]. unfold item_alike. eapply Forall_impl; [|exact Ho].
  intros verb. apply both_impl. intros op op' H. now apply written_operation.
Qed.

(** ** Telling that documents are alike *)

Lemma alike_computed {A} (get : components -> list (str * ref_or A)) c c' r r' x : item get c r = Ok x -> item get c' r' = Ok x -> alike get c c' r r'.
Proof.
  intros H H' y. rewrite <- !item_ok_iff. rewrite H, H'. reflexivity.
Qed.
Lemma there_computed c l ps : items co_parameters l c = Ok ps -> all_there c l.
Proof.
  intro H. apply items_there. exists ps. apply mapM_ok in H. eapply forall2_impl; [|exact H]. intros a b. apply item_ok_iff.
Qed.
Lemma counts_computed c shared own ps qs p : items co_parameters shared c = Ok ps -> items co_parameters own c = Ok qs ->
  counts c shared own p <-> In p (map snd (combined ps qs)).
Proof.
  intros H1 H2.
  assert (R : forall l xs, items co_parameters l c = Ok xs -> Forall2 (resolves co_parameters c) l xs).
  { intros l xs E. apply mapM_ok in E. eapply forall2_impl; [|exact E]. intros a b. apply item_ok_iff. }
  apply R in H1, H2. rewrite combined_effective. split.
  - intros [o w Ho Hw He]. rewrite (resolves_all_fun _ _ _ _ _ H1 Ho), (resolves_all_fun _ _ _ _ _ H2 Hw). exact He.
  - intro He. exact (counts_intro _ _ _ _ _ _ H1 H2 He).
Qed.

(** Builders that compile run. *)
From Coq Require Import Permutation.
From Verif Require Import Base ClientModel MethodModel OpModel RunModel BuilderModel StreamModel GenerateModel CompileSpec CompileItemSpec
  CompileProofs.
Local Open Scope N_scope.

Lemma assoc_permutation {A} (l l' : list (str * A)) x : Permutation l l' -> NoDup (map fst l) -> assoc x l = assoc x l'.
Proof.
  intros P Hnd. destruct (assoc x l) as [v|] eqn:E.
  - symmetry. apply assoc_nodup_In; [eapply Permutation_NoDup; [apply Permutation_map, P|exact Hnd]|].
    apply (Permutation_in _ P). now apply assoc_In.
  - symmetry. apply assoc_None. apply assoc_None in E. intro H. apply E.
    eapply Permutation_in; [apply Permutation_sym, Permutation_map, P|exact H].
Qed.

Section Run.
Variable has : type_id -> rust_trait -> Prop.
Variable ts : type_space.
Variable B : Type.
Variable b_default : type_id -> B.
Variable b_from : type_id -> value -> B.
Variable b_try_from : type_id -> B -> result value str.
Variable c : builder_code.
Hypothesis Hok : builder_code_ok has ts c.

Inductive field_fits : field B -> field_type -> Prop :=
| ff_req r : field_fits (FReq r) FtRequired
| ff_opt r : field_fits (FOpt r) FtOptional
| ff_builder r t : field_fits (FBuilder r) (FtBuilder t).
Definition state_fits (fs : list builder_field) (st : list (str * field B)) : Prop :=
  Forall2 (fun f x => fst x = bf_name f /\ field_fits (snd x) (bf_type f)) fs st.

Lemma new_fits fs : Forall (fun f => initial_ok (bf_type f) (bf_initial f)) fs ->
  exists st, new_fields B b_default fs = Some st /\ state_fits fs st.
Proof.
  induction 1 as [|f fs Hi _ (st & E & F)]; [exists []; split; [reflexivity|constructor]|]. cbn [new_fields].
  assert (H : exists x, initial_field B b_default f = Some x /\ field_fits x (bf_type f)).
  { unfold initial_field. destruct (bf_type f), (bf_initial f); inversion Hi; eexists; split; try reflexivity; constructor. }
  destruct H as (x & -> & Hx). rewrite E. eexists. split; [reflexivity|]. now constructor.
Qed.

Lemma assign_fits fs st n x f : state_fits fs st -> find_field n fs = Some f -> field_fits x (bf_type f) ->
  state_fits fs (assign B n x st).
Proof.
  induction 1 as [|g [k y] fs st (E & Hy) F IH]; [easy|]. cbn [find_field assign fst snd] in *. subst k.
  destruct (str_eqb (bf_name g) n); intros Hf Hx.
  - injection Hf as ->. now constructor.
  - constructor; [now split|now apply IH].
Qed.

Lemma find_field_in n fs : In n (map bf_name fs) -> exists f, find_field n fs = Some f /\ In f fs /\ bf_name f = n.
Proof.
  induction fs as [|g fs IH]; [easy|]. cbn [map In find_field]. destruct (str_eqb (bf_name g) n) eqn:E.
  - apply str_eqb_spec in E. intros _. exists g. cbn. auto.
  - apply str_eqb_neq in E. intros [H|H]; [easy|]. destruct (IH H) as (f & ? & ? & ?). exists f. cbn. auto.
Qed.

Lemma fits_lookup fs st f : state_fits fs st -> NoDup (map bf_name fs) -> In f fs ->
  exists x, assoc (bf_name f) st = Some x /\ field_fits x (bf_type f).
Proof.
  induction 1 as [|g [k y] fs st (E & Hy) F IH]; [easy|]. cbn [map assoc fst snd] in *. subst k.
  inversion 1 as [|? ? Hn Hnd]; subst. intros [->|Hi].
  - rewrite str_eqb_refl. eauto.
  - destruct (str_eqb (bf_name f) (bf_name g)) eqn:E; [|auto]. apply str_eqb_spec in E. exfalso. apply Hn. rewrite <- E. now apply in_map.
Qed.

Lemma names_once : NoDup (map bf_name (bc_fields c)).
Proof. pose proof (bk_fields _ _ _ Hok) as H. now inversion H. Qed.

Lemma call_fits st call : state_fits (bc_fields c) st -> offered c call ->
  exists st', apply_call B b_from (bc_fields c) st call = Some st' /\ state_fits (bc_fields c) st'.
Proof.
  intros F Ho. pose proof (bk_setters _ _ _ Hok) as Hs. rewrite Forall_forall in Hs. destruct call as [n conv|g]; cbn in Ho |- *.
  - destruct (find_field_in n (bc_fields c) Ho) as (f & E & Hf & En). rewrite E.
    assert (H : exists x, set_value B b_from (bf_type f) (bf_setter f) conv = Some x /\ field_fits x (bf_type f)).
    { destruct (Hs f Hf); eexists; (split; [reflexivity|]); constructor. }
    destruct H as (x & -> & Hx). eexists. split; [reflexivity|]. eapply assign_fits; eauto.
  - destruct Ho as (f & t & msg & Hf & Es). pose proof (Hs f Hf) as H. rewrite Es in H.
    assert (Eb : bf_name f = lit "body" /\ bf_type f = FtBuilder t) by (inversion H; auto). destruct Eb as (Eb & Et).
    destruct (find_field_in (lit "body") (bc_fields c)) as (f' & E & Hf' & En); [rewrite <- Eb; now apply in_map|].
    assert (f' = f) as ->.
    { pose proof names_once as Hnd. revert Hnd Hf Hf'. rewrite <- Eb in En. revert En. clear.
      induction (bc_fields c) as [|a l IH]; [easy|]. cbn. intros En Hnd. inversion Hnd as [|? ? Hn Hnd']; subst.
      intros [->|H1] [->|H2]; auto; exfalso; apply Hn; [rewrite <- En|rewrite En]; now apply in_map. }
    rewrite E, Es. destruct (fits_lookup _ _ _ F names_once Hf) as (x & Ex & Hx). rewrite Eb in Ex. rewrite Ex.
    rewrite Et in Hx. inversion Hx; subst. eexists. split; [reflexivity|]. eapply assign_fits; [exact F|exact E|]. rewrite Et. constructor.
Qed.

Lemma build_fits cs : Forall (offered c) cs ->
  exists st, build B b_default b_from (bc_fields c) cs = Some st /\ state_fits (bc_fields c) st.
Proof.
  intro Hcs. unfold build. destruct (new_fits _ (bk_initial _ _ _ Hok)) as (st & -> & F). revert st F.
  induction Hcs as [|x cs Hx _ IH]; intros st F; cbn [apply_calls]; [eauto|].
  destruct (call_fits st x F Hx) as (st' & -> & F'). now apply IH.
Qed.

Section Send.
Variable V : Type.
Variable ctx : context.
Variable fs : type_id -> list N -> result V jerr.
Variable W : Type.
Variable ops : world_ops W.
Hypothesis Hops : forall q w r w', w_execute ops q w = (ROk r, w') -> r_status r < 65536.

Lemma finalize_one p ty fin v x : finalized p ty fin v -> field_fits x ty ->
  exists r, finalize_field B b_try_from fin x = Some r /\ (forall b, r = ROk b -> fits b v /\ sane b).
Proof.
  intros Hv Hx. destruct Hv as [t Ep|t Ep|t Ep|Ep|t Ep]; inversion Hx as [r|r|r t']; subst; cbn [finalize_field];
    (eexists; split; [reflexivity|]); intros b; destruct r as [v|e]; try discriminate.
  - intros [= <-]. split; [constructor|exact I].
  - intros [= <-]. split; [constructor|exact I].
  - intros [= <-]. split; [constructor|exact I].
  - intros [= <-]. split; [constructor|exact I].
  - destruct (b_try_from t v) as [u|e]; [|discriminate]. intros [= <-]. split; [constructor|exact I].
Qed.

Lemma finalize_fits fl vs st : Forall2 (fun f v => finalized (bf_param f) (bf_type f) (bf_finalize f) v) fl vs ->
  (forall f, In f fl -> exists x, assoc (bf_name f) st = Some x /\ field_fits x (bf_type f)) -> forall env G, env_fits env G ->
  (exists e, finalize_all B b_try_from fl st env = Some (RErr e))
  \/ exists env', finalize_all B b_try_from fl st env = Some (ROk env') /\ env_fits env' (rev (combine (map bf_name fl) vs) ++ G).
Proof.
  induction 1 as [|f v fl vs Hv _ IH]; intros Hst env G F; cbn [finalize_all].
  - right. exists env. split; [reflexivity|exact F].
  - destruct (Hst f (or_introl eq_refl)) as (x & -> & Hx).
    assert (H : exists r, finalize_field B b_try_from (bf_finalize f) x = Some r /\ (forall b, r = ROk b -> fits b v /\ sane b)).
    { now apply (finalize_one (bf_param f) (bf_type f)). }
    destruct H as (r & -> & Hr). destruct r as [b|e]; [|left; eauto]. destruct (Hr b eq_refl) as (Hf & Hs).
    destruct (IH (fun g Hg => Hst g (or_intror Hg)) _ _ (fits_cons env G (bf_name f) b v F Hf Hs)) as [H|(env' & E & F')]; [now left|].
    right. exists env'. split; [exact E|]. cbn [map combine rev]. rewrite <- app_assoc. exact F'.
Qed.

Theorem builder_runs cs st w : Forall (offered c) cs ->
  build B b_default b_from (bc_fields c) cs = Some st ->
  fst (fst (send B b_try_from V ctx fs W ops c st w)) <> DoesNotCompile.
Proof.
  intros Hcs Hst. destruct (build_fits cs Hcs) as (st' & E & F). rewrite E in Hst. injection Hst as ->.
  destruct (bk_send _ _ _ Hok) as (vs & Hvs & Hb). unfold send.
  destruct (finalize_fits (bc_fields c) vs st Hvs) with (env := @nil (str * binding)) (G := @nil (str * var_type)) as [(e & ->)|(env & -> & He)].
  - intros f Hf. exact (fits_lookup _ _ _ F names_once Hf).
  - intro x. reflexivity.
  - easy.
  - unfold run. eapply (body_runs has V ctx fs W ops Hops); [exact Hb|]. intro x. specialize (He x). rewrite app_nil_r in He.
    rewrite (assoc_permutation _ (rev (combine (map bf_name (bc_fields c)) vs))).
    + exact He.
    + apply Permutation_rev.
    + assert (El : length (map bf_name (bc_fields c)) = length vs) by (rewrite map_length; clear -Hvs; induction Hvs; cbn; congruence).
      assert (Em : map fst (combine (map bf_name (bc_fields c)) vs) = map bf_name (bc_fields c)).
      { revert El. generalize (map bf_name (bc_fields c)). clear. intro l. revert vs. induction l as [|a l IH]; intros [|v vs]; try discriminate; auto.
        intros [= El]. cbn. now rewrite IH. }
      rewrite Em. exact names_once.
Qed.
End Send.
End Run.

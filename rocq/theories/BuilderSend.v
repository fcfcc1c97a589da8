(** Sending a builder, and comparing it with the positional method. *)
From Verif Require Import Base ClientModel MethodModel RunModel BuilderModel BuilderSpec BuilderProofs RequestSpec RequestProofs EnvProofs
  NameProofs EpisodeKinds DocSpec RefProofs.
Local Open Scope N_scope.

Section Send.
Context {B : Type} (types : type_id -> option type_info).
Variables (b_default : type_id -> B) (b_from : type_id -> value -> B) (b_try_from : type_id -> B -> result value str).
Variables (h : hooks) (m : op_method) (c : builder_code).
Hypothesis gen : builder_struct types h m = Ok c.
Hypothesis ok : builder_ok types m.
Notation gives := (gives types b_default b_from b_try_from).
Notation body_after := (body_after types b_default b_from).

(** The variable of a parameter. *)
Definition var (p : op_param) (o : option value) : binding :=
  match o with
  | Some v => if is_optional (p_kind p) then BOpt (Some v) else BVal v
  | None => BOpt None
  end.

Lemma body_kind_required p t : nested types p t -> is_optional (p_kind p) = false.
Proof. intros ((ct & ->) & _). reflexivity. Qed.

Lemma finalize_value cs st p f r : Forall (legal_call types m) cs -> build B b_default b_from (bc_fields c) cs = Some st ->
  In f (bc_fields c) -> field_for types p f -> field_case types p f -> gives cs p r ->
  exists x, assoc (bf_name f) st = Some x /\
    finalize_field B b_try_from (bf_finalize f) x =
      Some (match r with ROk o => ROk (var p o) | RErr e => RErr e end).
Proof.
  intros Hl Hb Hf Hpf Hc Hg.
  destruct (build_steps types b_default b_from h m c gen ok cs Hl) as (st' & Hb' & Hgood & Hv).
  rewrite Hb in Hb'. injection Hb' as <-. specialize (Hv f Hf).
  destruct Hgood as (_ & Hshape). destruct (Hshape f Hf) as (x & Hx & Hs). rewrite Hx in Hv. injection Hv as Ex.
  exists x. split; auto.
  destruct (nested_dec types p) as [(t & Ht)|Hnn].
  - assert (Ho := body_kind_required p t Ht).
    assert (Hfin : bf_finalize f = Some t).
    { destruct Hc as [t' ty H1 _ _ H2 _ _ _|ty H1 _ _ _ _ _ _|ty H1 _ _ _ _ _ _]; try now apply H1 in Ht.
      destruct H1 as (_ & E & _), Ht as (_ & E' & _). congruence. }
    assert (Huniq : forall t', nested types p t' -> t' = t).
    { intros t' (_ & E & _). destruct Ht as (_ & E' & _). congruence. }
    rewrite Hfin.
    destruct Hg as [H|H|v H|e ty H|t' b v H Hba Htf|t' b e H Hba Htf|t' e H Hba]; try now apply H in Ht.
    + rewrite (Huniq t' H) in *. rewrite (body_value types b_default b_from c cs p f t (ROk b)) in Ex; auto.
      subst x. cbn. rewrite Htf. unfold var. now rewrite Ho.
    + rewrite (Huniq t' H) in *. rewrite (body_value types b_default b_from c cs p f t (ROk b)) in Ex; auto.
      subst x. cbn. now rewrite Htf.
    + rewrite (Huniq t' H) in *. rewrite (body_value types b_default b_from c cs p f t (RErr e)) in Ex; auto.
      subst x. reflexivity.
  - pose proof (field_value types b_default b_from b_try_from c cs p f r Hf Hpf Hc Hg Hnn) as Hh.
    rewrite <- Ex in Hh.
    destruct Hc as [t ty H _ _ _ _ _ _|ty _ Ho Hty _ Hfin _ _|ty _ Ho Hty _ Hfin _ _].
    + now apply Hnn in H.
    + rewrite Hfin. unfold shape in Hs. rewrite Hty in Hs. destruct x as [|[o|e]|]; try easy; cbn in Hh; destruct r as [w|e']; try easy; subst; cbn; auto.
      unfold var. rewrite Ho. now destruct w.
    + rewrite Hfin. unfold shape in Hs. rewrite Hty in Hs. destruct x as [[o|e]| |]; try easy; cbn in Hh; destruct r as [w|e']; try easy; subst; cbn; auto.
      destruct w as [w|]; try easy. subst. unfold var. now rewrite Ho.
Qed.

Section Fin.
Variables (cs : list (setter_call B)) (st : list (str * field B)).
Hypothesis legal : Forall (legal_call types m) cs.
Hypothesis built : build B b_default b_from (bc_fields c) cs = Some st.

Lemma finalize_all_ok ps fs : Forall2 (field_for types) ps fs -> incl ps (m_params m) -> incl fs (bc_fields c) ->
  forall args, map fst args = ps -> Forall (fun pv => gives cs (fst pv) (ROk (snd pv))) args -> forall env,
  finalize_all B b_try_from fs st env = Some (ROk (rev (map (fun pv => (p_name (fst pv), var (fst pv) (snd pv))) args) ++ env)).
Proof.
  induction 1 as [|p f ps fs Hpf HF IH]; intros Hip Hif args Ha Hg env.
  - apply map_eq_nil in Ha. subst. reflexivity.
  - destruct args as [|[p' o] args]; [discriminate|]. cbn in Ha. injection Ha as -> Ha.
    inversion Hg as [|? ? Hg1 Hg2]; subst. cbn [fst snd] in Hg1. cbn [finalize_all].
    assert (Hip1 : In p (m_params m)) by (apply Hip; now left).
    assert (Hif1 : In f (bc_fields c)) by (apply Hif; now left).
    destruct (finalize_value cs st p f (ROk o) legal built Hif1 Hpf (field_for_case types m p f ok Hip1 Hpf) Hg1) as (x & -> & ->).
    rewrite (IH (fun q Hq => Hip q (or_intror Hq)) (fun q Hq => Hif q (or_intror Hq)) args eq_refl Hg2).
    cbn [map rev fst snd]. rewrite <- app_assoc. destruct Hpf as [-> _ _ _ _]. reflexivity.
Qed.

Lemma finalize_all_err ps fs : Forall2 (field_for types) ps fs -> incl ps (m_params m) -> incl fs (bc_fields c) ->
  forall pre p post msg, ps = pre ++ p :: post ->
  Forall (fun q => exists o, gives cs q (ROk o)) pre -> gives cs p (RErr msg) -> forall env,
  finalize_all B b_try_from fs st env = Some (RErr msg).
Proof.
  induction 1 as [|q f ps fs Hpf HF IH]; intros Hip Hif pre p post msg Hps Hpre Hp env; [now destruct pre|].
  assert (Hip1 : In q (m_params m)) by (apply Hip; now left).
  assert (Hif1 : In f (bc_fields c)) by (apply Hif; now left).
  cbn [finalize_all]. destruct pre as [|q' pre]; cbn in Hps; injection Hps as -> Hps.
  - destruct (finalize_value cs st p f (RErr msg) legal built Hif1 Hpf (field_for_case types m p f ok Hip1 Hpf) Hp) as (x & -> & ->).
    reflexivity.
  - inversion Hpre as [|? ? (o & Ho) Hpre']; subst.
    destruct (finalize_value cs st q' f (ROk o) legal built Hif1 Hpf (field_for_case types m q' f ok Hip1 Hpf) Ho) as (x & -> & ->).
    eapply (IH (fun q Hq => Hip q (or_intror Hq)) (fun q Hq => Hif q (or_intror Hq))); eauto.
Qed.
End Fin.

Lemma build_total cs : Forall (legal_call types m) cs -> exists st, build B b_default b_from (bc_fields c) cs = Some st.
Proof. intro Hl. destruct (build_steps types b_default b_from h m c gen ok cs Hl) as (st & H & _). eauto. Qed.

Lemma variables_var args : variables args = map (fun pv : op_param * option value => (p_name (fst pv), var (fst pv) (snd pv))) args.
Proof. reflexivity. Qed.

Variables (V W : Type) (ctx : context) (fs : type_id -> list N -> result V jerr) (ops : world_ops W).

Theorem send_runs cs st args w : Forall (legal_call types m) cs ->
  build B b_default b_from (bc_fields c) cs = Some st ->
  map fst args = m_params m -> Forall (fun pv => gives cs (fst pv) (ROk (snd pv))) args ->
  send B b_try_from V ctx fs W ops c st w = run V ctx fs W ops (bc_send c) (variables args) w.
Proof.
  intros Hl Hb Ha Hg. destruct (builder_struct_ok types h m c gen) as (HF & _).
  unfold send. rewrite (finalize_all_ok cs st Hl Hb (m_params m) (bc_fields c) HF (incl_refl _) (incl_refl _) args Ha Hg).
  rewrite app_nil_r. apply run_env. apply (env_eq_rev (variables args)).
  rewrite variables_names, Ha. apply ok.
Qed.

Theorem send_refused cs st pre p post msg w : Forall (legal_call types m) cs ->
  build B b_default b_from (bc_fields c) cs = Some st ->
  m_params m = pre ++ p :: post -> Forall (fun q => exists o, gives cs q (ROk o)) pre -> gives cs p (RErr msg) ->
  send B b_try_from V ctx fs W ops c st w = (Returned (RErr (InvalidRequest msg)), [], w).
Proof.
  intros Hl Hb Hps Hpre Hp. destruct (builder_struct_ok types h m c gen) as (HF & _).
  unfold send. now rewrite (finalize_all_err cs st Hl Hb (m_params m) (bc_fields c) HF (incl_refl _) (incl_refl _) pre p post msg Hps Hpre Hp).
Qed.

(** ** Every history gives something to every parameter *)

Lemma latest_total n (cs : list (setter_call B)) : exists l, latest n cs l.
Proof.
  induction cs as [|x cs IH] using rev_ind; [exists None; now constructor|].
  destruct x as [k conv|g].
  - destruct (str_eqb k n) eqn:E.
    + apply str_eqb_spec in E. subst. exists (Some conv). constructor. easy.
    + apply str_eqb_neq in E. destruct IH as (l & [cs' Hno|pre conv' post Hno]).
      * exists None. constructor. intros conv0 [Hi|[Hi|[]]]%in_app_iff; [now apply (Hno conv0)|]. congruence.
      * exists (Some conv'). rewrite <- app_assoc. constructor.
        intros conv0 [Hi|[Hi|[]]]%in_app_iff; [now apply (Hno conv0)|]. congruence.
  - destruct IH as (l & [cs' Hno|pre conv' post Hno]).
    + exists None. constructor. intros conv0 [Hi|[Hi|[]]]%in_app_iff; [now apply (Hno conv0)|]. congruence.
    + exists (Some conv'). rewrite <- app_assoc. constructor.
      intros conv0 [Hi|[Hi|[]]]%in_app_iff; [now apply (Hno conv0)|]. congruence.
Qed.

Lemma body_after_total cs p t : nested types p t -> exists r, body_after p t cs r.
Proof.
  intros (_ & Et & i & Ei & _). destruct (latest_total (lit "body") cs) as (l & [cs' Hno|pre [v|e] post Hno]).
  - eexists. now constructor.
  - eexists. now constructor.
  - eexists. eapply ba_failed; eauto. econstructor; eauto.
Qed.

Lemma gives_total cs p : In p (m_params m) -> exists r, gives cs p r.
Proof.
  intro Hp. destruct (fields_facts types h m c gen ok) as (_ & _ & Hc & _).
  destruct (Hc p Hp) as (f & _ & _ & Hcase).
  assert (Htt : exists ty, type_text types p ty) by (destruct Hcase; eauto).
  destruct Htt as (ty & Hty).
  destruct (nested_dec types p) as [(t & Ht)|Hnn].
  - destruct (body_after_total cs p t Ht) as ([b|e] & Hba).
    + destruct (b_try_from t b) as [v|e] eqn:E; [exists (ROk (Some v)); eapply gi_body|exists (RErr e); eapply gi_body_invalid]; eauto.
    + exists (RErr e). eapply gi_body_failed; eauto.
  - destruct (latest_total (p_name p) cs) as ([[v|e]|] & Hl).
    + exists (ROk (Some v)). now apply gi_value.
    + eexists. eapply gi_unconvertible; eauto.
    + destruct (is_optional (p_kind p)) eqn:Eo; [exists (ROk None); now apply gi_absent|].
      eexists. now apply gi_missing.
Qed.

Theorem decided cs :
  (exists args, map fst args = m_params m /\ Forall (fun pv => gives cs (fst pv) (ROk (snd pv))) args) \/
  (exists pre p post msg, m_params m = pre ++ p :: post /\
     Forall (fun q => exists o, gives cs q (ROk o)) pre /\ gives cs p (RErr msg)).
Proof.
  assert (H : forall ps, incl ps (m_params m) ->
    (exists args, map fst args = ps /\ Forall (fun pv => gives cs (fst pv) (ROk (snd pv))) args) \/
    (exists pre p post msg, ps = pre ++ p :: post /\
       Forall (fun q => exists o, gives cs q (ROk o)) pre /\ gives cs p (RErr msg))).
  { induction ps as [|p ps IH]; intro Hi.
    - left. now exists [].
    - destruct (gives_total cs p) as ([o|msg] & Hg); [apply Hi; now left| |].
      + destruct IH as [(args & Ha & Hargs)|(pre & q & post & msg & Hps & Hpre & Hq)].
        * intros q Hq. apply Hi. now right.
        * left. exists ((p, o) :: args). split; [cbn; congruence|]. now constructor.
        * right. exists (p :: pre), q, post, msg. split; [cbn; congruence|]. split; auto. constructor; eauto.
      + right. exists [], p, ps, msg. split; auto. }
  apply H, incl_refl.
Qed.

(** ** The state of fields *)

Lemma state_plain cs st p r : Forall (legal_call types m) cs -> build B b_default b_from (bc_fields c) cs = Some st ->
  In p (m_params m) -> (forall t, ~ nested types p t) -> gives cs p r ->
  exists x, assoc (p_name p) st = Some x /\ holds x r.
Proof.
  intros Hl Hb Hp Hnn Hg. destruct (fields_facts types h m c gen ok) as (_ & _ & Hc & _).
  destruct (Hc p Hp) as (f & Hf & Hpf & Hcase).
  destruct (build_steps types b_default b_from h m c gen ok cs Hl) as (st' & Hb' & _ & Hv).
  rewrite Hb in Hb'. injection Hb' as <-. specialize (Hv f Hf).
  pose proof (field_value types b_default b_from b_try_from c cs p f r Hf Hpf Hcase Hg Hnn) as Hh.
  destruct Hpf as [<- _ _ _ _]. eauto.
Qed.

Lemma state_body cs st p t r : Forall (legal_call types m) cs -> build B b_default b_from (bc_fields c) cs = Some st ->
  In p (m_params m) -> nested types p t -> body_after p t cs r -> assoc (lit "body") st = Some (FBuilder r).
Proof.
  intros Hl Hb Hp Hnest Hba. destruct (fields_facts types h m c gen ok) as (_ & _ & Hc & _).
  destruct (Hc p Hp) as (f & Hf & Hpf & Hcase).
  destruct (build_steps types b_default b_from h m c gen ok cs Hl) as (st' & Hb' & _ & Hv).
  rewrite Hb in Hb'. injection Hb' as <-. specialize (Hv f Hf).
  rewrite (body_value types b_default b_from c cs p f t r Hf Hpf Hcase Hnest Hba) in Hv.
  assert (En : bf_name f = lit "body"); [|now rewrite En in Hv].
  destruct Hpf as [-> _ _ _ _].
  destruct Hcase as [t' ty H1 _ _ H2 _ Hn _|ty H1 _ _ _ _ _ _|ty H1 _ _ _ _ _ _]; auto; now apply H1 in Hnest.
Qed.

Lemma own_fold p f cs r : field_for types p f -> field_case types p f -> own types p cs r -> forall x,
  fold_left (field_step b_from f) cs x = fold_left (field_step b_from f) r x.
Proof.
  intros Hpf Hcase. induction 1 as [|y cs r Hy _ IH|y cs r Hy _ IH]; intro x; cbn [fold_left]; auto.
  rewrite <- IH. f_equal. destruct y as [n conv|g]; cbn [concerns field_step] in *.
  - destruct Hpf as [En _ _ _ _]. destruct (str_eqb n (bf_name f)) eqn:E; auto. apply str_eqb_spec in E. exfalso. apply Hy. congruence.
  - destruct (is_st_body (bf_setter f)) eqn:E; auto.
    destruct Hcase as [t' ty H1 _ _ H2 _ Hn _|ty _ _ _ _ _ _ H1|ty _ _ _ _ _ _ [H1|H1]]; [exfalso; apply Hy; eauto| | |];
      rewrite H1 in E; discriminate.
Qed.

Lemma state_independent p cs cs' r st st' : Forall (legal_call types m) cs -> Forall (legal_call types m) cs' ->
  build B b_default b_from (bc_fields c) cs = Some st -> build B b_default b_from (bc_fields c) cs' = Some st' ->
  In p (m_params m) -> own types p cs r -> own types p cs' r ->
  assoc (p_name p) st = assoc (p_name p) st' /\ assoc (p_name p) st <> None.
Proof.
  intros Hl Hl' Hb Hb' Hp Ho Ho'. destruct (fields_facts types h m c gen ok) as (_ & _ & Hc & _).
  destruct (Hc p Hp) as (f & Hf & Hpf & Hcase).
  destruct (build_steps types b_default b_from h m c gen ok cs Hl) as (s1 & E1 & _ & Hv).
  destruct (build_steps types b_default b_from h m c gen ok cs' Hl') as (s2 & E2 & _ & Hv').
  rewrite Hb in E1. injection E1 as <-. rewrite Hb' in E2. injection E2 as <-.
  specialize (Hv f Hf). specialize (Hv' f Hf).
  rewrite (own_fold p f cs r Hpf Hcase Ho) in Hv. rewrite (own_fold p f cs' r Hpf Hcase Ho') in Hv'.
  destruct Hpf as [<- _ _ _ _]. rewrite Hv, Hv'. easy.
Qed.

(** ** The positional method *)

(** The history sets exactly the given values. *)
Definition same_values (cs : list (setter_call B)) (args : list (op_param * option value)) : Prop :=
  Forall (fun pv => latest (p_name (fst pv)) cs (option_map ROk (snd pv))) args /\
  forall g, ~ In (CallBodyMap g) cs.

Lemma mapped_none cs b : (forall g, ~ In (CallBodyMap (B := B) g) cs) -> mapped cs b = b.
Proof.
  induction cs as [|x cs IH]; cbn; auto. intro H. destruct x as [n conv|g].
  - apply IH. intros g Hg. apply (H g). now right.
  - exfalso. apply (H g). now left.
Qed.

Theorem send_positional cs st args w : Forall (legal_call types m) cs ->
  build B b_default b_from (bc_fields c) cs = Some st ->
  arguments_for (m_params m) args -> same_values cs args ->
  (forall t v, b_try_from t (b_from t v) = ROk v) ->
  forall sb, method_sig_body h m = Ok sb ->
  send B b_try_from V ctx fs W ops c st w = run V ctx fs W ops sb (variables args) w.
Proof.
  intros Hl Hb (Ha & Hreq) (Hs & Hnm) Hrt sb Hsb.
  destruct (builder_struct_ok types h m c gen) as (_ & Hsb' & _). rewrite Hsb in Hsb'. injection Hsb' as ->.
  apply (send_runs cs); auto. apply Forall_forall. intros [p o] Hi. cbn [fst snd].
  rewrite Forall_forall in Hs, Hreq. specialize (Hs _ Hi). specialize (Hreq _ Hi). cbn [fst snd] in Hs, Hreq.
  assert (Hp : In p (m_params m)) by (rewrite <- Ha; now apply (in_map fst) in Hi).
  destruct (nested_dec types p) as [(t & Ht)|Hnn].
  - assert (Hname : p_name p = lit "body").
    { destruct (fields_facts types h m c gen ok) as (_ & _ & Hc & _). destruct (Hc p Hp) as (f & _ & _ & Hcase).
      destruct Hcase as [t' ty _ _ _ _ _ Hn _|ty H1 _ _ _ _ _ _|ty H1 _ _ _ _ _ _]; auto; now apply H1 in Ht. }
    rewrite Hname in Hs. destruct o as [v|]; [|exfalso; apply Hreq; auto; destruct Ht as ((ct & Ek) & _); unfold required_param; now rewrite Ek].
    cbn in Hs. remember (Some (ROk v)) as l eqn:El. destruct Hs as [|pre conv post Hno]; [discriminate|]. injection El as ->.
    eapply gi_body with (t := t); [exact Ht|now apply ba_set|].
    rewrite mapped_none; auto. intros g Hg. apply (Hnm g). apply in_app_iff. right. now right.
  - destruct o as [v|]; cbn in Hs; [now apply gi_value|]. apply gi_absent; auto.
    destruct (is_optional (p_kind p)) eqn:Eo; auto. exfalso. apply Hreq; auto.
    unfold is_optional, is_required in Eo. unfold required_param. destruct (p_kind p); auto; now apply negb_false_iff in Eo.
Qed.

(** The client variable of [send]. *)
Theorem client_free : ~ In (bc_client c) (map p_name (m_params m)) /\ ~ In (bc_client c) (declared (bc_send c)).
Proof.
  destruct (builder_struct_ok types h m c gen) as (_ & Hsb & Hc & _). split.
  - rewrite Hc. apply unique_ident_fresh.
  - rewrite Hc, (declared_shape _ _ _ Hsb). cbn [In]. intro Hi.
    repeat match type of Hi with _ \/ _ => destruct Hi as [Hi|Hi] end; try easy;
    (first [now apply unique_apart in Hi | now apply unique_not in Hi | symmetry in Hi; now apply unique_not in Hi]).
Qed.
End Send.

(** ** Generation *)

Lemma mapM_exists {A B'} (f : A -> outcome B') l : (exists r, mapM f l = Ok r) <-> Forall (fun a => exists b, f a = Ok b) l.
Proof.
  split.
  - intros (r & H). apply mapM_ok_iff in H. induction H; constructor; eauto.
  - induction 1 as [|a l (b & Hb) _ (r & IH)]; cbn [mapM]; [eauto|]. rewrite Hb, IH. cbn. eauto.
Qed.

Lemma acceptable_fields types p : acceptable types p <->
  (exists x, field_type_of types p = Ok x) /\ (exists x, initial_of types p = Ok x) /\
  (exists x, finalize_of types p = Ok x) /\ (exists x, setter_of types p = Ok x).
Proof.
  unfold acceptable, field_type_of, initial_of, finalize_of, setter_of, get_type. destruct (p_typ p) as [t|].
  - destruct (types t) as [i|]; cbn [obind].
    + split.
      * intros (i' & [= <-] & H). repeat (split; [eauto|]).
        destruct (ti_builder i); [|destruct (is_optional (p_kind p)); eauto].
        destruct H as (H1 & H2); auto. unfold is_optional. rewrite H1, H2, str_eqb_refl. cbn. eauto.
      * intros (_ & _ & _ & x & H). exists i. split; auto. intro Eb. rewrite Eb in H.
        unfold is_optional in H. destruct (is_required (p_kind p)); [|discriminate]. cbn [negb] in H.
        destruct (str_eqb (p_name p) (lit "body")) eqn:E; [|discriminate]. apply str_eqb_spec in E. auto.
    + split; [now intros (i & [=] & _)|]. now intros ((x & [=]) & _).
  - split.
    + intros [-> | (mime & ->)]; eauto 10.
    + intros (_ & _ & _ & x & H). destruct (p_kind p) as [| | |[]]; try discriminate; eauto.
Qed.

Theorem builder_generated_iff types h m :
  (exists c, builder_struct types h m = Ok c) <->
  (exists sb, method_sig_body h m = Ok sb) /\ Forall (acceptable types) (m_params m) /\
  (forall pg, m_paginated m = Some pg -> types (pg_item pg) <> None).
Proof.
  split.
  - intros (c & H). destruct (builder_struct_ok types h m c H) as (HF & Hsb & _). split; [eauto|]. split.
    + clear -HF. induction HF as [|p f ps fs [Hn H1 H2 H3 H4] _ IH]; constructor; auto. apply acceptable_fields.
      repeat (split; eauto).
    + intros pg Hpg. unfold builder_struct in H. 
      destruct (mapM (field_type_of types) _) as [tys| |]; try discriminate.
      destruct (mapM (initial_of types) _) as [ins| |]; try discriminate.
      destruct (mapM (finalize_of types) _) as [fins| |]; try discriminate.
      destruct (mapM (setter_of types) _) as [sets| |]; try discriminate. cbn [obind] in H.
      rewrite Hsb, Hpg in H. cbn [obind] in H. now destruct (types (pg_item pg)).
  - intros ((sb & Hsb) & Hacc & Hpg). unfold builder_struct.
    assert (H : forall ps, Forall (acceptable types) ps ->
      Forall (fun p => exists x, field_type_of types p = Ok x) ps /\ Forall (fun p => exists x, initial_of types p = Ok x) ps /\
      Forall (fun p => exists x, finalize_of types p = Ok x) ps /\ Forall (fun p => exists x, setter_of types p = Ok x) ps).
    { induction 1 as [|p ps Hp _ IH]; [auto|]. apply acceptable_fields in Hp. decompose [and] Hp. decompose [and] IH.
      repeat split; constructor; auto. }
    destruct (H _ Hacc) as (H1 & H2 & H3 & H4).
    apply mapM_exists in H1 as (r1 & ->). apply mapM_exists in H2 as (r2 & ->).
    apply mapM_exists in H3 as (r3 & ->). apply mapM_exists in H4 as (r4 & ->). cbn [obind]. rewrite Hsb. cbn [obind].
    destruct (m_paginated m) as [pg|]; [|cbn; eauto]. specialize (Hpg pg eq_refl). destruct (types (pg_item pg)); [cbn; eauto|easy].
Qed.

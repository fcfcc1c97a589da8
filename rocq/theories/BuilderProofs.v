(** Proofs about the builder interface. *)
From Verif Require Import Base ClientModel MethodModel RunModel BuilderModel BuilderSpec RequestSpec RequestProofs RefProofs.
Local Open Scope N_scope.

Section Types.
Variable types : type_id -> option type_info.

(** ** Generation *)

Record field_for (p : op_param) (f : builder_field) : Prop := FieldFor {
  ff_name : bf_name f = p_name p;
  ff_type : field_type_of types p = Ok (bf_type f);
  ff_initial : initial_of types p = Ok (bf_initial f);
  ff_finalize : finalize_of types p = Ok (bf_finalize f);
  ff_setter : setter_of types p = Ok (bf_setter f) }.

Lemma fields_of_for : forall ps tys ins fins sets,
  mapM (field_type_of types) ps = Ok tys -> mapM (initial_of types) ps = Ok ins ->
  mapM (finalize_of types) ps = Ok fins -> mapM (setter_of types) ps = Ok sets ->
  Forall2 field_for ps (fields_of ps tys ins fins sets).
Proof.
  induction ps as [|p ps IH]; cbn [mapM fields_of]; intros tys ins fins sets H1 H2 H3 H4.
  - constructor.
  - destruct (field_type_of types p) eqn:E1; try discriminate.
    destruct (mapM (field_type_of types) ps) eqn:F1; try discriminate.
    destruct (initial_of types p) eqn:E2; try discriminate.
    destruct (mapM (initial_of types) ps) eqn:F2; try discriminate.
    destruct (finalize_of types p) eqn:E3; try discriminate.
    destruct (mapM (finalize_of types) ps) eqn:F3; try discriminate.
    destruct (setter_of types p) eqn:E4; try discriminate.
    destruct (mapM (setter_of types) ps) eqn:F4; try discriminate.
    cbn in *. injection H1 as <-. injection H2 as <-. injection H3 as <-. injection H4 as <-.
    constructor; [now split|]. now apply IH.
Qed.

Lemma builder_struct_ok h m c : builder_struct types h m = Ok c ->
  Forall2 field_for (m_params m) (bc_fields c) /\ method_sig_body h m = Ok (bc_send c) /\
  bc_client c = unique_ident_from (lit "client") (map p_name (m_params m)) /\
  match m_paginated m with
  | None => bc_stream c = None
  | Some _ => bc_stream c = Some (reset_fields (m_params m))
  end.
Proof.
  unfold builder_struct. intro H.
  destruct (mapM (field_type_of types) _) as [tys| |] eqn:E1; try discriminate.
  destruct (mapM (initial_of types) _) as [ins| |] eqn:E2; try discriminate.
  destruct (mapM (finalize_of types) _) as [fins| |] eqn:E3; try discriminate.
  destruct (mapM (setter_of types) _) as [sets| |] eqn:E4; try discriminate.
  cbn [obind] in H.
  destruct (method_sig_body h m) as [sb| |] eqn:E5; try discriminate. cbn [obind] in H.
  destruct (m_paginated m) as [pg|]; [destruct (types (pg_item pg)); try discriminate|];
    cbn [obind] in H; injection H as <-; cbn; repeat (split; [try apply fields_of_for; auto|]); auto.
Qed.

Lemma fields_names ps fs : Forall2 field_for ps fs -> map bf_name fs = map p_name ps.
Proof. induction 1; cbn; auto. destruct H. congruence. Qed.

Lemma field_in ps fs p : Forall2 field_for ps fs -> In p ps -> exists f, In f fs /\ field_for p f.
Proof.
  induction 1; cbn; [easy|]. intros [->|H1]; eauto. destruct (IHForall2 H1) as (f & ? & ?). eauto.
Qed.

Lemma find_field_in fs f : NoDup (map bf_name fs) -> In f fs -> find_field (bf_name f) fs = Some f.
Proof.
  induction fs as [|g fs IH]; cbn; [easy|]. intros H%NoDup_cons_iff [->|Hi].
  - now rewrite str_eqb_refl.
  - destruct (str_eqb (bf_name g) (bf_name f)) eqn:E; [|now apply IH].
    apply str_eqb_spec in E. destruct H as [H _]. rewrite E in H. exfalso. apply H. now apply in_map.
Qed.

Lemma find_field_some n fs f : find_field n fs = Some f -> In f fs /\ bf_name f = n.
Proof.
  induction fs as [|g fs IH]; cbn; [easy|]. destruct (str_eqb (bf_name g) n) eqn:E.
  - intros [= ->]. apply str_eqb_spec in E. auto.
  - intros H. destruct (IH H). auto.
Qed.

(** ** One field *)

Section Run.
Context {B : Type}.
Variables (b_default : type_id -> B) (b_from : type_id -> value -> B) (b_try_from : type_id -> B -> result value str).
Notation build := (build B b_default b_from).
Notation apply_call := (apply_call B b_from).
Notation apply_calls := (apply_calls B b_from).

Lemma assoc_assign_same n x (st : list (str * field B)) : In n (map fst st) -> assoc n (assign B n x st) = Some x.
Proof.
  induction st as [|[k y] st IH]; cbn; [easy|]. intros [->|H].
  - rewrite str_eqb_refl. cbn. now rewrite str_eqb_refl.
  - destruct (str_eqb k n) eqn:E; cbn.
    + apply str_eqb_spec in E. subst. now rewrite str_eqb_refl.
    + rewrite str_eqb_sym, E. now apply IH.
Qed.

Lemma assoc_assign_other n k x (st : list (str * field B)) : n <> k -> assoc n (assign B k x st) = assoc n st.
Proof.
  intro H. induction st as [|[j y] st IH]; cbn; auto. destruct (str_eqb j k) eqn:E; cbn.
  - apply str_eqb_spec in E. subst. assert (E : str_eqb n k = false) by now apply str_eqb_neq. now rewrite E.
  - now rewrite IH.
Qed.

Lemma assign_names k x (st : list (str * field B)) : map fst (assign B k x st) = map fst st.
Proof. induction st as [|[j y] st IH]; cbn; auto. destruct (str_eqb j k); cbn; congruence. Qed.

Definition is_st_body (s : setter) : bool := match s with StBody _ _ => true | _ => false end.

(** The effect of a call on the field [f]. *)
Definition field_step (f : builder_field) (x : field B) (c : setter_call B) : field B :=
  match c with
  | CallSet n conv =>
      if str_eqb n (bf_name f)
      then match set_value B b_from (bf_type f) (bf_setter f) conv with Some y => y | None => x end
      else x
  | CallBodyMap g =>
      if is_st_body (bf_setter f)
      then match x with FBuilder (ROk b) => FBuilder (ROk (g b)) | _ => x end
      else x
  end.

(** Well-typed fields. *)
Definition typed (f : builder_field) : Prop :=
  match bf_setter f, bf_type f with
  | StOptional _, FtOptional | StRequired _, FtRequired | StRaw _, FtRequired => True
  | StBody t _, FtBuilder t' => t = t' /\ bf_name f = lit "body"
  | _, _ => False
  end.
Definition shape (f : builder_field) (x : field B) : Prop :=
  match bf_type f, x with
  | FtRequired, FReq _ | FtOptional, FOpt _ | FtBuilder _, FBuilder _ => True
  | _, _ => False
  end.

Lemma set_value_typed f conv : typed f -> exists x, set_value B b_from (bf_type f) (bf_setter f) conv = Some x /\ shape f x.
Proof.
  unfold typed, shape, set_value. destruct (bf_setter f), (bf_type f); try easy; intros _; eexists; (split; [reflexivity|exact I]).
Qed.

Lemma field_step_shape f x c : typed f -> shape f x -> shape f (field_step f x c).
Proof.
  intros Ht Hs. destruct c as [n conv|g]; cbn [field_step].
  - destruct (str_eqb n (bf_name f)); auto. destruct (set_value_typed f conv Ht) as (y & -> & Hy). auto.
  - destruct (is_st_body (bf_setter f)); auto. destruct x as [| |[b|e]]; auto.
Qed.

Section Fields.
Variable fs : list builder_field.
Hypothesis nodup : NoDup (map bf_name fs).
Hypothesis all_typed : Forall typed fs.

(** The calls available on these fields. *)
Definition available (c : setter_call B) : Prop :=
  match c with
  | CallSet n _ => In n (map bf_name fs)
  | CallBodyMap _ => exists f, In f fs /\ is_st_body (bf_setter f) = true
  end.

Definition good (st : list (str * field B)) : Prop :=
  map fst st = map bf_name fs /\ forall f, In f fs -> exists x, assoc (bf_name f) st = Some x /\ shape f x.

Lemma body_field f : In f fs -> is_st_body (bf_setter f) = true -> bf_name f = lit "body".
Proof.
  intros Hi Hb. rewrite Forall_forall in all_typed. specialize (all_typed f Hi). unfold typed in all_typed.
  destruct (bf_setter f); try discriminate. now destruct (bf_type f).
Qed.

Lemma apply_call_step st c : good st -> available c ->
  exists st', apply_call fs st c = Some st' /\ good st' /\
    forall f x, In f fs -> assoc (bf_name f) st = Some x -> assoc (bf_name f) st' = Some (field_step f x c).
Proof.
  intros (Hn & Hg) Ha.
  assert (Hassign : forall f x, In f fs -> assoc (bf_name f) (assign B (bf_name f) x st) = Some x).
  { intros f x Hi. apply assoc_assign_same. rewrite Hn. now apply in_map. }
  assert (Huniq : forall f g, In f fs -> In g fs -> bf_name f = bf_name g -> f = g).
  { intros f g Hf Hg' E. pose proof (find_field_in fs f nodup Hf) as H1.
    pose proof (find_field_in fs g nodup Hg') as H2. rewrite E in H1. congruence. }
  assert (Hgood : forall f x, In f fs -> shape f x -> good (assign B (bf_name f) x st)).
  { intros f x Hi Hs. split; [now rewrite assign_names|]. intros g Hgi.
    destruct (str_eqb (bf_name g) (bf_name f)) eqn:E.
    - apply str_eqb_spec in E. apply Huniq in E; auto. subst g. rewrite Hassign; eauto.
    - apply str_eqb_neq in E. rewrite assoc_assign_other; auto. }
  destruct c as [n conv|g]; cbn [available] in Ha; cbn [BuilderModel.apply_call].
  - apply in_map_iff in Ha. destruct Ha as (f & <- & Hi). rewrite (find_field_in fs f nodup Hi).
    assert (Ht : typed f) by (rewrite Forall_forall in all_typed; auto).
    destruct (set_value_typed f conv Ht) as (y & Ey & Hy). rewrite Ey.
    eexists. split; [reflexivity|]. split; [now apply Hgood|]. intros f' x Hi' Hx. cbn [field_step].
    destruct (str_eqb (bf_name f) (bf_name f')) eqn:E.
    + apply str_eqb_spec in E. apply Huniq in E; auto. subst f'. rewrite Hassign by auto. now rewrite Ey.
    + apply str_eqb_neq in E. rewrite assoc_assign_other; auto.
  - destruct Ha as (f & Hi & Hb). pose proof (body_field f Hi Hb) as En. rewrite <- En.
    rewrite (find_field_in fs f nodup Hi). destruct (Hg f Hi) as (x & Hx & Hs). rewrite Hx.
    assert (Ht : typed f) by (rewrite Forall_forall in all_typed; auto).
    destruct (bf_setter f) eqn:Es; try discriminate. unfold typed in Ht. rewrite Es in Ht.
    unfold shape in Hs. destruct (bf_type f) eqn:Ety; try easy. destruct x as [| |r]; try easy.
    eexists. split; [reflexivity|]. split; [apply Hgood; auto; unfold shape; now rewrite Ety|].
    intros f' x' Hi' Hx'. cbn [field_step].
    destruct (str_eqb (bf_name f') (bf_name f)) eqn:E.
    + apply str_eqb_spec in E. apply Huniq in E; auto. subst f'. rewrite Hassign by auto.
      rewrite Es. cbn. rewrite Hx' in Hx. injection Hx as ->. now destruct r.
    + apply str_eqb_neq in E. rewrite assoc_assign_other by auto.
      destruct (is_st_body (bf_setter f')) eqn:Eb; auto.
      exfalso. apply E. rewrite En. now apply body_field.
Qed.

Lemma apply_calls_steps cs : Forall available cs -> forall st, good st ->
  exists st', apply_calls fs st cs = Some st' /\ good st' /\
    forall f x, In f fs -> assoc (bf_name f) st = Some x ->
      assoc (bf_name f) st' = Some (fold_left (field_step f) cs x).
Proof.
  induction 1 as [|c cs Hc Hcs IH]; intros st Hg; cbn [BuilderModel.apply_calls fold_left].
  - exists st. auto.
  - destruct (apply_call_step st c Hg Hc) as (st1 & -> & Hg1 & H1).
    destruct (IH st1 Hg1) as (st2 & -> & Hg2 & H2). exists st2. split; [reflexivity|]. split; [exact Hg2|].
    intros f x Hi Hx. apply H2; auto.
Qed.

Lemma new_fields_good (init : builder_field -> field B) :
  (forall f, In f fs -> initial_field B b_default f = Some (init f) /\ shape f (init f)) ->
  exists st, new_fields B b_default fs = Some st /\ good st /\
    forall f, In f fs -> assoc (bf_name f) st = Some (init f).
Proof.
  intro Hinit.
  assert (H : forall gs, incl gs fs -> NoDup (map bf_name gs) ->
    exists st, new_fields B b_default gs = Some st /\ map fst st = map bf_name gs /\
      forall f, In f gs -> assoc (bf_name f) st = Some (init f)).
  { induction gs as [|g gs IH]; intros Hin Hnd; cbn [new_fields].
    - exists []. split; auto. split; auto. easy.
    - cbn in Hnd. apply NoDup_cons_iff in Hnd. destruct Hnd as [Hng Hnd].
      destruct (Hinit g) as [-> _]; [apply Hin; now left|].
      destruct IH as (st & -> & Hn & Ha); [intros f Hf; apply Hin; now right|auto|].
      eexists. split; [reflexivity|]. cbn [map fst]. split; [now rewrite Hn|].
      intros f [->|Hf]; cbn [assoc].
      + now rewrite str_eqb_refl.
      + destruct (str_eqb (bf_name f) (bf_name g)) eqn:E; auto. apply str_eqb_spec in E.
        exfalso. apply Hng. rewrite <- E. now apply in_map. }
  destruct (H fs) as (st & H1 & H2 & H3); auto using incl_refl. exists st. split; auto. split; auto.
  split; auto. intros f Hf. exists (init f). split; auto. now apply Hinit.
Qed.
End Fields.

(** ** The value of a field after a history *)

Lemma fold_skip f cs x : (forall c, In c cs -> field_step f x c = x) -> fold_left (field_step f) cs x = x.
Proof.
  revert x. induction cs as [|c cs IH]; intros x H; cbn; auto. rewrite (H c) by now left.
  apply IH. intros c' Hc'. apply H. now right.
Qed.

Lemma fold_plain f cs x n : is_st_body (bf_setter f) = false -> bf_name f = n ->
  (forall conv, ~ In (CallSet n conv) cs) -> fold_left (field_step f) cs x = x.
Proof.
  intros Hb Hn Hno. apply fold_skip. intros [k conv|g] Hi; cbn [field_step].
  - destruct (str_eqb k (bf_name f)) eqn:E; auto. apply str_eqb_spec in E. subst. now apply Hno in Hi.
  - now rewrite Hb.
Qed.

Lemma fold_latest f cs x n conv pre post : is_st_body (bf_setter f) = false -> bf_name f = n ->
  cs = pre ++ CallSet n conv :: post -> (forall conv', ~ In (CallSet n conv') post) ->
  typed f ->
  set_value B b_from (bf_type f) (bf_setter f) conv = Some (fold_left (field_step f) cs x).
Proof.
  intros Hb Hn -> Hno Ht. rewrite fold_left_app. cbn [fold_left field_step]. subst n. rewrite str_eqb_refl.
  destruct (set_value_typed f conv Ht) as (y & Ey & _). rewrite Ey.
  f_equal. symmetry. now apply fold_plain with (n := bf_name f).
Qed.

Lemma fold_mapped f cs : is_st_body (bf_setter f) = true -> bf_name f = lit "body" ->
  (forall conv, ~ In (CallSet (lit "body") conv) cs) -> forall r,
  fold_left (field_step f) cs (FBuilder r) =
  FBuilder (match r with ROk b => ROk (mapped cs b) | RErr e => RErr e end).
Proof.
  intros Hb Hn. induction cs as [|c cs IH]; intros Hno r; cbn [fold_left mapped].
  - now destruct r.
  - assert (Hno' : forall conv, ~ In (CallSet (lit "body") conv) cs) by (intros conv Hi; exact (Hno conv (or_intror Hi))).
    destruct c as [k conv|g]; cbn [field_step].
    + destruct (str_eqb k (bf_name f)) eqn:E.
      * apply str_eqb_spec in E. exfalso. apply (Hno conv). left. congruence.
      * now apply IH.
    + rewrite Hb. destruct r as [b|e]; now rewrite IH.
Qed.

(** ** Parameters *)

Lemma nested_dec p : (exists t, nested types p t) \/ (forall t, ~ nested types p t).
Proof.
  unfold nested. destruct (p_kind p) as [| | |ct] eqn:Ek; try (right; intros t ((ct & E) & _); discriminate).
  destruct (p_typ p) as [t|] eqn:Et; [|right; intros t (_ & E & _); discriminate].
  destruct (types t) as [i|] eqn:Ei; [|right; intros t' (_ & [= ->] & i & E & _); congruence].
  destruct (ti_builder i) eqn:Eb; [left; exists t; eauto 8|].
  right; intros t' (_ & [= ->] & i' & E & E'). congruence.
Qed.

Lemma type_text_unique p a b : type_text types p a -> type_text types p b -> a = b.
Proof. intros [t i H1 H2|H1 H2|mime H1 H2] [t' i' H3 H4|H3 H4|mime' H3 H4]; congruence. Qed.

Inductive field_case (p : op_param) (f : builder_field) : Prop :=
| fc_nested t ty : nested types p t -> bf_type f = FtBuilder t -> bf_initial f = InDefault ->
    bf_finalize f = Some t -> type_text types p ty -> p_name p = lit "body" ->
    bf_setter f = StBody t (conversion_failed ty p ++ lit ": ") -> field_case p f
| fc_optional ty : (forall t, ~ nested types p t) -> is_optional (p_kind p) = true ->
    bf_type f = FtOptional -> bf_initial f = InNone -> bf_finalize f = None -> type_text types p ty ->
    bf_setter f = StOptional (conversion_failed ty p) -> field_case p f
| fc_required ty : (forall t, ~ nested types p t) -> is_optional (p_kind p) = false ->
    bf_type f = FtRequired -> bf_initial f = InErr (not_initialized p) -> bf_finalize f = None ->
    type_text types p ty ->
    bf_setter f = StRequired (conversion_failed ty p) \/ bf_setter f = StRaw (conversion_failed ty p) ->
    field_case p f.

Lemma field_for_case m p f : builder_ok types m -> In p (m_params m) -> field_for p f -> field_case p f.
Proof.
  intros [_ Hb] Hi [Hn Ht Hin Hf Hs].
  unfold field_type_of, initial_of, finalize_of, setter_of, get_type in *.
  destruct (p_typ p) as [t|] eqn:Et.
  - destruct (types t) as [i|] eqn:Ei; try discriminate. cbn [obind] in *.
    destruct (ti_builder i) eqn:Eb.
    + destruct (Hb p t i Hi Et Ei Eb) as (ct & Ek). rewrite Ek in *. cbn in *.
      destruct (str_eqb (p_name p) (lit "body")) eqn:E; try discriminate. apply str_eqb_spec in E.
      eapply fc_nested with (t := t); try (econstructor; eassumption); try congruence.
      unfold nested. eauto 8.
    + assert (Hnn : forall t', ~ nested types p t').
      { intros t' (_ & E1 & i' & E2 & E3). congruence. }
      rewrite andb_false_r in *.
      destruct (is_optional (p_kind p)) eqn:Eo.
      * unfold is_optional in Eo. apply negb_true_iff in Eo. rewrite Eo in *.
        eapply fc_optional; try (econstructor; eassumption); try congruence; auto.
        unfold is_optional. now rewrite Eo.
      * pose proof Eo as Eo'. unfold is_optional in Eo. apply negb_false_iff in Eo. rewrite Eo in *.
        eapply fc_required; try (econstructor; eassumption); try congruence; auto.
        left. congruence.
  - assert (Hnn : forall t', ~ nested types p t') by (intros t' (_ & E1 & _); congruence).
    destruct (p_kind p) as [| | |[]] eqn:Ek; try discriminate.
    + eapply fc_required; try congruence; auto; [now rewrite Ek|apply tt_octets; auto|right; congruence].
    + eapply fc_required; try congruence; auto; [now rewrite Ek|eapply tt_text; eauto|right; congruence].
Qed.

Lemma case_typed p f : field_for p f -> field_case p f -> typed f.
Proof.
  intros [Hn _ _ _ _] [t ty _ H1 _ _ _ H2 H3|ty _ _ H1 _ _ _ H2|ty _ _ H1 _ _ _ [H2|H2]]; unfold typed; rewrite H1.
  - rewrite H3. split; auto. congruence.
  - now rewrite H2.
  - now rewrite H2.
  - now rewrite H2.
Qed.

Definition init_of (f : builder_field) : field B :=
  match initial_field B b_default f with Some x => x | None => FReq (RErr []) end.

Lemma case_initial p f : field_case p f -> initial_field B b_default f = Some (init_of f) /\ shape f (init_of f).
Proof.
  unfold init_of, initial_field, shape.
  intros [t ty _ H1 H2 _ _ _ _|ty _ _ H1 H2 _ _ _|ty _ _ H1 H2 _ _ _]; rewrite H1, H2; split; auto.
Qed.

(** ** Histories *)

Section Method.
Variables (h : hooks) (m : op_method) (c : builder_code).
Hypothesis gen : builder_struct types h m = Ok c.
Hypothesis ok : builder_ok types m.

Lemma fields_facts : NoDup (map bf_name (bc_fields c)) /\ Forall typed (bc_fields c) /\
  (forall p, In p (m_params m) -> exists f, In f (bc_fields c) /\ field_for p f /\ field_case p f) /\
  (forall f, In f (bc_fields c) -> exists p, In p (m_params m) /\ field_for p f /\ field_case p f).
Proof.
  destruct (builder_struct_ok h m c gen) as (HF & _).
  assert (Hfor : forall f, In f (bc_fields c) -> exists p, In p (m_params m) /\ field_for p f).
  { clear -HF. induction HF; cbn; [easy|]. intros f [<-|Hf]; eauto. destruct (IHHF f Hf) as (q & ? & ?). eauto. }
  split; [rewrite (fields_names _ _ HF); apply ok|]. split; [|split].
  - apply Forall_forall. intros f Hf. destruct (Hfor f Hf) as (p & Hp & Hpf).
    eapply case_typed; eauto. eapply field_for_case; eauto.
  - intros p Hp. destruct (field_in _ _ _ HF Hp) as (f & Hf & Hpf). exists f. repeat (split; auto).
    eapply field_for_case; eauto.
  - intros f Hf. destruct (Hfor f Hf) as (p & Hp & Hpf). exists p. repeat (split; auto).
    eapply field_for_case; eauto.
Qed.

Lemma case_body p f : field_case p f -> is_st_body (bf_setter f) = true -> exists t, nested types p t.
Proof.
  intros [t ty H _ _ _ _ _ _|ty _ _ _ _ _ _ H|ty _ _ _ _ _ _ [H|H]] Hb; eauto; rewrite H in Hb; discriminate.
Qed.

Lemma legal_available cs : Forall (legal_call types m) cs -> Forall (available (bc_fields c)) cs.
Proof.
  destruct (builder_struct_ok h m c gen) as (HF & _). destruct fields_facts as (_ & _ & Hp & _).
  apply Forall_impl. intros [n conv|g]; cbn.
  - now rewrite (fields_names _ _ HF).
  - intros (p & t & Hi & Hnest). destruct (Hp p Hi) as (f & Hf & _ & Hc). exists f. split; auto.
    destruct Hc as [t' ty _ _ _ _ _ _ H|ty H _ _ _ _ _ _|ty H _ _ _ _ _ _].
    + now rewrite H.
    + now apply H in Hnest.
    + now apply H in Hnest.
Qed.

Lemma build_steps cs : Forall (legal_call types m) cs ->
  exists st, build (bc_fields c) cs = Some st /\ good (bc_fields c) st /\
    forall f, In f (bc_fields c) -> assoc (bf_name f) st = Some (fold_left (field_step f) cs (init_of f)).
Proof.
  intro Hl. destruct fields_facts as (Hnd & Hty & _ & Hcase).
  destruct (new_fields_good (bc_fields c) Hnd init_of) as (st0 & H0 & Hg0 & Hi0).
  { intros f Hf. destruct (Hcase f Hf) as (p & _ & _ & Hc). now apply case_initial in Hc. }
  destruct (apply_calls_steps (bc_fields c) Hnd Hty cs (legal_available cs Hl) st0 Hg0) as (st & H1 & Hg & H2).
  exists st. split; [|split; auto].
  unfold BuilderModel.build. rewrite H0. exact H1.
Qed.

Lemma field_value cs p f r : In f (bc_fields c) -> field_for p f -> field_case p f -> gives types b_default b_from b_try_from cs p r ->
  (forall t, ~ nested types p t) -> holds (fold_left (field_step f) cs (init_of f)) r.
Proof.
  intros Hf Hpf Hc Hg Hnn. pose proof (case_typed _ _ Hpf Hc) as Hty.
  assert (Hb : is_st_body (bf_setter f) = false).
  { destruct (is_st_body (bf_setter f)) eqn:E; auto. destruct (case_body p f Hc E) as (t & Ht). now apply Hnn in Ht. }
  assert (Hmsg : forall ty, type_text types p ty -> forall e,
     set_value B b_from (bf_type f) (bf_setter f) (RErr e) =
       Some (if is_optional (p_kind p) then FOpt (RErr (conversion_failed ty p)) else FReq (RErr (conversion_failed ty p)))).
  { intros ty Hty' e.
    destruct Hc as [t ty' H _ _ _ _ _ _|ty' _ Ho Ht _ _ Htt Hs|ty' _ Ho Ht _ _ Htt Hs].
    - now apply Hnn in H.
    - rewrite Ho, Ht, Hs. cbn. now rewrite (type_text_unique _ _ _ Htt Hty').
    - rewrite Ho, Ht, <- (type_text_unique _ _ _ Htt Hty'). now destruct Hs as [-> | ->]. }
  assert (Hval : forall v, set_value B b_from (bf_type f) (bf_setter f) (ROk v) =
       Some (if is_optional (p_kind p) then FOpt (ROk (Some v)) else FReq (ROk v))).
  { intros v. destruct Hc as [t ty' H _ _ _ _ _ _|ty' _ Ho Ht _ _ Htt Hs|ty' _ Ho Ht _ _ Htt Hs].
    - now apply Hnn in H.
    - now rewrite Ho, Ht, Hs.
    - rewrite Ho, Ht. now destruct Hs as [-> | ->]. }
  destruct Hpf as [Hn _ _ _ _].
  assert (Hlast : forall conv, latest (p_name p) cs (Some conv) ->
     set_value B b_from (bf_type f) (bf_setter f) conv = Some (fold_left (field_step f) cs (init_of f))).
  { intros conv Hl. remember (Some conv) as o eqn:Eo. destruct Hl as [|pre conv' post Hno]; [discriminate|].
    injection Eo as ->. eapply fold_latest; eauto. }
  assert (Hnever : latest (p_name p) cs None -> fold_left (field_step f) cs (init_of f) = init_of f).
  { intros Hl. remember (@None (result value str)) as o eqn:Eo. destruct Hl as [cs Hno|]; [|discriminate].
    eapply fold_plain; eauto. }
  destruct Hg as [_ Hl Ho|_ Hl Ho|v _ Hl|e ty _ Hl Htt|t b v H|t b e H|t e H]; try now apply Hnn in H.
  - rewrite (Hnever Hl). destruct Hc as [t ty' H _ _ _ _ _ _|ty' _ Ho' Ht Hin _ Htt Hs|ty' _ Ho' Ht Hin _ Htt Hs].
    + now apply Hnn in H.
    + unfold init_of, initial_field. now rewrite Ht, Hin.
    + congruence.
  - rewrite (Hnever Hl). destruct Hc as [t ty' H _ _ _ _ _ _|ty' _ Ho' Ht Hin _ Htt Hs|ty' _ Ho' Ht Hin _ Htt Hs].
    + now apply Hnn in H.
    + congruence.
    + unfold init_of, initial_field. now rewrite Ht, Hin.
  - pose proof (Hlast _ Hl) as E. rewrite Hval in E. destruct (is_optional (p_kind p)); injection E as <-; reflexivity.
  - pose proof (Hlast _ Hl) as E. rewrite (Hmsg ty Htt) in E.
    destruct (is_optional (p_kind p)); injection E as <-; reflexivity.
Qed.

Lemma body_value cs p f t r : In f (bc_fields c) -> field_for p f -> field_case p f -> nested types p t ->
  body_after types b_default b_from p t cs r -> fold_left (field_step f) cs (init_of f) = FBuilder r.
Proof.
  intros Hf Hpf Hc Hnest Hba.
  destruct Hc as [t' ty' H Ht Hin _ Htt Hn Hs|ty' H _ _ _ _ _ _|ty' H _ _ _ _ _ _]; try now apply H in Hnest.
  assert (t' = t) as ->. { destruct H as (_ & E & _), Hnest as (_ & E' & _). congruence. }
  assert (Hb : is_st_body (bf_setter f) = true) by now rewrite Hs.
  assert (Hname : bf_name f = lit "body") by (destruct Hpf; congruence).
  assert (Hi : init_of f = FBuilder (ROk (b_default t))) by (unfold init_of, initial_field; now rewrite Ht, Hin).
  destruct Hba as [cs Hno|pre v post Hno|pre e post ty Hno Hty].
  - rewrite Hi. now rewrite fold_mapped.
  - rewrite fold_left_app. cbn [fold_left field_step]. rewrite Hname, str_eqb_refl, Hs, Ht. cbn [set_value].
    now rewrite fold_mapped.
  - rewrite fold_left_app. cbn [fold_left field_step]. rewrite Hname, str_eqb_refl, Hs, Ht. cbn [set_value].
    rewrite fold_mapped by auto. f_equal. f_equal. unfold conversion_failed.
    rewrite (type_text_unique _ _ _ Htt Hty), Hn. rewrite !app_assoc_reverse.
    reflexivity.
Qed.
End Method.
End Run.
End Types.

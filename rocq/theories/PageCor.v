(** The results about streams in the form of the property statements. *)
From Verif Require Import Base SerdeModel ClientModel MethodModel RunModel FutureModel StreamModel StreamSpec StreamProofs StreamInst
  RequestSpec RequestProofs BuilderModel BuilderSpec BuilderProofs BuilderSend OasModel OpModel PageSpec PageProofs.
Local Open Scope N_scope.

Lemma token_kind ps p : paginated_params ps -> In p ps -> p_api_name p = lit "page_token" -> p_kind p = KQuery false.
Proof.
  intros (Hnd & (pt & Hpt & Ept & Ekt) & Hname & _) Hp E. rewrite (named_once ps p pt); auto.
  transitivity (lit "page_token"); [|symmetry]; apply Hname; auto.
Qed.

Lemma page_queries args token : paginated_params (map fst args) -> forall n x,
  (In (n, x) (query_arguments (page_arguments token args)) /\ x <> VNone) <->
  (n = lit "page_token" /\ x = VSome (v_serde token)) \/
  (n = lit "limit" /\ exists p v, In (p, Some v) args /\ p_api_name p = lit "limit" /\ p_kind p = KQuery false /\ x = VSome (v_serde v)).
Proof.
  intros Hpp n x. assert (Htk := fun p => token_kind _ p Hpp). unfold query_arguments, page_arguments. rewrite flat_map_concat_map, map_map, <- flat_map_concat_map, in_flat_map.
  destruct Hpp as (Hnd & (pt & Hpt & Ept & Ekt) & Hname & Hq). split.
  - intros (((p & o) & Hi & Hx) & Hnn). cbn [fst snd] in Hx.
    assert (Hp : In p (map fst args)) by now apply (in_map fst) in Hi.
    destruct (str_eqb (p_api_name p) (lit "page_token")) eqn:E.
    + apply str_eqb_spec in E. rewrite (Htk p Hp E) in Hx. destruct Hx as [[= <- <-]|[]]. left. auto.
    + destruct (p_kind p) as [|r|r|ct] eqn:Ek; try easy; try now destruct o. rewrite (Hq p r Hp Ek) in *.
      destruct (str_eqb (p_api_name p) (lit "limit")) eqn:El.
      * apply str_eqb_spec in El. destruct o as [v|]; destruct Hx as [[= <- <-]|[]]; [|easy]. right. split; [exact El|]. exists p, v. rewrite (Hq p r Hp Ek) in Ek. auto.
      * destruct Hx as [[= <- <-]|[]]. easy.
  - intros [(-> & ->)|(-> & p & v & Hi & El & Ek & ->)]; (split; [|discriminate]).
    + apply in_map_iff in Hpt as ((p & o) & <- & Hi). exists (p, o). split; auto. cbn [fst snd] in *.
      rewrite Ept, str_eqb_refl, Ekt. now left.
    + exists (p, Some v). split; auto. cbn [fst snd]. rewrite El, Ek.
      change (str_eqb (lit "limit") (lit "page_token")) with false. change (str_eqb (lit "limit") (lit "limit")) with true.
      now left.
Qed.

Lemma page_others args token : paginated_params (map fst args) -> forall p o, (forall r, p_kind p <> KQuery r) ->
  (In (p, o) (page_arguments token args) <-> In (p, o) args).
Proof.
  intros Hpp p o Hk. assert (Htk := fun p => token_kind _ p Hpp). unfold page_arguments. rewrite in_map_iff. split.
  - intros ((q & v) & E & Hi). cbn [fst snd] in E. injection E as -> E.
    assert (Hp : In p (map fst args)) by now apply (in_map fst) in Hi.
    destruct (str_eqb (p_api_name p) (lit "page_token")) eqn:Et.
    + apply str_eqb_spec in Et. exfalso. apply (Hk false). auto.
    + destruct (p_kind p) eqn:Ek; try (subst; auto). now destruct (Hk required).
  - intro Hi. exists (p, o). split; auto. cbn [fst snd]. f_equal.
    assert (Hp : In p (map fst args)) by now apply (in_map fst) in Hi.
    destruct (str_eqb (p_api_name p) (lit "page_token")) eqn:Et.
    + apply str_eqb_spec in Et. exfalso. apply (Hk false). auto.
    + destruct (p_kind p) eqn:Ek; auto. now destruct (Hk required).
Qed.

Section Calls.
Context {V W : Type} {page_items : V -> list V} {page_next : V -> option value}
  {ctx : context} {fs : type_id -> list N -> result V jerr} {ops : world_ops W}.

Lemma cor_positional_streams sb ps args : positional_call ps args ->
  streams page_items page_next (page_request ctx fs ops sb args)
    (positional_stream V page_items page_next ctx fs W ops sb ps (variables (without_token args))) FlatFirst.
Proof. intros [H1 H2 H3 H4]. now apply positional_streams. Qed.

Lemma cor_positional_calls sb ps args w : positional_call ps args ->
  map fst (without_token args) = stream_params ps /\
  call_method V ctx fs W ops sb ps (variables (without_token args)) None (first_params ps) w
    = page_of V W (run V ctx fs W ops sb (variables args) w) /\
  forall token,
  call_method V ctx fs W ops sb ps (visible (variables (without_token args))) (Some token) (step_params ps) w
    = page_of V W (run V ctx fs W ops sb (variables (page_arguments token args)) w).
Proof.
  intros [H1 H2 H3 H4]. split; [now apply stream_env_params|]. unfold call_method. split.
  - rewrite (bind_first ps args H1 H2 H3 : bind_args (variables (without_token args)) _ _ _ = _). reflexivity.
  - intro token. rewrite (bind_step ps args H1 H2 H4 token : bind_args (visible (variables (without_token args))) _ _ _ = _). reflexivity.
Qed.

Section Builder.
Context {B : Type} {types : type_id -> option type_info} {b_default : type_id -> B} {b_from : type_id -> value -> B}
  {h : hooks} {m : op_method} {c : builder_code} {cs : list (setter_call B)} {st : list (str * field B)}.
Variable b_try_from : type_id -> B -> result value str.
Hypothesis H : built types b_default b_from h m c cs st.
Notation gives := (gives types b_default b_from b_try_from).
Notation stream_of resets := (builder_stream V page_items page_next ctx fs W ops B b_try_from c resets st).

Lemma cor_resets resets : bc_stream c = Some resets -> resets = reset_fields (m_params m).
Proof.
  destruct H as [Hg _ _ _]. destruct (builder_struct_ok types h m c Hg) as (_ & _ & _ & Hs).
  destruct (m_paginated m); rewrite Hs; congruence.
Qed.

Lemma cor_builder_streams resets args : paginated_params (m_params m) -> bc_stream c = Some resets ->
  map fst args = m_params m -> Forall (fun pv => gives cs (fst pv) (ROk (snd pv))) args ->
  streams page_items page_next (page_request ctx fs ops (bc_send c) args) (stream_of resets) FlatFirst.
Proof.
  intros Hp Hs Ha Hg. rewrite (cor_resets resets Hs). destruct H as [Hgen Ho Hl Hb].
  eapply (builder_streams page_items page_next ctx fs ops types b_default b_from b_try_from h); eauto.
Qed.

Lemma cor_builder_calls resets args w : paginated_params (m_params m) -> bc_stream c = Some resets ->
  map fst args = m_params m -> Forall (fun pv => gives cs (fst pv) (ROk (snd pv))) args ->
  send_page V ctx fs W ops B b_try_from c st w = page_of V W (run V ctx fs W ops (bc_send c) (variables args) w) /\
  forall token,
  send_page V ctx fs W ops B b_try_from c (assign B (lit "page_token") (FOpt (ROk (Some token))) (reset B resets st)) w
    = page_of V W (run V ctx fs W ops (bc_send c) (variables (page_arguments token args)) w).
Proof.
  intros Hp Hs Ha Hg. rewrite (cor_resets resets Hs). destruct H as [Hgen Ho Hl Hb].
  assert (Hst := built_stores types b_default b_from b_try_from h m c Hgen Ho cs st args Hl Hb Ha Hg).
  unfold send_page. split; [|intro token]; f_equal; eapply send_stored; eauto.
  eapply step_stores; eauto.
Qed.

Lemma cor_builder_refused resets pre p post msg : bc_stream c = Some resets ->
  m_params m = pre ++ p :: post -> Forall (fun q => exists o, gives cs q (ROk o)) pre -> gives cs p (RErr msg) ->
  forall fuel k w, exists s,
  take (stream_of resets) fuel (S k) FlatFirst w = Some (Some (RErr (InvalidRequest msg)) :: repeat None k, s, w).
Proof.
  intros Hs. rewrite (cor_resets resets Hs). destruct H as [Hgen Ho Hl Hb].
  eapply (builder_stream_refused page_items page_next ctx fs ops types b_default b_from b_try_from h); eauto.
Qed.
End Builder.
End Calls.

Lemma cor_stream_generated types h m c : builder_struct types h m = Ok c ->
  (bc_stream c <> None <-> m_paginated m <> None).
Proof.
  intro Hg. destruct (builder_struct_ok types h m c Hg) as (_ & _ & _ & Hs). destruct (m_paginated m); rewrite Hs; easy.
Qed.

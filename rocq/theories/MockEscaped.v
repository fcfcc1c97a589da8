(** Mocks of escaped values. *)
From Verif Require Import Base TemplateModel TemplateSpec TemplateProofs EncodeModel EncodeSpec EncodeProofs
  SerdeModel OasModel OpModel RunModel SanitizeModel MethodModel BuilderModel MockModel MockSpec MockProofs MockCor MockDoc MockEscapedSpec.
Local Open Scope N_scope.

Lemma escaped_mem c : existsb (N.eqb c) escaped_chars = true <-> In c escaped_chars.
Proof.
  rewrite existsb_exists. split; [intros (x & H & E); apply N.eqb_eq in E; now subst|intro H; exists c; split; auto; apply N.eqb_refl].
Qed.
Lemma steps_escaped t : forall r acc, rx_steps (RmTop, acc) (escaped t ++ r) = rx_steps (RmTop, rev (chars t) ++ acc) r.
Proof.
  induction t as [|c t IH]; intros r acc; [reflexivity|]. cbn [escaped flat_map]. rewrite <- app_assoc. fold (escaped t).
  destruct (existsb (N.eqb c) escaped_chars) eqn:E.
  - apply escaped_mem in E. cbn [app rx_steps].
    change (rx_step (RmTop, acc) (ch "\")) with (Some (RmEscape, acc)). cbn iota beta.
    assert (Es : rx_step (RmEscape, acc) c = Some (RmTop, RxOne (RcChar c) :: acc)).
    { cbn [rx_step]. assert (Eh : has_char c rx_escapable = true) by (apply has_char_spec; exact E). now rewrite Eh. }
    rewrite Es, IH. cbn [chars map rev]. now rewrite <- app_assoc.
  - assert (Hp : plain_char c).
    { intro Hi. assert (H : In c escaped_chars); [|apply escaped_mem in H; congruence].
      change (In c [92; 46; 43; 42; 63; 40; 41; 124; 91; 123; 94; 36]) in Hi.
      change (In c [92; 46; 43; 42; 63; 40; 41; 124; 91; 93; 123; 125; 94; 36; 35; 38; 45; 126]). cbn in Hi |- *. tauto. }
    cbn [app rx_steps]. rewrite plain_step by assumption. rewrite IH. cbn [chars map rev]. now rewrite <- app_assoc.
Qed.

Section Mock.
Context (U : unicode) (types : type_id -> option type_info) (m : op_method) (o : mock_op).
Hypothesis Ho : httpmock_method U types m = Ok o.
Hypothesis Hnd : NoDup (map p_name (m_params m)).
Variable ps : list piece.
Hypothesis Hs : strict ps.
Hypothesis Hp : parse (show ps) = Ok (m_path m).
Hypothesis Hv : NoDup (vars ps).
Hypothesis Hpl : plain_template ps.

Lemma escaped_regex n t : In n (vars ps) ->
  exists s, format_macro (as_wildcard_param (m_path m) n) [escaped t] = Some s /\ regex_new s = Some (param_items ps n t).
Proof.
  intros Hn. rewrite wildcard_param_texts, (pieces_squeezed ps (m_path m) Hs Hp). eexists. split.
  - apply formatted; [exact (squeezed_braces ps Hs)| |]; rewrite vars_squeeze; assumption.
  - apply regex_texts; [exact (squeezed_plain ps Hpl)|]. intros q r acc _. destruct (str_eqb q n).
    + apply steps_escaped.
    + apply rx_steps_dots.
Qed.
Lemma escaped_call p v t w : p_kind p = KPath -> In (p_api_name p) (vars ps) -> v_text v = escaped t ->
  when_method_of types (m_path m) p = Ok w ->
  when_call (wm_body w) (Some v) = Some (ExPath (param_items ps (p_api_name p) t)).
Proof.
  intros Hk Hin Ht Hw. unfold when_method_of in Hw. apply obind_ok in Hw as (? & _ & Hw). rewrite Hk in Hw.
  cbn in Hw. injection Hw as <-. cbn [wm_body when_call]. rewrite Ht.
  destruct (escaped_regex (p_api_name p) t Hin) as (s & -> & ->). reflexivity.
Qed.

Lemma mock_escaped (calls : list (op_param * value * str)) :
  Forall (fun c => In (fst (fst c)) (m_params m) /\ p_kind (fst (fst c)) = KPath /\ In (p_api_name (fst (fst c))) (vars ps)
                   /\ v_text (snd (fst c)) = escaped (snd c) /\ ~ In (ch "/") (snd c)) calls ->
  (length calls <= 1)%nat \/ one_per_segment ps ->
  exists es, when_calls o (map (fun c => (p_name (fst (fst c)), Some (snd (fst c)))) calls) = Some es
    /\ forall json_is r, ~ In 10 (mr_path r) ->
       (matched json_is es r = true <->
        mr_method r = m_method m
        /\ expansion ps (map (fun c => (p_api_name (fst (fst c)), snd c)) calls) (mr_path r)).
Proof.
  intros HF Hone.
  pose proof (when_calls_ok U types m o Ho Hnd (wildcard_items ps) (map (fun c => (fst (fst c), Some (snd (fst c)))) calls)
    (map (fun c => ExPath (param_items ps (p_api_name (fst (fst c))) (snd c))) calls)) as Hc.
  rewrite map_map in Hc. cbn [fst snd] in Hc. eexists. split.
  - apply Hc; [now apply wildcard_regex|]. clear - HF Hs Hp Hv Hpl.
    induction HF as [|[[p v] t] calls (H1 & H2 & H3 & H4 & _) _ IH]; constructor; auto.
    cbn [fst snd] in *. split; auto. intros w Hw. now apply escaped_call.
  - intros json_is r Hnl. rewrite matched_rev.
    rewrite <- (restrictions ps (m_path m)); auto.
    + rewrite !Forall_map. cbn [fst snd meets]. tauto.
    + intros n t Hin. apply in_map_iff in Hin as ([[p v] t'] & [= <- <-] & Hin). rewrite Forall_forall in HF.
      destruct (HF _ Hin) as (_ & _ & H & _ & H'). auto.
    + rewrite map_length. auto.
Qed.
End Mock.

(** Mocks of operations: what they match and answer. *)
From Coq Require Import ZifyBool ZifyN.
From Verif Require Import Base Utf8 SerdeModel OasModel HeaderModel ClientModel TemplateModel TemplateSpec TemplateProofs
  EncodeModel EncodeSpec EncodeProofs QuerySpec QueryProofs MethodModel OpModel BuilderModel RunModel RequestSpec
  RequestProofs ParamSpec DocSpec DocProofs DocCor ExtractProofs SanitizeModel MockModel MockSpec MockProofs MockCor.
Local Open Scope N_scope.

Section Mock.
Context (U : unicode) (types : type_id -> option type_info) (m : op_method) (o : mock_op).
Hypothesis Ho : httpmock_method U types m = Ok o.

Lemma mock_parts : mo_http_method o = m_method m /\ mo_path_re o = as_wildcard (m_path m)
  /\ Forall2 (fun p w => when_method_of types (m_path m) p = Ok w) (m_params m) (mo_when_methods o)
  /\ Forall2 (fun r t => then_method_of U types r = Ok t) (m_responses m) (mo_then_methods o).
Proof.
  unfold httpmock_method in Ho. apply obind_ok in Ho as (ws & Hw & H). apply obind_ok in H as (ths & Ht & H).
  injection H as <-. cbn. repeat split; auto; now apply mapM_ok_iff.
Qed.

Lemma when_method_name path p w : when_method_of types path p = Ok w -> wm_name w = p_name p.
Proof.
  unfold when_method_of. intro H. apply obind_ok in H as (? & _ & H). apply obind_ok in H as (b & _ & H).
  now injection H as <-.
Qed.

Lemma find_when ps ws p : Forall2 (fun p w => when_method_of types (m_path m) p = Ok w) ps ws ->
  NoDup (map p_name ps) -> In p ps ->
  exists w, find (fun w => str_eqb (wm_name w) (p_name p)) ws = Some w /\ when_method_of types (m_path m) p = Ok w.
Proof.
  induction 1 as [|p1 w1 ps ws H1 HF IH]; [easy|]. cbn [map find In]. intros Hnd Hin. inversion Hnd; subst.
  rewrite (when_method_name _ _ _ H1). destruct Hin as [<-|Hin].
  - rewrite str_eqb_refl. eauto.
  - assert (Hne : p_name p1 <> p_name p).
    { intro E. apply H2. rewrite E. now apply in_map. }
    apply str_eqb_neq in Hne. rewrite Hne. auto.
Qed.

Hypothesis Hnd : NoDup (map p_name (m_params m)).

Lemma when_calls_ok re cs exs : regex_new (as_wildcard (m_path m)) = Some re ->
  Forall2 (fun c ex => In (fst c) (m_params m)
    /\ forall w, when_method_of types (m_path m) (fst c) = Ok w -> when_call (wm_body w) (snd c) = Some ex) cs exs ->
  when_calls o (map (fun c => (p_name (fst c), snd c)) cs)
  = Some ([ExMethod (m_method m); ExPath re] ++ rev exs).
Proof.
  intros Hre. destruct mock_parts as (E1 & E2 & HF & _). induction 1 as [|[p arg] ex cs exs (Hin & Hw) _ IH].
  - cbn. unfold when_new. now rewrite E1, E2, Hre.
  - cbn [map when_calls fst snd] in *. destruct (find_when _ _ _ HF Hnd Hin) as (w & Ef & Ew). rewrite Ef, IH, (Hw w Ew).
    cbn [option_map rev]. now rewrite <- app_assoc.
Qed.

Lemma matched_rev json_is mth re exs r :
  matched json_is ([ExMethod mth; ExPath re] ++ rev exs) r = true <->
  mr_method r = mth /\ is_match re (mr_path r) = true /\ Forall (fun ex => meets json_is r ex = true) exs.
Proof.
  unfold matched. rewrite forallb_app, andb_true_iff. cbn [forallb meets]. rewrite !andb_true_iff.
  assert (Hm : http_method_eqb (mr_method r) mth = true <-> mr_method r = mth).
  { unfold http_method_eqb. rewrite str_eqb_spec. split; [|now intros ->].
    destruct (mr_method r), mth; vm_compute; congruence. }
  rewrite Hm, forallb_forall, Forall_forall. split.
  - intros ((-> & Hp & _) & HF). repeat split; auto. intros ex Hex. apply HF. now apply -> in_rev.
  - intros (-> & Hp & HF). repeat split; auto. intros ex Hex. apply HF. now apply in_rev in Hex.
Qed.

(** ** Paths *)

Section Path.
Variable ps : list piece.
Hypothesis Hs : strict ps.
Hypothesis Hp : parse (show ps) = Ok (m_path m).
Hypothesis Hv : NoDup (vars ps).
Hypothesis Hpl : plain_template ps.

Lemma path_call p v w : p_kind p = KPath -> In (p_api_name p) (vars ps) -> plain_text (v_text v) ->
  when_method_of types (m_path m) p = Ok w ->
  when_call (wm_body w) (Some v) = Some (ExPath (param_items ps (p_api_name p) (v_text v))).
Proof.
  intros Hk Hin Ht Hw. unfold when_method_of in Hw. apply obind_ok in Hw as (? & _ & Hw). rewrite Hk in Hw.
  cbn in Hw. injection Hw as <-. cbn [wm_body when_call].
  destruct (param_regex ps (m_path m) Hs Hp Hv Hpl (p_api_name p) (v_text v) Hin Ht) as (s & -> & ->). reflexivity.
Qed.

Lemma mock_paths (calls : list (op_param * value)) :
  Forall (fun c => In (fst c) (m_params m) /\ p_kind (fst c) = KPath /\ In (p_api_name (fst c)) (vars ps)
                   /\ plain_text (v_text (snd c)) /\ ~ In (ch "/") (v_text (snd c))) calls ->
  (length calls <= 1)%nat \/ one_per_segment ps ->
  exists es, when_calls o (map (fun c => (p_name (fst c), Some (snd c))) calls) = Some es
    /\ forall json_is r, ~ In 10 (mr_path r) ->
       (matched json_is es r = true <->
        mr_method r = m_method m
        /\ expansion ps (map (fun c => (p_api_name (fst c), v_text (snd c))) calls) (mr_path r)).
Proof.
  intros HF Hone.
  pose proof (when_calls_ok (wildcard_items ps) (map (fun c => (fst c, Some (snd c))) calls)
    (map (fun c => ExPath (param_items ps (p_api_name (fst c)) (v_text (snd c)))) calls)) as Hc.
  rewrite map_map in Hc. cbn [fst snd] in Hc. eexists. split.
  - apply Hc; [now apply wildcard_regex|]. clear - HF Hs Hp Hv Hpl. induction HF as [|[p v] calls (H1 & H2 & H3 & H4 & _) _ IH]; constructor; auto.
    cbn [fst snd] in *. split; auto. intros w Hw. now apply path_call.
  - intros json_is r Hnl. rewrite matched_rev.
    rewrite <- (restrictions ps (m_path m)); auto.
    + rewrite !Forall_map. cbn [fst snd meets]. tauto.
    + intros n t Hin. apply in_map_iff in Hin as ([p v] & [= <- <-] & Hin). rewrite Forall_forall in HF.
      destruct (HF _ Hin) as (_ & _ & H & _ & H'). auto.
    + rewrite map_length. auto.
Qed.
End Path.

(** ** Responses *)

Lemma mock_responses : Forall2 (fun r t =>
    tm_value t = content_of (o_typ r)
    /\ (forall status code, then_call (tm_status t) status = Some code -> allowed (o_status r) code)
    /\ (forall code, allowed (o_status r) code -> exists status, then_call (tm_status t) status = Some code))
  (m_responses m) (mo_then_methods o).
Proof.
  destruct mock_parts as (_ & _ & _ & HF). induction HF as [|r t rs ths H _ IH]; constructor; auto.
  unfold then_method_of in H. apply obind_ok in H as (v & Hval & H). apply obind_ok in H as ([n s] & Hst & H). injection H as <-.
  cbn [tm_value tm_status]. split; [|split].
  - unfold then_value_of in Hval. destruct (o_typ r); cbn; try (now injection Hval as <-).
    destruct (types t); [now injection Hval as <-|easy].
  - intros status code E. unfold then_status_of in Hst. destruct (o_status r) as [c|c|]; unfold allowed.
    + destruct (_ || _); [easy|]. destruct (canonical_reason c); [|easy]. injection Hst as <- <-. cbn in E. congruence.
    + assert (s = TsClass c) as ->.
      { destruct c as [|[[[|[]|]|[]|]|[[]|[|[]|]|]|]]; cbn in Hst; congruence. }
      cbn in E. destruct (N.eqb_spec (status / 100) c) as [<-|]; [|easy]. injection E as <-. 
      pose proof (N.div_mod' status 100). assert (status mod 100 < 100) by (apply N.mod_lt; lia). lia.
    + auto.
  - intros code Hal. unfold then_status_of in Hst. destruct (o_status r) as [c|c|]; unfold allowed in Hal.
    + destruct (_ || _); [easy|]. destruct (canonical_reason c); [|easy]. injection Hst as <- <-. cbn. subst. now exists 0.
    + assert (s = TsClass c) as ->.
      { destruct c as [|[[[|[]|]|[]|]|[[]|[|[]|]|]|]]; cbn in Hst; congruence. }
      exists code. cbn. assert (E : code / 100 = c). { symmetry. apply (N.div_unique code 100 c (code - 100 * c)); lia. }
      now rewrite E, N.eqb_refl.
    + injection Hst as <- <-. now exists code.
Qed.
End Mock.

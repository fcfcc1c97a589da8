(** From the command line to the request and the callbacks. *)
From Verif Require Import Base OasModel ClientModel MethodModel OpModel RunModel BuilderModel BuilderSpec BuilderProofs BuilderCor RequestSpec
  SanitizeModel SanitizeSpec FutureModel StreamModel StreamSpec CliModel CliSpec CliProofs CliRun CliList.
From Coq Require Import Permutation Sorted Lia.
Local Open Scope N_scope.

Section End.
Context {U : unicode} {types : type_id -> option type_info} {ctypes : type_id -> option cli_type}.
Hypothesis Hcases : forall c, lowercase U c = true -> uppercase U c = false.
Hypothesis Hdash : alphanumeric U (ch "-") = false.
Context {B : Type} (b_default : type_id -> B) (b_from : type_id -> value -> B) (b_try_from : type_id -> B -> result value str)
  (b_set : str -> value -> B -> B) (read_json : str -> value -> option value) (parse_value : value_parser -> str -> option value).
Context {m : op_method} {o : cli_operation} {given : list (str * str)}.
Hypothesis H : accepted U types ctypes read_json parse_value m o given.
Notation parsers := (cg_parsers (co_args o)).
Notation on_line := (on_line parse_value parsers given).
Notation gives := (gives types b_default b_from b_try_from).
Notation line_gives := (line_gives U ctypes b_default b_from b_try_from b_set read_json parse_value m parsers given).

Lemma line_parsed : exists ms, clap_parse parse_value parsers given = Some ms.
Proof. apply clap_parse_iff; [apply (ck_ids _ _ _ _ _ (ac_ok _ _ _ _ _ _ _ _ H))|apply (ac_line _ _ _ _ _ _ _ _ H)]. Qed.

Lemma args_made : cli_method_args U ctypes m = Ok (co_args o).
Proof. apply (cli_method_ok _ _ _ _ (ac_generated _ _ _ _ _ _ _ _ H)). Qed.

Section Parsed.
Context {ms : list (str * (str * value))}.
Hypothesis Hms : clap_parse parse_value parsers given = Some ms.

Lemma file_readable ty path : cg_json (co_args o) = Some ty -> option_map snd (assoc (lit "json-body") ms) = Some path -> read_json ty path <> None.
Proof.
  intros Ej Ea. destruct (cli_method_args_ok _ _ Hcases Hdash _ _ args_made) as [params props own rest newp newpr args body _ _ _ _ _ _ _ _ _ Hj].
  destruct (body_type_id m) as [t|] eqn:Et; [|destruct Hj; congruence]. destruct Hj as (ct & Ec & Ej' & _).
  rewrite Ej in Ej'. injection Ej' as ->. apply body_type_spec in Et. apply (ac_file _ _ _ _ _ _ _ _ H t ct path); auto.
  rewrite <- Ea. eapply line_arg; eauto. apply (ac_ok _ _ _ _ _ _ _ _ H).
Qed.

Lemma line_calls : exists calls, consumed B b_set read_json ms (co_args o) = Some calls
  /\ Forall (legal_call types m) calls
  /\ forall p v, In p (m_params m) -> line_gives p v -> gives calls p (ROk v).
Proof.
  eexists. split; [|split].
  - eapply (consumed_calls U types ctypes); eauto using args_made, file_readable. apply (ac_ok _ _ _ _ _ _ _ _ H).
  - eapply (legal_calls U types ctypes); eauto using args_made, file_readable. apply (ac_ok _ _ _ _ _ _ _ _ H).
  - intros p v Hp Hl. eapply (line_gives_gives U types ctypes); eauto using args_made, file_readable.
    + apply (ac_ok _ _ _ _ _ _ _ _ H).
    + intros q Hq En Hpg. now apply (ac_token _ _ _ _ _ _ _ _ H).
Qed.

Lemma file_determines p k t ct path v r : In p (m_params m) -> p_kind p = KBody k -> p_typ p = PType t -> ctypes t = Some ct ->
  on_line (lit "json-body") (Some path) -> read_json (ct_ident ct) path = Some v ->
  file_body b_from b_try_from t ct v r ->
  exists calls, consumed B b_set read_json ms (co_args o) = Some calls /\ gives calls p r.
Proof.
  intros Hp Ek Et Ec Ho Er Hr. pose proof (ac_ok _ _ _ _ _ _ _ _ H) as Hok.
  eexists. split; [eapply (consumed_calls U types ctypes); eauto using args_made, file_readable|].
  assert (Ho' : Some path = option_map snd (assoc (lit "json-body") ms)) by (eapply line_unique; eauto).
  assert (Hn : forall prs, ct_details ct = CdStruct prs -> nested types p t).
  { intros prs Ed. split; [eauto|]. split; auto. destruct (ck_types _ _ _ _ _ Hok t ct Ec) as (i & Ei & Hi). exists i. split; auto. apply Hi. eauto. }
  destruct Hr as [Hns|prs v' Ed Ev|prs e Ed Ev].
  - eapply (body_given_plain U types ctypes); eauto using args_made, file_readable.
    intros t' (_ & Et' & i & Ei & Eb). rewrite Et in Et'. injection Et' as <-.
    destruct (ck_types _ _ _ _ _ Hok t ct Ec) as (i' & Ei' & Hi). rewrite Ei in Ei'. injection Ei' as <-.
    apply Hi in Eb as (prs & Eb). now apply (Hns prs).
  - eapply gi_body; [now apply (Hn prs)| |exact Ev]. eapply (body_given_struct U types ctypes); eauto using args_made, file_readable.
  - eapply gi_body_invalid; [now apply (Hn prs)| |exact Ev]. eapply (body_given_struct U types ctypes); eauto using args_made, file_readable.
Qed.

Lemma raw_never p k : In p (m_params m) -> p_kind p = KBody k -> p_typ p = PRawBody ->
  exists calls, consumed B b_set read_json ms (co_args o) = Some calls
    /\ gives calls p (RErr (lit "body was not initialized")).
Proof.
  intros Hp Ek Et. pose proof (ac_ok _ _ _ _ _ _ _ _ H) as Hok.
  eexists. split; [eapply (consumed_calls U types ctypes); eauto using args_made, file_readable|].
  eapply (raw_body_missing U types ctypes); eauto using args_made, file_readable.
Qed.

Lemma limit_parsed nonzero n : limit_on_line parse_value nonzero parsers given n -> line_limit nonzero ms n.
Proof.
  pose proof (ac_ok _ _ _ _ _ _ _ _ H) as Hok. intros [Ho|v Hs].
  - apply ll_none. assert (E : None = option_map snd (assoc (lit "limit") ms)) by (eapply line_unique; eauto).
    destruct (assoc _ ms); easy.
  - apply ll_some. now apply (clap_parse_found parse_value parsers given ms _ _ _ (ck_ids _ _ _ _ _ Hok) Hms).
Qed.
End Parsed.

Context {V W : Type} (nonzero : value -> N) (page_items : V -> list V) (page_next : V -> option value) (ctx : context)
  (fs : type_id -> list N -> result V jerr) (ops : world_ops W) {h : hooks} {c : builder_code}.
Hypothesis Hgen : builder_struct types h m = Ok c.
(** Without an override: the function of the trait as given (cli.rs:341-347). *)
Notation no_override := (fun (_ : list (str * (str * value))) (cs : list (setter_call B)) => ROk cs).
Notation run_command ms := (execute B b_default b_from b_try_from b_set read_json nonzero no_override V page_items page_next ctx fs W ops o c ms).

Lemma built_calls calls : Forall (legal_call types m) calls -> exists st, built types b_default b_from h m c calls st.
Proof. apply cor_total; auto. apply (ck_builder _ _ _ _ _ (ac_ok _ _ _ _ _ _ _ _ H)). Qed.

Lemma end_one_shot args sb w r tr w' : m_paginated m = None ->
  map fst args = m_params m -> Forall (fun pv => line_gives (fst pv) (snd pv)) args ->
  method_sig_body h m = Ok sb -> run V ctx fs W ops sb (variables args) w = (Returned r, tr, w') ->
  match r with ROk _ => printable (sb_success sb) | RErr _ => printable (sb_error sb) end ->
  exists ms cb, clap_parse parse_value parsers given = Some ms
    /\ reported (sb_success sb) (sb_error sb) r cb
    /\ forall pf fuel, run_command ms pf fuel w = (CfReturned (returned r), [cb], w').
Proof.
  intros Hp Ha Hl Hsb Hr Hk. destruct line_parsed as (ms & Hms). destruct (line_calls Hms) as (calls & Hc & Hleg & Hg).
  destruct (built_calls calls Hleg) as (st & Hb).
  assert (Hgs : Forall (fun pv => gives calls (fst pv) (ROk (snd pv))) args).
  { rewrite Forall_forall in *. intros [p v] Hi. apply Hg; [rewrite <- Ha; now apply (in_map fst) in Hi|now apply Hl in Hi]. }
  destruct (cor_runs (V := V) (ctx := ctx) (fs := fs) (ops := ops) b_try_from Hb args w Ha Hgs) as (sb' & Hsb' & Hs).
  rewrite Hsb in Hsb'. injection Hsb' as <-. rewrite Hr in Hs.
  assert (Es : bc_send c = sb). { destruct (builder_struct_ok types h m c Hgen) as (_ & E0 & _). congruence. }
  assert (Hk' : match r with ROk _ => printable (sb_success (bc_send c)) | RErr _ => printable (sb_error (bc_send c)) end) by (now rewrite Es).
  destruct (one_shot_reported (override := no_override) b_try_from nonzero page_items page_next ctx fs ops (ac_generated _ _ _ _ _ _ _ _ H) Hc eq_refl Hb 0%nat 0%nat w r tr w' Hp Hs Hk') as (cb & Hcb & E).
  exists ms, cb. rewrite <- Es. split; auto. split; auto. intros pf fuel.
  destruct (one_shot_reported (override := no_override) b_try_from nonzero page_items page_next ctx fs ops (ac_generated _ _ _ _ _ _ _ _ H) Hc eq_refl Hb pf fuel w r tr w' Hp Hs Hk') as (cb' & Hcb' & E').
  assert (Ecb : cb' = cb) by (inversion Hcb; subst; inversion Hcb'; subst; congruence). now rewrite E', Ecb.
Qed.

Lemma end_listing args sb n w vs r w' : m_paginated m <> None -> paginated_params (m_params m) ->
  limit_on_line parse_value nonzero parsers given n ->
  map fst args = m_params m -> Forall (fun pv => line_gives (fst pv) (snd pv)) args ->
  method_sig_body h m = Ok sb -> printable (sb_error sb) ->
  to_list page_items page_next (page_request ctx fs ops sb args) n w vs r w' ->
  exists ms k, clap_parse parse_value parsers given = Some ms
    /\ forall pf fuel, (k <= pf)%nat -> (k <= fuel)%nat ->
       run_command ms pf fuel w = (CfReturned (returned r), listed vs r, w').
Proof.
  intros Hp Hpp Hn Ha Hl Hsb Hk Ht. destruct line_parsed as (ms & Hms). destruct (line_calls Hms) as (calls & Hc & Hleg & Hg).
  destruct (built_calls calls Hleg) as (st & Hb).
  assert (Hgs : Forall (fun pv => gives calls (fst pv) (ROk (snd pv))) args).
  { rewrite Forall_forall in *. intros [p v] Hi. apply Hg; [rewrite <- Ha; now apply (in_map fst) in Hi|now apply Hl in Hi]. }
  assert (Es : bc_send c = sb). { destruct (builder_struct_ok types h m c Hgen) as (_ & E0 & _). congruence. }
  rewrite <- Es in Hk, Ht.
  destruct (listing_reported (override := no_override) b_try_from nonzero page_items page_next ctx fs ops (ac_generated _ _ _ _ _ _ _ _ H) Hc eq_refl Hb
    n args w vs r w' Hp Hpp (limit_parsed Hms nonzero n Hn) Hk Ha Hgs Ht) as (k & E).
  exists ms, k. auto.
Qed.

(** Bytes or text as the body cannot be given at all. *)
Lemma end_raw p k sb w : m_paginated m = None -> In p (m_params m) -> p_kind p = KBody k -> p_typ p = PRawBody ->
  (forall q, In q (m_params m) -> q <> p -> exists v, line_gives q v) ->
  method_sig_body h m = Ok sb -> printable (sb_error sb) ->
  exists ms, clap_parse parse_value parsers given = Some ms
    /\ forall pf fuel, run_command ms pf fuel w
       = (CfReturned (RErr (CeClient (InvalidRequest (lit "body was not initialized")))),
          [CbError (InvalidRequest (lit "body was not initialized"))], w).
Proof.
  intros Hp Hi Ek Et Hq Hsb Hk. destruct line_parsed as (ms & Hms). destruct (line_calls Hms) as (calls & Hc & Hleg & Hg).
  destruct (built_calls calls Hleg) as (st & Hb). destruct (raw_never Hms p k Hi Ek Et) as (calls' & Hc' & Hr).
  rewrite Hc in Hc'. injection Hc' as <-. exists ms. split; auto. intros pf fuel.
  apply in_split in Hi as (pre & post & Epp).
  assert (Es : bc_send c = sb). { destruct (builder_struct_ok types h m c Hgen) as (_ & E0 & _). congruence. }
  assert (Hpre : Forall (fun q => exists v, gives calls q (ROk v)) pre).
  { apply Forall_forall. intros q Hqi. assert (Hin : In q (m_params m)) by (rewrite Epp; apply in_or_app; auto).
    destruct (Hq q Hin) as (v & Hv); [|exists v; now apply Hg].
    intros ->. destruct Hb as [_ [Hnd _] _ _]. rewrite Epp, map_app in Hnd. cbn in Hnd. apply NoDup_remove_2 in Hnd. apply Hnd.
    apply in_or_app. left. now apply in_map. }
  pose proof (cor_refused (V := V) (ctx := ctx) (fs := fs) (ops := ops) b_try_from Hb pre p post _ w Epp Hpre Hr) as Hs.
  rewrite <- Es in Hk.
  destruct (one_shot_reported (override := no_override) b_try_from nonzero page_items page_next ctx fs ops (ac_generated _ _ _ _ _ _ _ _ H) Hc eq_refl Hb pf fuel w _ _ _ Hp Hs Hk) as (cb & Hcb & E).
  rewrite E. inversion Hcb. reflexivity.
Qed.
End End.

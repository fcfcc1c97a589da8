(** When commands panic, when arguments are distinct, when commands are dispatched to their functions: exactly. *)
From Verif Require Import Base OasModel ClientModel MethodModel OpModel RunModel BuilderModel BuilderSpec BuilderProofs BuilderCor RequestSpec
  SanitizeModel SanitizeSpec SanitizeProofs WordProofs UnicodeProofs NameCor FutureModel StreamModel StreamSpec TemplateModel
  GenerateModel GenerateSpec ValidateProofs GenerateProofs GenerateCor ParamProofs CliModel CliSpec CliProofs CliRun CliList CliCor ResponseProofs.
From Coq Require Import Permutation Sorted Lia.
Local Open Scope N_scope.

(** ** Panics *)

Section Loop.
Context {S V E W : Type}.
Variable p : poller S (result V E) W.

Lemma loop_panics eo pf fuel : forall n s w cbs w',
  list_loop (take_stream p) eo pf fuel (s, n) w = (CfPanicked, cbs, w') <->
  exists vs s1 w1, cbs = map CbListItem vs /\ N.of_nat (length vs) < n /\ (length vs < fuel)%nat
    /\ take p pf (length vs) s w = Some (yields vs, s1, w1)
    /\ (p pf s1 w1 = PPanic w' \/ eo = EoTodo /\ exists e s2, p pf s1 w1 = PReady (Some (RErr e)) s2 w').
Proof.
  induction fuel as [|fuel IH]; intros n s w cbs w'; cbn [list_loop].
  - split; [discriminate|]. intros (vs & s1 & w1 & _ & _ & H & _). lia.
  - unfold take_stream at 1. cbn [fst snd]. destruct (n =? 0) eqn:E0.
    { split; [discriminate|]. intros (vs & s1 & w1 & _ & H & _). lia. }
    destruct (p pf s w) as [[[v|e]|] s' w0|w0|] eqn:Ep.
    + destruct (list_loop (take_stream p) eo pf fuel (s', N.pred n) w0) as [[f cbs'] w''] eqn:El. split.
      * intros [= -> <- ->]. apply IH in El as (vs & s1 & w1 & -> & Hn & Hf & Ht & H). exists (v :: vs), s1, w1.
        split; [reflexivity|]. split; [cbn [length]; lia|]. split; [cbn [length]; lia|]. split; [|exact H].
        cbn [length take]. now rewrite Ep, Ht.
      * intros (vs & s1 & w1 & -> & Hn & Hf & Ht & H). destruct vs as [|v' vs].
        { cbn in Ht. injection Ht as <- <-. rewrite Ep in H. destruct H as [H|(_ & ? & ? & H)]; discriminate. }
        cbn [length take] in Ht, Hn, Hf. rewrite Ep in Ht. destruct (take p pf (length vs) s' w0) as [[[os s2] w2]|] eqn:Et; [|discriminate].
        cbn [yields map] in Ht. injection Ht as -> -> -> ->.
        assert (E' : list_loop (take_stream p) eo pf fuel (s', N.pred n) w0 = (CfPanicked, map CbListItem vs, w')).
        { apply IH. exists vs, s1, w1. split; [reflexivity|]. split; [lia|]. split; [lia|]. auto. }
        rewrite El in E'. injection E' as -> -> ->. reflexivity.
    + split.
      * destruct eo; [discriminate|]. intros [= <- <-]. exists [], s, w. split; [reflexivity|]. split; [cbn; lia|]. split; [cbn; lia|].
        split; [reflexivity|]. right. eauto.
      * intros (vs & s1 & w1 & -> & Hn & Hf & Ht & H). destruct vs as [|v' vs].
        { cbn in Ht. injection Ht as <- <-. rewrite Ep in H. destruct H as [H|(-> & ? & ? & H)]; [discriminate|]. injection H as _ _ <-. reflexivity. }
        cbn [length take] in Ht. rewrite Ep in Ht. destruct (take p pf (length vs) s' w0) as [[[os s2] w2]|]; discriminate.
    + split; [discriminate|]. intros (vs & s1 & w1 & -> & Hn & Hf & Ht & H). destruct vs as [|v' vs].
      { cbn in Ht. injection Ht as <- <-. rewrite Ep in H. destruct H as [H|(_ & ? & ? & H)]; discriminate. }
      cbn [length take] in Ht. rewrite Ep in Ht. destruct (take p pf (length vs) s' w0) as [[[os s2] w2]|]; discriminate.
    + split.
      * intros [= <- <-]. exists [], s, w. split; [reflexivity|]. split; [cbn; lia|]. split; [cbn; lia|]. split; [reflexivity|]. now left.
      * intros (vs & s1 & w1 & -> & Hn & Hf & Ht & H). destruct vs as [|v' vs].
        { cbn in Ht. injection Ht as <- <-. rewrite Ep in H. destruct H as [H|(_ & ? & ? & H)]; [|discriminate]. injection H as <-. reflexivity. }
        cbn [length take] in Ht. rewrite Ep in Ht. discriminate.
    + split; [discriminate|]. intros (vs & s1 & w1 & -> & Hn & Hf & Ht & H). destruct vs as [|v' vs].
      { cbn in Ht. injection Ht as <- <-. rewrite Ep in H. destruct H as [H|(_ & ? & ? & H)]; discriminate. }
      cbn [length take] in Ht. rewrite Ep in Ht. discriminate.
Qed.
End Loop.

Lemma error_todo k : error_output_of k = EoTodo <-> ~ printable k.
Proof.
  unfold printable. destruct k as [t| | |]; cbn; split; try discriminate; try (intros; reflexivity);
    try (intros _ [H|(t' & H)]; discriminate); intro H; exfalso; apply H; [right; eauto|now left].
Qed.
Lemma success_todo k : success_output_of k = SoTodo <-> ~ printable k.
Proof.
  unfold printable. destruct k as [t| | |]; cbn; split; try discriminate; try (intros; reflexivity);
    try (intros _ [H|(t' & H)]; discriminate); intro H; exfalso; apply H; [right; eauto|now left].
Qed.

Section Executed.
Context {U : unicode} {types : type_id -> option type_info} {ctypes : type_id -> option cli_type} {B : Type}
  {b_default : type_id -> B} {b_from : type_id -> value -> B} {b_set : str -> value -> B -> B}
  {read_json : str -> value -> option value} {override : list (str * (str * value)) -> list (setter_call B) -> result (list (setter_call B)) str}
  {V W : Type} {h : hooks} {m : op_method} {o : cli_operation} {c : builder_code}
  {ms : list (str * (str * value))} {calls calls' : list (setter_call B)} {st : list (str * field B)}.
Variable b_try_from : type_id -> B -> result value str.
Variable nonzero : value -> N.
Variable page_items : V -> list V.
Variable page_next : V -> option value.
Variable ctx : context.
Variable fs : type_id -> list N -> result V jerr.
Variable ops : world_ops W.
Hypothesis Ho : cli_method U ctypes m = Ok o.
Hypothesis Hc : consumed B b_set read_json ms (co_args o) = Some calls.
Hypothesis Hov : override ms calls = ROk calls'.
Hypothesis Hb : built types b_default b_from h m c calls' st.

Notation run_command := (execute B b_default b_from b_try_from b_set read_json nonzero override V page_items page_next ctx fs W ops o c ms).
Notation sent w := (send B b_try_from V ctx fs W ops c st w).
Notation run_one_shot := (run_one_shot b_try_from nonzero page_items page_next ctx fs ops Ho Hc Hov Hb).
Notation run_listing := (run_listing b_try_from nonzero page_items page_next ctx fs ops Ho Hc Hov Hb).

Lemma one_shot_panics pf fuel w cbs w' : m_paginated m = None ->
  (run_command pf fuel w = (CfPanicked, cbs, w') <->
   cbs = [] /\ exists tr, (exists msg, sent w = (Panicked msg, tr, w'))
     \/ exists r, sent w = (Returned r, tr, w')
          /\ match r with ROk _ => ~ printable (sb_success (bc_send c)) | RErr _ => ~ printable (sb_error (bc_send c)) end).
Proof.
  intro Hp. rewrite run_one_shot by auto. unfold one_shot. destruct (sent w) as [[f tr] w0]. split.
  - destruct f as [[rv|e]|msg|]; try discriminate.
    + destruct (success_output_of (sb_success (bc_send c))) eqn:E; try discriminate. intros [= <- <-]. split; [reflexivity|].
      exists tr. right. exists (ROk rv). split; [reflexivity|]. now apply success_todo.
    + destruct (error_output_of (sb_error (bc_send c))) eqn:E; try discriminate. intros [= <- <-]. split; [reflexivity|].
      exists tr. right. exists (RErr e). split; [reflexivity|]. now apply error_todo.
    + intros [= <- <-]. split; [reflexivity|]. exists tr. left. eauto.
  - intros (-> & tr' & [(msg & [= -> -> ->])|(r & [= -> -> ->] & H)]); [reflexivity|]. destruct r as [rv|e].
    + apply success_todo in H. now rewrite H.
    + apply error_todo in H. now rewrite H.
Qed.

(** The limit is read as a [NonZeroU32]. *)
Lemma limit_dec : (exists n, line_limit nonzero ms n) \/ limit_of nonzero ms = None /\ forall n, ~ line_limit nonzero ms n.
Proof.
  unfold limit_of, get_one. destruct (assoc (lit "limit") ms) as [(ty, v)|] eqn:E.
  - destruct (str_eqb (lit "::std::num::NonZeroU32") ty) eqn:Et.
    + left. exists (nonzero v). apply ll_some. apply str_eqb_spec in Et. subst ty. exact E.
    + right. split; [reflexivity|]. intros n [H|v' H]; rewrite H in E; [discriminate|]. injection E as <- _. now rewrite str_eqb_refl in Et.
  - left. eexists. now apply ll_none.
Qed.

Lemma listing_panics_iff pf fuel w cbs w' : m_paginated m <> None ->
  (run_command pf fuel w = (CfPanicked, cbs, w') <->
   ((forall n, ~ line_limit nonzero ms n) /\ cbs = [CbListStart] /\ w' = w)
   \/ exists n resets vs s1 w1, line_limit nonzero ms n /\ bc_stream c = Some resets
        /\ cbs = CbListStart :: map (fun v => CbListItem (IVal v)) vs
        /\ N.of_nat (length vs) < n /\ (length vs < fuel)%nat
        /\ take (builder_stream V page_items page_next ctx fs W ops B b_try_from c resets st) pf (length vs) FlatFirst w
           = Some (yields vs, s1, w1)
        /\ (builder_stream V page_items page_next ctx fs W ops B b_try_from c resets st pf s1 w1 = PPanic w'
            \/ ~ printable (sb_error (bc_send c))
               /\ exists e s2, builder_stream V page_items page_next ctx fs W ops B b_try_from c resets st pf s1 w1
                                 = PReady (Some (RErr e)) s2 w')).
Proof.
  intro Hp. destruct limit_dec as [(n & Hl)|(Hl & Hnl)].
  - destruct (run_listing pf fuel w n Hp Hl) as (resets & Er & ->).
    assert (Huniq : forall n', line_limit nonzero ms n' -> n' = n).
    { intros n' Hl'. apply limit_found in Hl, Hl'. congruence. }
    split.
    + destruct (list_loop _ _ _ _ _ _) as [[f cbs'] w''] eqn:El. intros [= -> <- ->].
      apply loop_panics in El as (vs & s1 & w1 & -> & Hn & Hf & Ht & H). right. exists n, resets, vs, s1, w1.
      split; [exact Hl|]. split; [exact Er|]. split; [now rewrite (map_items vs)|]. split; [exact Hn|]. split; [exact Hf|]. split; [exact Ht|].
      destruct H as [H|(H & H')]; [now left|right]. split; [now apply error_todo|exact H'].
    + intros [(H & _)|(n' & resets' & vs & s1 & w1 & Hl' & Er' & -> & Hn & Hf & Ht & H)]; [now elim (H n)|].
      rewrite (Huniq n' Hl') in *. rewrite Er in Er'. injection Er' as <-.
      assert (El : list_loop (take_stream (builder_stream V page_items page_next ctx fs W ops B b_try_from c resets st))
                     (error_output_of (sb_error (bc_send c))) pf fuel (FlatFirst, n) w = (CfPanicked, map CbListItem vs, w')).
      { apply loop_panics. exists vs, s1, w1. split; [reflexivity|]. split; [exact Hn|]. split; [exact Hf|]. split; [exact Ht|].
        destruct H as [H|(H & H')]; [now left|right]. split; [now apply error_todo|exact H']. }
      rewrite El. now rewrite (map_items vs).
  - destruct (stream_found Hb Hp) as (resets & Er).
    pose proof (output_ok Ho Hb) as Hout. destruct (m_paginated m); [|easy]. destruct Hout as (ty & Hout).
    assert (E : run_command pf fuel w = (CfPanicked, [CbListStart], w)).
    { destruct Hb as [_ _ _ Hbu]. unfold execute. rewrite Hc, Hov, Hbu, Hout. unfold listing. now rewrite Er, Hl. }
    rewrite E. split.
    + intros [= <- <-]. left. auto.
    + intros [(_ & -> & ->)|(n & ? & ? & ? & ? & H & _)]; [reflexivity|now elim (Hnl n)].
Qed.
End Executed.

(** ** Distinct arguments *)

Section Distinct.
Variable U : unicode.
Variable types : type_id -> option cli_type.
Hypothesis Hcases : forall c, lowercase U c = true -> uppercase U c = false.
Hypothesis Hdash : alphanumeric U (ch "-") = false.

Lemma argument_name_fun s a b : argument_name U s a -> argument_name U s b -> a = b.
Proof. intros H1 H2. apply (kebab_name U Hcases Hdash) in H1, H2. congruence. Qed.

Lemma divided_named taken prs own rest pr n : divided U types taken prs own rest ->
  In pr prs -> scalar types pr -> argument_name U (pr_name pr) n ->
  In n taken \/ exists pr', In pr' own /\ argument_name U (pr_name pr') n.
Proof.
  induction 1 as [taken|taken x k prs own rest Hs Hk Hni Hd IH|taken x k prs own rest Hk Hr Hd IH]; intros Hi Hsc Hn; [easy| |].
  - destruct Hi as [->|Hi]; [right; exists pr; split; [now left|exact Hn]|].
    destruct (IH Hi Hsc Hn) as [[<-|H]|(pr' & H & H')]; [right; exists x; split; [now left|exact Hk]|now left|].
    right. exists pr'. split; [now right|exact H'].
  - destruct Hi as [->|Hi]; [|apply IH; auto]. destruct Hr as [Hr|Hr]; [easy|]. left. now rewrite (argument_name_fun _ _ _ Hn Hk).
Qed.
Lemma divided_own taken prs own rest : divided U types taken prs own rest -> forall pr, In pr own -> In pr prs /\ scalar types pr.
Proof.
  induction 1 as [taken|taken x k prs own rest Hs Hk Hni Hd IH|taken x k prs own rest Hk Hr Hd IH]; intros pr Hi; [easy| |].
  - destruct Hi as [->|Hi]; [split; [now left|exact Hs]|]. destruct (IH pr Hi). split; [now right|auto].
  - destruct (IH pr Hi). split; [now right|auto].
Qed.

Lemma properties_unique m x y : body_properties types m x -> body_properties types m y -> x = y.
Proof.
  intros [t ct prs Hb Et Ed|t ct Hb Et Hn|Hb|Hb] [t' ct' prs' Hb' Et' Ed'|t' ct' Hb' Et' Hn'|Hb'|Hb'];
    pose proof (body_of_unique m _ _ Hb Hb') as E; try discriminate; try injection E as <-; auto; try congruence;
    rewrite Et in Et'; injection Et' as <-; exfalso; eauto.
Qed.

(** The name of an argument of the operation: of a parameter or a property. *)
Lemma argument_named m own rest args n : arguments_of U types m own rest args ->
  (In n (map cl_id args) <->
   (exists p, In p (m_params m) /\ has_argument m p /\ argument_name U (p_name p) n)
   \/ exists prs pr, body_properties types m prs /\ In pr prs /\ scalar types pr /\ argument_name U (pr_name pr) n).
Proof.
  intros [params pa qa props Hk Fp Hbp Hd Fq Hperm _]. split.
  - intro Hi. apply in_map_iff in Hi as (a & <- & Ha). apply (Permutation_in _ Hperm) in Ha. apply in_app_iff in Ha as [Ha|Ha].
    + left. destruct (Forall2_in_right _ _ _ _ Fp Ha) as (p & Hp & Haf). exists p. apply (kept_in _ _ _ p Hk) in Hp as (Hp & Hh).
      split; [exact Hp|]. split; [exact Hh|]. exact (af_name _ _ _ _ _ Haf).
    + right. destruct (Forall2_in_right _ _ _ _ Fq Ha) as (pr & Hp & Haf). exists props, pr. destruct (divided_own _ _ _ _ Hd pr Hp).
      split; [exact Hbp|]. split; [auto|]. split; [auto|]. exact (pa_name _ _ _ _ Haf).
  - assert (Hin : forall x, In x (pa ++ qa) -> In (cl_id x) (map cl_id args)).
    { intros x Hx. apply in_map. now apply (Permutation_in _ (Permutation_sym Hperm)). }
    assert (Hleft : forall pr, In pr own -> argument_name U (pr_name pr) n -> In n (map cl_id args)).
    { intros pr Hi Hn. destruct (ResponseProofs.forall2_In_l _ _ _ _ Fq Hi) as (a & Ha & Haf). rewrite (argument_name_fun _ _ _ Hn (pa_name _ _ _ _ Haf)).
      apply Hin. apply in_or_app. now right. }
    intros [(p & Hp & Hh & Hn)|(prs & pr & Hprs & Hi & Hs & Hn)].
    + assert (Hp' : In p params) by (apply (kept_in _ _ _ p Hk); auto). destruct (ResponseProofs.forall2_In_l _ _ _ _ Fp Hp') as (a & Ha & Haf).
      rewrite (argument_name_fun _ _ _ Hn (af_name _ _ _ _ _ Haf)). apply Hin. apply in_or_app. now left.
    + rewrite (properties_unique m _ _ Hprs Hbp) in Hi. destruct (divided_named _ _ _ _ _ _ Hd Hi Hs Hn) as [Ht|(pr' & Hi' & Hn')].
      * apply in_map_iff in Ht as (a & <- & Ha). apply Hin. apply in_or_app. now left.
      * now apply (Hleft pr').
Qed.

Lemma distinct_iff m a : cli_method_args U types m = Ok a ->
  (NoDup (map cl_id (cg_parsers a)) <->
   forall t n, body_of m (Some (PType t)) -> n = lit "json-body" \/ n = lit "json-body-template" ->
     (forall p, In p (m_params m) -> has_argument m p -> ~ argument_name U (p_name p) n)
     /\ forall prs pr, body_properties types m prs -> In pr prs -> scalar types pr -> ~ argument_name U (pr_name pr) n).
Proof.
  intro H. apply (cli_method_args_ok U types Hcases Hdash) in H. apply (outline_arguments U types Hcases Hdash) in H as (own & rest & args & json & -> & Ha & Hj).
  assert (Hnd : NoDup (map cl_id args)).
  { destruct Ha as [params pa qa props Hk Fp Hbp Hd Fq Hperm Hs]. clear - Hs. induction Hs as [|x l Hs IH Hf]; cbn; constructor; [|exact IH].
    intro Hi. apply in_map_iff in Hi as (y & E & Hy). rewrite Forall_forall in Hf. specialize (Hf y Hy). rewrite E in Hf.
    now rewrite str_cmp_refl in Hf. }
  assert (Happ : forall l : list str, NoDup l -> (NoDup (map cl_id args ++ l) <-> forall n, In n l -> ~ In n (map cl_id args))).
  { intros l Hl. clear - Hnd Hl. induction (map cl_id args) as [|x xs IH]; cbn; [split; [intros _ n _ []|auto]|].
    inversion Hnd as [|? ? Hx Hxs]; subst. specialize (IH Hxs). split.
    - intro Hn. inversion Hn as [|? ? Hx' Hn']; subst. intros n Hi [->|Hi']; [apply Hx'; apply in_or_app; now right|].
      now apply (proj1 IH Hn' n).
    - intro Hn. constructor.
      + intro Hi. apply in_app_iff in Hi as [Hi|Hi]; [easy|]. apply (Hn x Hi). now left.
      + apply IH. intros n Hi Hi'. apply (Hn n Hi). now right. }
  rewrite map_app. destruct Hj as [Hb|Hb|t ct x flag Hb Ht E1 _ _ _ E2 _ _].
  - cbn [map]. rewrite app_nil_r. split; [|auto]. intros _ t n Hb'. pose proof (body_of_unique _ _ _ Hb Hb'). discriminate.
  - cbn [map]. rewrite app_nil_r. split; [|auto]. intros _ t n Hb'. pose proof (body_of_unique _ _ _ Hb Hb'). discriminate.
  - cbn [map]. rewrite E1, E2, Happ.
    2:{ constructor; [intros [H|[]]; discriminate H|]. constructor; [easy|constructor]. }
    split.
    + intros Hn t' n _ Hv. assert (Hi : In n [lit "json-body"; lit "json-body-template"]) by (destruct Hv as [->| ->]; [now left|right; now left]).
      specialize (Hn n Hi). split.
      * intros p Hp Hh Hpn. apply Hn. apply (argument_named m own rest args n Ha). left. eauto.
      * intros prs pr Hp Hi' Hs Hpn. apply Hn. apply (argument_named m own rest args n Ha). right. eauto 6.
    + intros Hall n Hi Hin. apply (argument_named m own rest args n Ha) in Hin.
      assert (Hv : n = lit "json-body" \/ n = lit "json-body-template") by (destruct Hi as [<-|[<-|[]]]; auto).
      destruct (Hall t n Hb Hv) as (H1 & H2). destruct Hin as [(p & Hp & Hh & Hpn)|(prs & pr & Hp & Hi' & Hs & Hpn)].
      * now apply (H1 p).
      * now apply (H2 prs pr).
Qed.
End Distinct.

(** ** Dispatch *)

Section Dispatch.
Variable U : unicode.
Variable types : type_id -> option cli_type.
Variable parse_path : str -> bool.
Variable add_ref_types : list (str * ref_or schema) -> outcome type_space.

Lemma dispatch_iff d crate code l : cli U types parse_path add_ref_types d crate = Ok code -> operations_in_order d l ->
  (cc_commands code = map (fun o => (co_struct o, co_cli_fn o)) (cc_operations code)
   /\ cc_executes code = map (fun o => (co_struct o, co_execute_fn o)) (cc_operations code)
   <-> forall e, In e l -> sanitize U (method_name U e) Snake = method_name U e).
Proof.
  intros H Hl. split.
  - intros (Hcc & _). destruct (file_commands _ _ _ _ d crate code l H Hl) as (ts & F & _ & _ & Hc & _). rewrite Hc in Hcc. clear Hc H Hl.
    induction F as [|e o l' os (m & _ & _ & E1 & _) F IH]; [easy|]. cbn [map] in Hcc.
    assert (Hd : lit "cli_" ++ sanitize U (method_name U e) Snake = co_cli_fn o) by congruence.
    intros e' [<-|Hi].
    + rewrite E1 in Hd. now apply app_inv_head in Hd.
    + apply IH; [congruence|exact Hi].
  - intro Hs. destruct (file_dispatch _ _ _ _ d crate code l H Hl Hs) as (H1 & H2 & _). auto.
Qed.
End Dispatch.

(** Running a generated method: it either refuses the arguments without
    sending anything, or behaves as a [call] of the specified request. *)
From Verif Require Import Base Utf8 SerdeModel EncodeModel HeaderModel HeaderProofs ClientModel MethodModel
  RunModel TemplateModel TemplateSpec TemplateProofs NameProofs ResponseSpec ResponseProofs RequestSpec
  RequestProofs.
From Coq Require Import ZifyBool ZifyN.
Local Open Scope N_scope.

Section Built.
Context (ctx : context) (V : Type).

Definition body_stage (r : request) (b : option (body_content_type * value))
  : ev (inner V) (result request rerr) :=
  let with_body mime bytes :=
    ROk (Request (q_method r) (q_url r) (q_query r) (h_append (lit "content-type") (utf8 mime) (q_headers r)) (Some bytes)) in
  match b with
  | None => Val (ROk r)
  | Some (Json, v) => Val (rb_json ctx v (ROk r))
  | Some (FormUrlencoded, v) =>
      match urlencoded_to_string (v_serde v) with
      | None => Ret (InvalidRequest (lit "failed to serialize body"))
      | Some t => Val (with_body (lit "application/x-www-form-urlencoded") (utf8 t))
      end
  | Some (ct, v) => Val (with_body (media_of ct) (v_bytes v))
  end.

Definition text_ok (ct : body_content_type) : Prop :=
  match ct with Text mime => mime = lit "text/plain" \/ mime = lit "text/x-markdown" | _ => True end.

Lemma arg_body_ok env p v ct : assoc (p_name p) env = Some (bound (p, Some v)) ->
  p_name p = lit "body" -> p_kind p = KBody ct -> arg_body env = Some v.
Proof. intros E Hn Hk. unfold arg_body. rewrite <- Hn, E. unfold bound. cbn. now rewrite Hk. Qed.

Lemma body_call_ok env ct v r : arg_body env = Some v -> text_ok ct ->
  eval_calls V ctx env (ROk r) [body_call ct] = body_stage r (Some (ct, v)).
Proof.
  intros E Ht. destruct ct as [| | |mime]; cbn [body_call eval_calls eval_call body_stage media_of].
  - rewrite E. reflexivity.
  - now rewrite E.
  - rewrite E. destruct (urlencoded_to_string _); reflexivity.
  - rewrite E. destruct Ht as [-> | ->]; reflexivity.
Qed.

Lemma body_call_err env ct v e : arg_body env = Some v -> text_ok ct ->
  eval_calls V ctx env (RErr e) [body_call ct] =
  match ct with
  | FormUrlencoded =>
      match urlencoded_to_string (v_serde v) with
      | None => Ret (InvalidRequest (lit "failed to serialize body"))
      | Some _ => Val (RErr e)
      end
  | _ => Val (RErr e)
  end.
Proof.
  intros E Ht. destruct ct as [| | |mime]; cbn [body_call eval_calls eval_call].
  - rewrite E. reflexivity.
  - now rewrite E.
  - rewrite E. destruct (urlencoded_to_string _); reflexivity.
  - rewrite E. destruct Ht as [-> | ->]; reflexivity.
Qed.

Section Calls.
Variables (m : op_method) (args : list (op_param * option value)) (env : list (str * binding))
  (h : hmap) (bs : list chain_call) (sk ek : resp_kind).
Hypothesis Hb : binds env args.
Hypothesis Hg : given args.
Hypothesis Hbs : body_calls (map fst args) = Ok bs.
Hypothesis Hlen : (length bs <= 1)%nat.
Hypothesis Hwf : Forall (fun p => match p_kind p with
                                  | KBody ct => p_name p = lit "body" /\ text_ok ct
                                  | _ => True end) (map fst args).
Hypothesis Hh : assoc (lit "header_map") env = Some (BHeaders h).
Let ws := m_websocket m.
Let calls := accept_calls sk ek ++ bs ++ query_calls (map fst args) ++ [CHeaders]
             ++ (if ws then [CWebsocket] else []).

Lemma bs_cases : (bs = [] /\ body_argument args = None) \/
  exists ct v, bs = [body_call ct] /\ body_argument args = Some (ct, v) /\
    arg_body env = Some v /\ text_ok ct.
Proof.
  destruct (body_calls_shape _ _ Hbs Hg) as [?|(p & ct & v & rest & H1 & H2 & H3 & H4)]; auto.
  right. exists ct, v. rewrite Forall_forall in Hwf.
  specialize (Hwf p (in_map fst _ _ H3)). rewrite H4 in Hwf.
  assert (rest = []).
  { rewrite H1 in Hlen. destruct rest; auto. cbn in Hlen. lia. }
  split; [congruence|]. split; auto. split; [|tauto].
  apply (arg_body_ok env p v ct); auto; [|tauto]. apply (Hb _ H3). cbn. congruence.
Qed.

Lemma bs_ok r : eval_calls V ctx env (ROk r) bs = body_stage r (body_argument args).
Proof.
  destruct bs_cases as [(E1 & E2)|(ct & v & E1 & E2 & E3 & E4)]; rewrite E1, E2; auto.
  now apply body_call_ok.
Qed.

Lemma bs_err e : ~ bad_form args -> eval_calls V ctx env (RErr e) bs = Val (RErr e).
Proof.
  intro Hn. destruct bs_cases as [(E1 & E2)|(ct & v & E1 & E2 & E3 & E4)]; rewrite E1; auto.
  rewrite (body_call_err env ct v e E3 E4). destruct ct; auto.
  destruct (urlencoded_to_string (v_serde v)) eqn:E; auto. exfalso. apply Hn. exists v. auto.
Qed.

Lemma bs_form b : bad_form args ->
  eval_calls V ctx env b bs = Ret (InvalidRequest (lit "failed to serialize body")).
Proof.
  intros (v & Ev & Eu). destruct bs_cases as [(E1 & E2)|(ct & v' & E1 & E2 & E3 & E4)]; [congruence|].
  assert (ct = FormUrlencoded /\ v' = v) as (-> & ->) by (split; congruence).
  rewrite E1. cbn [body_call eval_calls eval_call]. now rewrite E3, Eu.
Qed.

Definition accepted_headers (hd : hmap) : hmap :=
  if wants_json sk ek then h_append (lit "accept") (utf8 (lit "application/json")) hd else hd.

Lemma accept_ok r : eval_calls V ctx env (ROk r) (accept_calls sk ek) =
  Val (ROk (Request (q_method r) (q_url r) (q_query r) (accepted_headers (q_headers r)) (q_body r))).
Proof. unfold accepted_headers. destruct r, sk; cbn; auto. destruct ek; reflexivity. Qed.

Lemma accept_err e : eval_calls V ctx env (RErr e) (accept_calls sk ek) = Val (RErr e).
Proof. destruct sk; cbn; auto. destruct ek; reflexivity. Qed.

Lemma tail_err e : eval_calls V ctx env (RErr e) ([CHeaders] ++ (if ws then [CWebsocket] else [])) = Val (RErr e).
Proof. cbn. rewrite Hh. cbn. destruct ws; reflexivity. Qed.

Lemma accept_any b : exists b', eval_calls V ctx env b (accept_calls sk ek) = Val b'.
Proof. destruct b; [rewrite accept_ok|rewrite accept_err]; eauto. Qed.

Lemma calls_form b : bad_form args ->
  eval_calls V ctx env b calls = Ret (InvalidRequest (lit "failed to serialize body")).
Proof.
  intro H. unfold calls. rewrite eval_calls_app. destruct (accept_any b) as (b' & ->). cbn [ebind].
  rewrite eval_calls_app, bs_form; auto.
Qed.

Lemma calls_err e : ~ bad_form args -> eval_calls V ctx env (RErr e) calls = Val (RErr e).
Proof.
  intro H. unfold calls. rewrite eval_calls_app, accept_err. cbn [ebind].
  rewrite eval_calls_app, bs_err by auto. cbn [ebind].
  rewrite eval_calls_app, query_calls_err by auto. cbn [ebind]. apply tail_err.
Qed.

Definition final_headers (hd : hmap) : hmap :=
  let hd := h_replace hd h in
  if ws then
    h_append (lit "sec-websocket-key") (c_websocket_key ctx)
      (h_append (lit "sec-websocket-version") (utf8 (lit "13"))
        (h_append (lit "upgrade") (utf8 (lit "websocket"))
          (h_append (lit "connection") (utf8 (lit "Upgrade")) hd)))
  else hd.

Lemma tail_ok r : eval_calls V ctx env (ROk r) ([CHeaders] ++ (if ws then [CWebsocket] else [])) =
  Val (ROk (Request (q_method r) (q_url r) (q_query r) (final_headers (q_headers r)) (q_body r))).
Proof. unfold final_headers. cbn. rewrite Hh. cbn. destruct ws; reflexivity. Qed.

(** Headers and body after the body stage. *)
Lemma stage_cases r : ~ bad_form args ->
  (bad_json args /\ body_stage r (body_argument args) = Val (RErr (c_json_error ctx))) \/
  (~ bad_json args /\ exists hd b,
     body_stage r (body_argument args) = Val (ROk (Request (q_method r) (q_url r) (q_query r) hd b)) /\
     (q_body r = None ->
      match body_argument args with
      | Some (ct, v) => exists bytes, body_encoded ct v bytes /\ b = Some bytes
      | None => b = None
      end) /\
     (h_contains (lit "content-type") (q_headers r) = false ->
      forall n, h_values n hd = h_values n (q_headers r) ++
        (if str_eqb n (lit "content-type")
         then match body_argument args with Some (ct, _) => [utf8 (media_of ct)] | None => [] end
         else []))).
Proof.
  intro Hf. unfold bad_json. destruct (body_argument args) as [[ct v]|] eqn:E.
  - destruct ct as [| | |mime].
    + right. split. { intros (v' & H & _). congruence. }
      do 2 eexists. split; [reflexivity|]. split.
      * intros _. eexists. split; [constructor|reflexivity].
      * intros _ n. cbn [media_of]. rewrite h_values_append. destruct (str_eqb n _); [auto|now rewrite app_nil_r].
    + cbn [body_stage rb_json]. destruct (v_json v) as [bytes|] eqn:Ej.
      * right. split. { intros (v' & H & H'). congruence. }
        do 2 eexists. split; [reflexivity|]. split.
        -- intros _. eexists. split; [constructor; exact Ej|reflexivity].
        -- intros Hc n. rewrite Hc, h_values_set. destruct (str_eqb n (lit "content-type")) eqn:En.
           ++ apply str_eqb_spec in En. subst n. now rewrite (h_contains_false _ _ Hc).
           ++ now rewrite app_nil_r.
      * left. split; [|reflexivity]. exists v. auto.
    + cbn [body_stage]. destruct (urlencoded_to_string (v_serde v)) as [t|] eqn:Eu.
      * right. split. { intros (v' & H & _). congruence. }
        do 2 eexists. split; [reflexivity|]. split.
        -- intros _. eexists. split; [constructor; exact Eu|reflexivity].
        -- intros _ n. cbn [media_of]. rewrite h_values_append. destruct (str_eqb n _); [auto|now rewrite app_nil_r].
      * exfalso. apply Hf. exists v. auto.
    + right. split. { intros (v' & H & _). congruence. }
      do 2 eexists. split; [reflexivity|]. split.
      * intros _. eexists. split; [constructor|reflexivity].
      * intros _ n. cbn [media_of]. rewrite h_values_append. destruct (str_eqb n _); [auto|now rewrite app_nil_r].
  - right. split. { intros (v' & H & _). congruence. }
    exists (q_headers r), (q_body r). cbn. split; [now destruct r|]. split; auto.
    intros _ n. destruct (str_eqb n _); now rewrite app_nil_r.
Qed.

Lemma calls_cases r : ~ bad_form args -> q_body r = None -> NoDup (map fst h) ->
  (bad_json args /\ eval_calls V ctx env (ROk r) calls = Val (RErr (c_json_error ctx))) \/
  (~ bad_json args /\ bad_query args /\ eval_calls V ctx env (ROk r) calls = Val (RErr (c_query_error ctx))) \/
  (~ bad_json args /\ ~ bad_query args /\ exists q, eval_calls V ctx env (ROk r) calls = Val (ROk q) /\
     q_method q = q_method r /\ q_url q = q_url r /\
     fold_left add_query (query_arguments args) (Some (q_query r)) = Some (q_query q) /\
     match body_argument args with
     | Some (ct, v) => exists bytes, body_encoded ct v bytes /\ q_body q = Some bytes
     | None => q_body q = None
     end /\
     (h_contains (lit "content-type") (q_headers r) = false ->
      forall n, h_values n (q_headers q) =
        (if h_contains n h then h_values n h
         else other_values (q_headers r) sk ek args n) ++ handshake_values ws (c_websocket_key ctx) n)).
Proof.
  intros Hf Hbody Hnd. unfold calls. rewrite eval_calls_app, accept_ok. cbn [ebind].
  set (r1 := Request (q_method r) _ _ _ _). rewrite eval_calls_app, bs_ok.
  destruct (stage_cases r1 Hf) as [(Hj & ->)|(Hj & hd & b & -> & Hb' & Hv')].
  { left. split; auto. cbn [ebind]. rewrite eval_calls_app, query_calls_err by auto. cbn [ebind]. apply tail_err. }
  right. cbn [ebind]. rewrite eval_calls_app, query_calls_ok by auto. cbn [q_query].
  destruct (fold_left add_query (query_arguments args) (Some (q_query r1))) as [q|] eqn:Eq.
  2:{ left. split; auto. split; [now apply add_queries_fail in Eq|]. cbn [ebind]. apply tail_err. }
  right. cbn [ebind q_method q_url q_query q_headers q_body]. split; auto. split.
  { intro Hq. apply (add_queries_fail _ (q_query r1)) in Hq. congruence. }
  eexists. split; [apply tail_ok|]. cbn [q_method q_url q_query q_headers q_body]. repeat split; auto.
  - apply Hb'. exact Hbody.
  - intros Hc n. assert (Hc1 : h_contains (lit "content-type") (q_headers r1) = false).
    { unfold r1, accepted_headers. cbn [q_headers]. destruct (wants_json sk ek); auto.
      rewrite h_contains_append, Hc. reflexivity. }
    specialize (Hv' Hc1 n).
    assert (Hr : h_values n (h_replace hd h) = if h_contains n h then h_values n h else other_values (q_headers r) sk ek args n).
    { rewrite h_replace_values by auto. destruct (h_contains n h); auto. rewrite Hv'. unfold other_values.
      rewrite app_assoc. f_equal. unfold r1, accepted_headers. cbn [q_headers].
      destruct (wants_json sk ek).
      - rewrite h_values_append, andb_true_r. destruct (str_eqb n (lit "accept")); auto. now rewrite app_nil_r.
      - now rewrite andb_false_r, app_nil_r. }
    unfold final_headers, handshake_values. destruct ws; [|now rewrite app_nil_r, Hr].
    rewrite !h_values_append, Hr.
    set (x := if h_contains n h then _ else _). clearbody x.
    destruct (str_eqb n (lit "connection")) eqn:E1.
    { apply str_eqb_spec in E1. subst n. reflexivity. }
    destruct (str_eqb n (lit "upgrade")) eqn:E2.
    { apply str_eqb_spec in E2. subst n. reflexivity. }
    destruct (str_eqb n (lit "sec-websocket-version")) eqn:E3.
    { apply str_eqb_spec in E3. subst n. reflexivity. }
    destruct (str_eqb n (lit "sec-websocket-key")) eqn:E4; auto using app_nil_r.
Qed.
End Calls.
End Built.

(** ** Hooks, sending, interpretation *)

Section Tail.
Context (ctx : context) (V : Type) (fs : N -> list N -> result V jerr) (W : Type) (ops : world_ops W)
  (h : hooks).

Definition tail_prog (request result response : str) (arms : list arm) : list stmt :=
  (if has_pre_hook h then [SPreHook request] else [])
  ++ (if has_pre_hook_async h then [SPreHookAsync request] else [])
  ++ [SLetExecute result request]
  ++ (if has_post_hook h then [SPostHook result] else [])
  ++ (if has_post_hook_async h then [SPostHookAsync result] else [])
  ++ [SLetTry response result; SMatch response arms].

Lemma tail_run sk ek x y z arms ws t q env w :
  (forall s a, expected ws t s a -> exists r, select arms s = Some r /\ rhs_is sk ek r a) ->
  exists out tr w',
    exec V ctx fs W ops sk ek (tail_prog x y z arms) ((x, BRequest q) :: env) [] w = (Returned out, tr, w') /\
    call h ops (interpreted fs ws t) q w out tr w'.
Proof.
  intro Harms. unfold tail_prog.
  assert (Hint : forall res env' tr w', exists out,
    exec V ctx fs W ops sk ek [SLetTry z y; SMatch z arms] ((y, BResult res) :: env') tr w' = (Returned out, tr, w') /\
    interpreted fs ws t res out).
  { intros res env' tr w'. cbn [exec assoc]. rewrite str_eqb_refl. destruct res as [r|e].
    - cbn [exec assoc]. rewrite str_eqb_refl. destruct (expected_total ws t (r_status r)) as (a & Ha).
      destruct (Harms _ _ Ha) as (rh & -> & Hrh). destruct (eval_rhs_meaning fs _ _ _ _ r Hrh) as (out & -> & Hm).
      exists out. split; auto. econstructor; eauto.
    - eexists. split; [reflexivity|]. constructor. }
  set (rest := [SLetTry z y; SMatch z arms]) in *. clearbody rest.
  assert (Hpost : forall res env' tr w1,
    exists out tr2 w',
      exec V ctx fs W ops sk ek
        ((if has_post_hook h then [SPostHook y] else [])
         ++ (if has_post_hook_async h then [SPostHookAsync y] else [])
         ++ rest) ((y, BResult res) :: env') tr w1 = (Returned out, tr ++ tr2, w') /\
      ((observed h ops res w1 tr2 w' /\ interpreted fs ws t res out) \/
       exists msg, has_post_hook_async h = true /\ w_post_async ops res (after_post h ops res w1) = (Some msg, w') /\
         out = RErr (PostHookError msg) /\ tr2 = post_events h res ++ [EPostAsync res])).
  { intros res env' tr w1.
    assert (Hsync : exec V ctx fs W ops sk ek
        ((if has_post_hook h then [SPostHook y] else [])
         ++ (if has_post_hook_async h then [SPostHookAsync y] else [])
         ++ rest) ((y, BResult res) :: env') tr w1 =
      exec V ctx fs W ops sk ek
        ((if has_post_hook_async h then [SPostHookAsync y] else [])
         ++ rest) ((y, BResult res) :: env') (tr ++ post_events h res) (after_post h ops res w1)).
    { unfold post_events, after_post. destruct (has_post_hook h); cbn [app exec assoc].
      - now rewrite str_eqb_refl.
      - now rewrite app_nil_r. }
    rewrite Hsync. destruct (has_post_hook_async h) eqn:Eh.
    - cbn [app exec assoc]. rewrite str_eqb_refl.
      destruct (w_post_async ops res (after_post h ops res w1)) as [[msg|] w'] eqn:Ew.
      + do 3 eexists. split; [rewrite <- app_assoc; reflexivity|]. right. exists msg. auto.
      + pose proof (Hint res env' ((tr ++ post_events h res) ++ [EPostAsync res]) w') as (out & E & Hi).
        rewrite E. do 3 eexists. split; [rewrite <- app_assoc; reflexivity|].
        left. split; auto. now apply ob_async.
    - cbn [app]. pose proof (Hint res env' (tr ++ post_events h res) (after_post h ops res w1)) as (out & E & Hi).
      rewrite E. do 3 eexists. split; [reflexivity|]. left. split; auto. now apply ob_sync. }
  assert (Hsend : forall q' env' tr1 w1,
    prepared h ops q w q' tr1 w1 ->
    exists out tr w',
      exec V ctx fs W ops sk ek ([SLetExecute y x]
         ++ (if has_post_hook h then [SPostHook y] else [])
         ++ (if has_post_hook_async h then [SPostHookAsync y] else [])
         ++ rest) ((x, BRequest q') :: env') tr1 w1 = (Returned out, tr, w') /\
      call h ops (interpreted fs ws t) q w out tr w').
  { intros q' env' tr1 w1 Hp. cbn [app]. cbn [exec assoc]. rewrite str_eqb_refl.
    destruct (w_execute ops q' w1) as [res w2] eqn:Ee.
    destruct (Hpost res ((x, BRequest q') :: env') (tr1 ++ [ESend q' res]) w2) as (out & tr2 & w' & E & Hc).
    rewrite E. do 3 eexists. split; [reflexivity|]. rewrite <- app_assoc. destruct Hc as [(Ho & Hi)|(msg & Hh & Hw & -> & ->)].
    - eapply call_completed; eauto.
    - eapply call_overruled; eauto. }
  assert (Hsync : exec V ctx fs W ops sk ek
      ((if has_pre_hook h then [SPreHook x] else [])
       ++ (if has_pre_hook_async h then [SPreHookAsync x] else [])
       ++ [SLetExecute y x]
       ++ (if has_post_hook h then [SPostHook y] else [])
       ++ (if has_post_hook_async h then [SPostHookAsync y] else [])
       ++ rest) ((x, BRequest q) :: env) [] w =
    exec V ctx fs W ops sk ek
      ((if has_pre_hook_async h then [SPreHookAsync x] else [])
       ++ [SLetExecute y x]
       ++ (if has_post_hook h then [SPostHook y] else [])
       ++ (if has_post_hook_async h then [SPostHookAsync y] else [])
       ++ rest) ((x, BRequest q) :: env) (pre_events h q) (after_pre h ops q w)).
  { unfold pre_events, after_pre. destruct (has_pre_hook h); cbn [app exec assoc]; auto.
    now rewrite str_eqb_refl. }
  rewrite Hsync. clear Hsync.
  destruct (has_pre_hook_async h) eqn:Eh.
  - change ([SPreHookAsync x] ++ ?l) with (SPreHookAsync x :: l). cbn [exec assoc]. rewrite str_eqb_refl.
    destruct (w_pre_async ops q (after_pre h ops q w)) as [[q'|msg] w1] eqn:Ew.
    + apply Hsend. now apply pr_async.
    + do 3 eexists. split; [reflexivity|]. now apply call_vetoed.
  - change ([] ++ ?l) with l. apply Hsend. now apply pr_sync.
Qed.
End Tail.

(** ** The whole method *)

Section Whole.
Context (ctx : context) (V : Type) (fs : N -> list N -> result V jerr) (W : Type) (ops : world_ops W)
  (h : hooks).

Lemma from_invalid_header_eq : @from_invalid_header (inner V) = InvalidRequest (lit "failed to parse header value").
Proof. reflexivity. Qed.

Lemma client_starts_true v : startable v -> client_starts v = true.
Proof. intros [H1 H2]. now destruct v. Qed.

Theorem run_present m sb ps args ws t w :
  method_sig_body h m = Ok sb ->
  strict ps -> parse (show ps) = Ok (m_path m) ->
  well_named (m_params m) -> no_header_map (m_params m) ->
  no_encode_path ps (m_params m) -> startable (m_method m) ->
  arguments_for (m_params m) args -> header_value_static (c_api_version ctx) <> None ->
  Forall (fun ht => header_name (fst ht) <> None) (present_headers args) ->
  ws = m_websocket m -> lists ws t (m_responses m) ->
  (ws = true -> exists pre, m_responses m = pre ++ [OpResponse (SCode 101) RUpgrade]) ->
  (ws = false -> forall key k, In (key, k) t -> k <> RUpgrade) ->
  exists out tr w', run V ctx fs W ops sb (variables args) w = (Returned out, tr, w') /\
    ((exists e, refused ctx ps args e /\ out = RErr e /\ tr = [] /\ w' = w) \/
     (encodable args /\ exists q, is_request ctx m (sb_success sb) (sb_error sb) ps args q /\
        call h ops (interpreted fs ws t) q w out tr w')).
Proof.
  intros Hm Hst Hpa Hwn Hnh Hne Hsm Haf Hver Hnl Hws Hli Hla Hup.
  unfold method_sig_body in Hm. cbv zeta in Hm.
  set (names := map p_name (m_params m)) in *.
  pose proof (unique_ident_spec (lit "url") names) as (ku & Hurl & Hufresh & _).
  set (url := unique_ident_from (lit "url") names) in *.
  set (xq := unique_ident_from (lit "request") names) in *.
  set (xs := unique_ident_from (lit "response") names) in *.
  set (xr := unique_ident_from (lit "result") names) in *.
  apply obind_ok in Hm as (u & Hu & Hm). apply obind_ok in Hm as (bs & Hbs & Hm).
  destruct (1 <? N.of_nat (length bs)) eqn:Hlen; [easy|].
  apply obind_ok in Hm as ([si sk] & Hs & Hm). apply obind_ok in Hm as ([ei ek] & He & Hm).
  apply obind_ok in Hm as (eas & Ha & Hm).
  set (arms := map success_arm si ++ eas ++ default_arm (m_responses m)) in *.
  injection Hm as <-. unfold run. cbn [sb_success sb_error sb_body].
  assert (Harms : forall s a, expected ws t s a -> exists r, select arms s = Some r /\ rhs_is sk ek r a).
  { intros s a Hx. exact (dispatch m ws t Hli Hla Hup si ei sk ek eas Hs He Ha s a Hx). }
  destruct Haf as (Hmap & Hg). pose proof Hwn as (Hnd & Hapi & Hwf).
  destruct (path_values_exist args) as (val & Hval).
  { now rewrite Hmap. } { rewrite Hmap. exact Hnd. }
  change ([?a; ?b; ?c] ++ ?l) with (a :: b :: c :: l).
  cbn [exec]. rewrite (eval_url_ok ctx V ps (m_path m) (m_params m) args u val Hst Hpa Hu (conj Hmap Hg) Hwn Hne Hval).
  set (ur := c_base_url ctx ++ _).
  unfold eval_headers. destruct (header_value_static (c_api_version ctx)) as [ver|] eqn:Ever; [|easy].
  apply header_value_static_some in Ever. subst ver.
  set (h0 := h_append (lit "api-version") (utf8 (c_api_version ctx)) []).
  assert (Hbinds : forall bh, binds ((lit "header_map", bh) :: (url, BUrl ur) :: variables args) args).
  { intros bh [p o] Hi Hk. cbn [fst] in *. cbn [assoc].
    assert (Hin : In p (m_params m)). { rewrite <- Hmap. apply in_map_iff. now exists (p, o). }
    destruct (str_eqb (p_name p) (lit "header_map")) eqn:E1.
    { apply str_eqb_spec in E1. unfold no_header_map in Hnh. rewrite Forall_forall in Hnh. apply Hnh in Hin.
      destruct (p_kind p); congruence. }
    destruct (str_eqb (p_name p) url) eqn:E2.
    { apply str_eqb_spec in E2. exfalso. apply Hufresh. rewrite <- Hurl, <- E2. now apply in_map. }
    change (p_name p) with (p_name (fst (p, o))). apply lookup_variable; auto. now rewrite Hmap. }
  replace (header_stmts (m_params m)) with (header_stmts (map fst args)) by now rewrite Hmap.
  rewrite header_stmts_eval; auto.
  destruct (add_headers_cases V _ Hnl h0) as [(ht & Hi & Hv & ->)|(Hall & h' & -> & Hvals & Hcont & Hndh)].
  { do 3 eexists. split; [reflexivity|]. left. eexists. split; [|repeat split].
    apply rf_header. exists ht. split; auto. now apply header_value_none. }
  assert (Hlegal : ~ illegal_header args).
  { intros (ht & Hi & Hbad). rewrite Forall_forall in Hall. apply Hall in Hi. apply Hbad.
    destruct (header_value (snd ht)) eqn:E; [|easy]. now apply header_value_some in E. }
  specialize (Hbinds (BHeaders h')). set (env := (lit "header_map", _) :: _) in *.
  unfold eval_request. rewrite (client_starts_true (m_method m) Hsm). cbn [negb].
  assert (Hlu : assoc url env = Some (BUrl ur)).
  { unfold env. cbn [assoc]. destruct (str_eqb url (lit "header_map")) eqn:E.
    - exfalso. apply str_eqb_spec in E. rewrite Hurl in E.
      change (lit "header_map") with (underscores 0 (lit "header_map")) in E.
      apply underscores_base in E; easy.
    - now rewrite str_eqb_refl. }
  rewrite Hlu.
  assert (Hh : assoc (lit "header_map") env = Some (BHeaders h')) by (unfold env; cbn [assoc]; now rewrite str_eqb_refl).
  assert (Hl1 : (length bs <= 1)%nat) by lia.
  rewrite <- Hmap in Hbs, Hwf.
  replace (query_calls (m_params m)) with (query_calls (map fst args)) by now rewrite Hmap.
  set (calls := accept_calls sk ek ++ _).
  assert (Hndh' : NoDup (map fst h')). { apply Hndh. cbn. repeat constructor. intros []. }
  assert (Hown : forall n, (if h_contains n h' then h_values n h' else []) = own_values (c_api_version ctx) args n /\
     (h_contains n h' = false <-> own_values (c_api_version ctx) args n = [])).
  { intro n. rewrite Hcont, Hvals. unfold own_values. fold (given_values (present_headers args) n).
    unfold h0. cbn [h_append]. unfold h_contains, h_values. cbn [assoc].
    destruct (str_eqb n (lit "api-version")); cbn [app orb].
    - split; auto. split; easy.
    - destruct (given_values (present_headers args) n); cbn; split; auto; split; easy. }
  assert (Hbf : bad_form args \/ ~ bad_form args).
  { unfold bad_form. destruct (body_argument args) as [[[] v]|]; try (right; intros (? & ? & ?); congruence).
    destruct (urlencoded_to_string (v_serde v)) eqn:E; [right; intros (? & ? & ?); congruence|left; eauto]. }
  destruct Hbf as [Hbf|Hbf].
  { rewrite (calls_form ctx V m args env bs sk ek Hbinds Hg Hbs Hl1 Hwf _ Hbf : eval_calls _ _ _ _ calls = _). cbn [ebind].
    do 3 eexists. split; [reflexivity|]. left. eexists. split; [|repeat split]. now apply rf_form. }
  destruct (c_parse_url ctx ur) as [[[path query] uh]|e] eqn:Epu.
  2:{ cbv beta iota zeta. rewrite (calls_err ctx V m args env h' bs sk ek Hbinds Hg Hbs Hl1 Hwf Hh e Hbf : eval_calls _ _ _ _ calls = _). cbn [ebind].
      do 3 eexists. split; [reflexivity|]. left. eexists. split; [|repeat split]. now apply (rf_url ctx ps args val). }
  cbv beta iota zeta. pose proof (calls_cases ctx V m args env h' bs sk ek Hbinds Hg Hbs Hl1 Hwf Hh
              (Request (m_method m) path query uh None) Hbf eq_refl Hndh') as Hcc.
  change (accept_calls sk ek ++ bs ++ query_calls (map fst args) ++ [CHeaders]
          ++ (if m_websocket m then [CWebsocket] else [])) with calls in Hcc. destruct Hcc
    as [(Hj & ->)|[(Hj & Hq & ->)|(Hj & Hq & q & -> & Hqm & Hqu & Hqq & Hqb & Hqh)]].
  - do 3 eexists. split; [reflexivity|]. left. eexists. split; [|repeat split]. now apply rf_json.
  - do 3 eexists. split; [reflexivity|]. left. eexists. split; [|repeat split]. now apply rf_query.
  - cbn [ebind]. destruct (tail_run ctx V fs W ops h sk ek xq xr xs arms ws t q env w Harms) as (out & tr & w' & E & Hc).
    exists out, tr, w'. split; [exact E|]. right. split; [now repeat split|]. exists q. split; auto. split; auto.
    + intros val' Hval'. exists path, query, uh. cbn in Hqu, Hqq, Hqh. repeat split; auto.
      * rewrite <- Epu. unfold ur. do 2 f_equal. apply expand_ext. intros n Hn. rewrite vars_squeeze in Hn.
        rewrite <- (parse_names ps (m_path m)) in Hn; auto; [|apply strict_lax in Hst; tauto].
        unfold compile in Hu. apply obind_ok in Hu as (as_ & Hca & _).
        pose proof (compile_args_vars _ _ _ Hca n Hn) as Hsome.
        destruct (assoc_last n _) as [x|] eqn:El; [|easy]. apply assoc_last_In in El.
        rewrite <- Hmap in El. apply renames_In in El as (p & o & Hi & Hk & <- & <-).
        rewrite Forall_forall in Hg. specialize (Hg _ Hi). cbn in Hg. unfold required_param in Hg. rewrite Hk in Hg.
        destruct o as [v|]; [|exfalso; now apply Hg]. rewrite (Hval p v), (Hval' p v); auto.
      * intros ->. exact Hqq.
      * intros Hc2 n. rewrite (Hqh Hc2 n). unfold header_values. f_equal.
        destruct (Hown n) as (Ho1 & Ho2). destruct (h_contains n h') eqn:Ehc.
        -- rewrite <- Ho1. destruct (h_values n h') eqn:Ehv; auto.
           exfalso. symmetry in Ho1. apply Ho2 in Ho1. easy.
        -- now rewrite <- Ho1.
Qed.
Theorem run_refines m sb ps args ws t w :
  method_sig_body h m = Ok sb ->
  strict ps -> parse (show ps) = Ok (m_path m) ->
  well_named (m_params m) -> no_header_map (m_params m) ->
  no_encode_path ps (m_params m) -> startable (m_method m) ->
  arguments_for (m_params m) args -> legal_names ctx (m_params m) ->
  ws = m_websocket m -> lists ws t (m_responses m) ->
  (ws = true -> exists pre, m_responses m = pre ++ [OpResponse (SCode 101) RUpgrade]) ->
  (ws = false -> forall key k, In (key, k) t -> k <> RUpgrade) ->
  exists out tr w', run V ctx fs W ops sb (variables args) w = (Returned out, tr, w') /\
    ((exists e, refused ctx ps args e /\ out = RErr e /\ tr = [] /\ w' = w) \/
     (encodable args /\ exists q, is_request ctx m (sb_success sb) (sb_error sb) ps args q /\
        call h ops (interpreted fs ws t) q w out tr w')).
Proof.
  intros Hm Hst Hpa Hwn Hnh Hne Hsm Haf [Hver Hnames]. apply run_present; auto.
  apply Forall_forall. intros [hn tx] Hi. unfold present_headers in Hi. apply in_flat_map in Hi as ([p o] & Hi & Hx).
  cbn in Hx. destruct (p_kind p) eqn:Hk; try easy. destruct o; [|easy]. destruct Hx as [[= <- <-]|[]]. cbn.
  rewrite Forall_forall in Hnames. specialize (Hnames p). rewrite Hk in Hnames. apply Hnames.
  rewrite <- (proj1 Haf). apply in_map_iff. now exists (p, Some v).
Qed.
End Whole.

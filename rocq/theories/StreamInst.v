(** The streams of both styles. *)
From Verif Require Import Base ClientModel MethodModel RunModel FutureModel StreamModel StreamSpec StreamProofs RequestSpec RequestProofs
  EnvProofs BuilderModel BuilderSpec BuilderProofs BuilderSend.
Local Open Scope N_scope.

Section Streams.
Context {V W : Type} (page_items : V -> list V) (page_next : V -> option value).
Variables (ctx : context) (fs : type_id -> list N -> result V jerr) (ops : world_ops W).
Notation args_t := (list (op_param * option value)).

Lemma page_argument p o token : (p_api_name p = lit "page_token" -> is_optional (p_kind p) = true) ->
  (forall r, p_kind p = KQuery r -> r = false) ->
  forall q, In q (page_arguments token [(p, o)]) ->
  fst q = p /\
  var p (snd q) =
    (if str_eqb (p_api_name p) (lit "page_token") then BOpt (Some token)
     else if negb (str_eqb (p_api_name p) (lit "limit")) && is_query (p_kind p) then BOpt None
     else var p o).
Proof.
  intros Ht Hq q [<-|[]]. cbn [fst snd]. split; auto.
  destruct (str_eqb (p_api_name p) (lit "page_token")) eqn:E.
  - apply str_eqb_spec in E. unfold var. now rewrite Ht.
  - destruct (p_kind p) as [|r|r|ct] eqn:Ek; cbn [is_query]; rewrite ?andb_false_r; auto.
    destruct (str_eqb (p_api_name p) (lit "limit")); auto.
Qed.

Lemma page_arguments_cons token pv args :
  page_arguments token (pv :: args) = page_arguments token [pv] ++ page_arguments token args.
Proof. reflexivity. Qed.

Lemma page_arguments_names token args : map fst (page_arguments token args) = map fst args.
Proof. unfold page_arguments. rewrite map_map. reflexivity. Qed.

(** ** The positional style *)
Section Positional.
Variables (sb : sig_body) (ps : list op_param) (args : args_t).
Hypothesis params : paginated_params ps.
Hypothesis all : map fst args = ps.
Hypothesis no_token : forall p o, In (p, o) args -> p_api_name p = lit "page_token" -> o = None.
Hypothesis names : forall p, In p ps -> repeated p -> ~ In (p_name p) [lit "page"; lit "first"; lit "state"].

(** The variables of the stream function: every argument but the token. *)
Definition stream_env : list (str * binding) :=
  variables (without_token args).

Lemma stream_env_var p o : In (p, o) args -> p_api_name p <> lit "page_token" -> assoc (p_name p) stream_env = Some (var p o).
Proof.
  destruct params as (Hnd & _ & Hname & _). intros Hi Hp. apply assoc_nodup.
  - unfold stream_env. rewrite variables_names.
    assert (H : NoDup (map (fun pv => p_name (fst pv)) args)) by (rewrite <- map_map, all; exact Hnd).
    clear -H. rewrite map_map. unfold without_token. induction args as [|a l IH]; cbn [filter map]; [constructor|]. inversion H as [|? ? Hn Hnd']; subst.
    destruct (negb _); cbn [filter map]; auto. constructor; auto.
    intro Hi. apply Hn. apply in_map_iff in Hi as (x & <- & Hx). apply filter_In in Hx as (Hx & _).
    now apply (in_map (fun pv : op_param * option value => p_name (fst pv))).
  - unfold stream_env. rewrite variables_var.
    apply (in_map (fun pv => (p_name (fst pv), var (fst pv) (snd pv))) _ (p, o)). apply filter_In. split; auto.
    cbn [fst]. now apply negb_true_iff, str_eqb_neq.
Qed.

Lemma stream_env_params : map fst (without_token args) = stream_params ps.
Proof.
  destruct params as (_ & _ & Hname & _). rewrite <- all in Hname |- *. clear -Hname. unfold without_token, stream_params.
  induction args as [|[p o] l IH]; [reflexivity|]. cbn [map filter fst]. rewrite <- IH by (intros q Hq; apply Hname; now right).
  assert (E : str_eqb (p_api_name p) (lit "page_token") = str_eqb (p_name p) (lit "page_token")).
  { destruct (str_eqb (p_api_name p) (lit "page_token")) eqn:E1, (str_eqb (p_name p) (lit "page_token")) eqn:E2; auto.
    - apply str_eqb_spec in E1. apply str_eqb_neq in E2. exfalso. apply E2, Hname; auto. now left.
    - apply str_eqb_spec in E2. apply str_eqb_neq in E1. exfalso. apply E1, Hname; auto. now left. }
  rewrite E. now destruct (negb _).
Qed.

Lemma bind_first : bind_args stream_env None ps (first_params ps) = Some (variables args).
Proof.
  rewrite <- all. assert (Hs : incl args args) by apply incl_refl. revert Hs.
  generalize args at 1 3 4 5 as l. induction l as [|[p o] l IH]; intro Hs; [reflexivity|].
  unfold first_params in *. cbn [map bind_args fst]. rewrite IH by (intros x Hx; apply Hs; now right).
  assert (Hi : In (p, o) args) by (apply Hs; now left).
  rewrite !variables_var. cbn [map fst snd].
  destruct (str_eqb (p_api_name p) (lit "page_token")) eqn:E; cbn [eval_arg].
  - apply str_eqb_spec in E. rewrite (no_token p o Hi E). reflexivity.
  - apply str_eqb_neq in E. now rewrite (stream_env_var p o Hi E).
Qed.

Lemma visible_var x : ~ In x [lit "page"; lit "first"; lit "state"] -> assoc x (visible stream_env) = assoc x stream_env.
Proof.
  intro Hn. unfold visible. induction stream_env as [|[y b] l IH]; [reflexivity|]. cbn [filter fst].
  destruct (mem y hidden_names) eqn:E; cbn [negb assoc]; rewrite IH; [|reflexivity].
  destruct (str_eqb x y) eqn:Ex; [|reflexivity]. apply str_eqb_spec in Ex. subst y. exfalso. apply Hn.
  now apply Base.mem_spec.
Qed.

Lemma bind_step token : bind_args (visible stream_env) (Some token) ps (step_params ps) = Some (variables (page_arguments token args)).
Proof.
  rewrite <- all. assert (Hs : incl args args) by apply incl_refl. revert Hs.
  generalize args at 1 3 4 5 as l. induction l as [|[p o] l IH]; intro Hs; [reflexivity|].
  unfold step_params in *. cbn [map bind_args fst]. rewrite IH by (intros x Hx; apply Hs; now right).
  assert (Hi : In (p, o) args) by (apply Hs; now left).
  destruct params as (Hnd & (pt & Hpt & Ept & Ekt) & Hname & Hq).
  assert (Hp : In p ps) by (rewrite <- all; now apply (in_map fst) in Hi).
  rewrite (variables_var (page_arguments token ((p, o) :: l))), (variables_var (page_arguments token l)), page_arguments_cons, map_app.
  destruct (page_arguments token [(p, o)]) as [|q [|]] eqn:Ea; try discriminate.
  destruct (page_argument p o token) with (q := q) as (Eq & Ev).
  - intro E. assert (p = pt); [|subst; now rewrite Ekt].
    assert (En : p_name p = p_name pt) by (transitivity (lit "page_token"); [|symmetry]; apply Hname; auto).
    clear -Hnd Hp Hpt En. induction ps as [|a l IH]; [easy|]. cbn in Hnd. inversion Hnd as [|? ? Hn Hnd']; subst.
    destruct Hp as [->|Hp], Hpt as [->|Hpt]; auto; exfalso; apply Hn; [rewrite En|rewrite <- En]; now apply in_map.
  - intros r Er. now apply (Hq p).
  - rewrite Ea. now left.
  - cbn [map app]. rewrite Eq, Ev.
    destruct (str_eqb (p_api_name p) (lit "page_token")) eqn:E; cbn [eval_arg]; auto.
    apply str_eqb_neq in E.
    destruct (negb (str_eqb (p_api_name p) (lit "limit")) && is_query (p_kind p)) eqn:Er; cbn [eval_arg]; auto.
    rewrite visible_var; [now rewrite (stream_env_var p o Hi E)|]. apply names; [exact Hp|]. split; [exact E|].
    apply andb_false_iff in Er as [Er|Er].
    + left. apply str_eqb_spec. now apply negb_false_iff.
    + right. intros r Ek. rewrite Ek in Er. easy.
Qed.

Theorem positional_streams :
  streams page_items page_next (page_request ctx fs ops sb args)
    (positional_stream V page_items page_next ctx fs W ops sb ps stream_env) FlatFirst.
Proof.
  apply (pages_stream page_items page_next (page_request ctx fs ops sb args)
           (positional_step V page_items page_next ctx fs W ops sb ps stream_env)
           _ (fun x => x) (fun _ => True) (fun _ p => page_next p) page_next).
  - intros x w _. destruct x as [v|]; cbn [positional_step]; auto.
    unfold call_method. now rewrite bind_step.
  - auto.
  - intro w. unfold call_method. now rewrite bind_first.
  - auto.
Qed.
End Positional.

(** ** The builder style *)
Section Builder.
Context {B : Type} (types : type_id -> option type_info).
Variables (b_default : type_id -> B) (b_from : type_id -> value -> B) (b_try_from : type_id -> B -> result value str).
Variables (h : hooks) (m : op_method) (c : builder_code).
Hypothesis gen : builder_struct types h m = Ok c.
Hypothesis ok : builder_ok types m.
Notation gives := (gives types b_default b_from b_try_from).

(** The fields hold the arguments. *)
Definition stored (st : list (str * field B)) (f : builder_field) (pv : op_param * option value) : Prop :=
  field_for types (fst pv) f /\
  exists x, assoc (bf_name f) st = Some x /\
    finalize_field B b_try_from (bf_finalize f) x = Some (ROk (var (fst pv) (snd pv))).
Definition stores st (args : args_t) : Prop := Forall2 (stored st) (bc_fields c) args.

Lemma finalize_stored st l args : Forall2 (stored st) l args -> forall env,
  finalize_all B b_try_from l st env = Some (ROk (rev (variables args) ++ env)).
Proof.
  induction 1 as [|f pv l args (Hpf & x & Hx & Hf) HF IH]; intro env; cbn [finalize_all]; auto.
  rewrite Hx, Hf, IH. rewrite (variables_var args), (variables_var (pv :: args)). cbn [map rev fst snd]. rewrite <- app_assoc.
  destruct Hpf as [-> _ _ _ _]. reflexivity.
Qed.

Lemma stores_params st args : stores st args -> map (fun pv => p_name (fst pv)) args = map bf_name (bc_fields c).
Proof. induction 1 as [|f pv l args (Hpf & _) HF IH]; cbn; auto. destruct Hpf as [-> _ _ _ _]. now rewrite IH. Qed.

Lemma field_names : NoDup (map bf_name (bc_fields c)).
Proof. apply (fields_facts types h m c gen ok). Qed.

Lemma send_stored st args w : stores st args ->
  send B b_try_from V ctx fs W ops c st w = run V ctx fs W ops (bc_send c) (variables args) w.
Proof.
  intro Hs. unfold send. rewrite (finalize_stored st _ args Hs), app_nil_r. apply run_env, env_eq_rev.
  rewrite variables_names, map_map, (stores_params st args Hs). apply field_names.
Qed.

Lemma built_stores cs st args : Forall (legal_call types m) cs -> build B b_default b_from (bc_fields c) cs = Some st ->
  map fst args = m_params m -> Forall (fun pv => gives cs (fst pv) (ROk (snd pv))) args -> stores st args.
Proof.
  intros Hl Hb Ha Hg. destruct (builder_struct_ok types h m c gen) as (HF & _). unfold stores.
  assert (H : forall ps l, Forall2 (field_for types) ps l -> incl ps (m_params m) -> incl l (bc_fields c) ->
    forall args, map fst args = ps -> Forall (fun pv => gives cs (fst pv) (ROk (snd pv))) args -> Forall2 (stored st) l args).
  { clear args Ha Hg. induction 1 as [|p f ps l Hpf HF' IH]; intros Hip Hif args Ha Hg.
    - apply map_eq_nil in Ha. subst. constructor.
    - destruct args as [|[p' o] args]; [discriminate|]. cbn in Ha. injection Ha as -> Ha.
      inversion Hg as [|? ? Hg1 Hg2]; subst. cbn [fst snd] in Hg1.
      assert (Hip1 : In p (m_params m)) by (apply Hip; now left).
      assert (Hif1 : In f (bc_fields c)) by (apply Hif; now left).
      constructor.
      + split; auto. cbn [fst snd].
        apply (finalize_value types b_default b_from b_try_from h m c gen ok cs st p f (ROk o) Hl Hb Hif1 Hpf
                 (field_for_case types m p f ok Hip1 Hpf) Hg1).
      + apply IH; auto; intros q Hq; [apply Hip|apply Hif]; now right. }
  apply (H (m_params m) (bc_fields c)); auto using incl_refl.
Qed.

(** Assigning an optional field. *)
Definition update (n : str) (o : option value) (args : args_t) : args_t :=
  map (fun pv => if str_eqb (p_name (fst pv)) n then (fst pv, o) else pv) args.

Lemma update_fst n o args : map fst (update n o args) = map fst args.
Proof. unfold update. rewrite map_map. apply map_ext. intros [p v]. cbn. now destruct (str_eqb _ _). Qed.

Lemma optional_plain f p : In p (m_params m) -> field_for types p f -> is_optional (p_kind p) = true ->
  bf_finalize f = None.
Proof.
  intros Hp Hpf Ho. destruct (field_for_case types m p f ok Hp Hpf) as [t ty H _ _ _ _ _ _|ty _ _ Hty _ Hfin _ _|ty _ _ Hty _ Hfin _ _]; auto.
  rewrite (body_kind_required types p t H) in Ho. discriminate.
Qed.

Lemma assign_stores st args n o : stores st args -> map fst args = m_params m ->
  (forall p, In p (m_params m) -> p_name p = n -> is_optional (p_kind p) = true) ->
  stores (assign B n (FOpt (ROk o)) st) (update n o args).
Proof.
  intros Hs Ha Hn. unfold stores, update in *.
  assert (Hi : incl (map fst args) (m_params m)) by (rewrite Ha; apply incl_refl). clear Ha.
  induction Hs as [|f [p v] l args (Hpf & x & Hx & Hf) HF IH]; cbn [map fst snd] in *; constructor.
  - assert (Hp : In p (m_params m)) by (apply Hi; now left).
    assert (En : bf_name f = p_name p) by (now destruct Hpf as [-> _ _ _ _]).
    destruct (str_eqb (p_name p) n) eqn:E.
    + apply str_eqb_spec in E. split; auto. cbn [fst snd]. exists (FOpt (ROk o)). split.
      * rewrite En, E. apply assoc_assign_same.
        destruct (in_dec (list_eq_dec N.eq_dec) n (map fst st)) as [|Hni]; auto.
        apply assoc_none_notin in Hni. rewrite En, E in Hx. congruence.
      * rewrite (optional_plain f p); auto. cbn. unfold var. rewrite Hn by auto. now destruct o.
    + apply str_eqb_neq in E. split; auto. cbn [fst snd]. exists x. split; auto.
      rewrite assoc_assign_other; auto. congruence.
  - apply IH. intros q Hq. apply Hi. now right.
Qed.

Lemma reset_stores names : forall st args, stores st args -> map fst args = m_params m ->
  (forall p, In p (m_params m) -> In (p_name p) names -> is_optional (p_kind p) = true) ->
  stores (reset B names st) (fold_left (fun a n => update n None a) names args).
Proof.
  unfold reset. induction names as [|n names IH]; intros st args Hs Ha Hn; cbn [fold_left]; auto.
  apply IH.
  - apply assign_stores; auto. intros p Hp En. apply Hn; auto. now left.
  - now rewrite update_fst.
  - intros p Hp Hi. apply Hn; auto. now right.
Qed.

Lemma fold_update names args : fold_left (fun a n => update n None a) names args =
  map (fun pv => if existsb (str_eqb (p_name (fst pv))) names then (fst pv, None) else pv) args.
Proof.
  revert args. induction names as [|n names IH]; intro args; cbn [fold_left existsb].
  - rewrite <- (map_id args) at 1. reflexivity.
  - rewrite IH. unfold update. rewrite map_map. apply map_ext. intros [p v]. cbn [fst].
    destruct (str_eqb (p_name p) n); cbn [orb fst]; auto. now destruct (existsb _ _).
Qed.

Hypothesis params : paginated_params (m_params m).

Lemma reset_name p : In p (m_params m) -> In (p_name p) (reset_fields (m_params m)) <->
  (exists r, p_kind p = KQuery r) /\ p_api_name p <> lit "limit".
Proof.
  intro Hp. destruct params as (Hnd & _). unfold reset_fields. rewrite in_flat_map. split.
  - intros (q & Hq & Hi). destruct (p_kind q) as [|r|r|ct] eqn:Ek; try easy.
    destruct (str_eqb (p_api_name q) (lit "limit")) eqn:E; [easy|]. destruct Hi as [En|[]].
    assert (q = p); [|subst; split; [eauto|now apply str_eqb_neq]].
    clear -Hnd Hp Hq En. induction (m_params m) as [|a l IH]; [easy|]. cbn in Hnd. inversion Hnd as [|? ? Hn Hnd']; subst.
    destruct Hp as [->|Hp], Hq as [->|Hq]; auto; exfalso; apply Hn; [rewrite <- En|rewrite En]; now apply in_map.
  - intros ((r & Ek) & Hl). exists p. split; auto. rewrite Ek. apply str_eqb_neq in Hl. rewrite Hl. now left.
Qed.

Lemma updated_arguments args token : map fst args = m_params m ->
  update (lit "page_token") (Some token) (fold_left (fun a n => update n None a) (reset_fields (m_params m)) args)
  = page_arguments token args.
Proof.
  intro Ha. rewrite fold_update. unfold update, page_arguments. rewrite map_map. apply map_ext_in. intros [p v] Hi.
  assert (Hp : In p (m_params m)) by (rewrite <- Ha; now apply (in_map fst) in Hi). cbn [fst snd].
  destruct params as (_ & _ & Hname & _).
  destruct (str_eqb (p_api_name p) (lit "page_token")) eqn:E.
  - apply str_eqb_spec in E. apply Hname in E; auto.
    destruct (existsb _ _); cbn [fst]; now rewrite E, str_eqb_refl.
  - apply str_eqb_neq in E. assert (E' : str_eqb (p_name p) (lit "page_token") = false).
    { apply str_eqb_neq. intro En. now apply E, Hname. }
    assert (Hr := reset_name p Hp).
    assert (Hex : existsb (str_eqb (p_name p)) (reset_fields (m_params m)) = true <-> In (p_name p) (reset_fields (m_params m))).
    { rewrite existsb_exists. split; [intros (x & Hx & Ex); apply str_eqb_spec in Ex; now subst|].
      intro Hx. exists (p_name p). split; auto. apply str_eqb_refl. }
    destruct (existsb _ _); cbn [fst snd]; rewrite E'.
    + destruct Hr as [Hr _]. destruct Hr as ((r & ->) & Hl); [now apply Hex|]. apply str_eqb_neq in Hl. now rewrite Hl.
    + destruct (p_kind p) as [|r|r|ct] eqn:Ek; auto. destruct (str_eqb (p_api_name p) (lit "limit")) eqn:El; auto.
      exfalso. apply str_eqb_neq in El. assert (In (p_name p) (reset_fields (m_params m))) by (apply Hr; eauto).
      now apply Hex in H.
Qed.

Lemma query_optional p : In p (m_params m) -> In (p_name p) (reset_fields (m_params m)) -> is_optional (p_kind p) = true.
Proof.
  intros Hp Hi. apply reset_name in Hi as ((r & Ek) & _); auto. destruct params as (_ & _ & _ & Hq).
  rewrite Ek. now rewrite (Hq p r Hp Ek).
Qed.

Lemma step_stores st args token : stores st args -> map fst args = m_params m ->
  stores (assign B (lit "page_token") (FOpt (ROk (Some token))) (reset B (reset_fields (m_params m)) st)) (page_arguments token args).
Proof.
  intros Hs Ha. rewrite <- (updated_arguments args token Ha). apply assign_stores.
  - apply reset_stores; auto. apply query_optional.
  - rewrite fold_update, map_map. rewrite <- Ha. apply map_ext. intros [p v]. cbn. now destruct (existsb _ _).
  - intros p Hp En. destruct params as (Hnd & (pt & Hpt & Ept & Ekt) & Hname & Hq).
    assert (p = pt); [|subst; now rewrite Ekt].
    assert (En' : p_name p = p_name pt) by (rewrite En; symmetry; now apply Hname).
    clear -Hnd Hp Hpt En'. induction (m_params m) as [|a l IH]; [easy|]. cbn in Hnd. inversion Hnd as [|? ? Hn Hnd']; subst.
    destruct Hp as [->|Hp], Hpt as [->|Hpt]; auto; exfalso; apply Hn; [rewrite En'|rewrite <- En']; now apply in_map.
Qed.

Theorem builder_streams cs st args : Forall (legal_call types m) cs -> build B b_default b_from (bc_fields c) cs = Some st ->
  map fst args = m_params m -> Forall (fun pv => gives cs (fst pv) (ROk (snd pv))) args ->
  streams page_items page_next (page_request ctx fs ops (bc_send c) args)
    (builder_stream V page_items page_next ctx fs W ops B b_try_from c (reset_fields (m_params m)) st) FlatFirst.
Proof.
  intros Hl Hb Ha Hg. assert (Hs := built_stores cs st args Hl Hb Ha Hg).
  set (next := reset B (reset_fields (m_params m)) st).
  apply (pages_stream page_items page_next (page_request ctx fs ops (bc_send c) args)
           (builder_step V page_items page_next ctx fs W ops B b_try_from c)
           _ fst (fun x => snd x = next) (fun _ p => (page_next p, next)) (fun p => (page_next p, next))).
  - intros [x n] w Hn. cbn [snd] in Hn. subst n. cbn [builder_step fst]. destruct x as [v|]; auto.
    unfold send_page, page_request. now rewrite (send_stored _ (page_arguments v args)) by now apply step_stores.
  - auto.
  - intro w. unfold send_page, page_request. now rewrite (send_stored st args).
  - auto.
Qed.

Theorem builder_stream_refused cs st pre p post msg : Forall (legal_call types m) cs ->
  build B b_default b_from (bc_fields c) cs = Some st ->
  m_params m = pre ++ p :: post -> Forall (fun q => exists o, gives cs q (ROk o)) pre -> gives cs p (RErr msg) ->
  forall fuel k w, exists s,
  take (builder_stream V page_items page_next ctx fs W ops B b_try_from c (reset_fields (m_params m)) st) fuel (S k) FlatFirst w
  = Some (Some (RErr (InvalidRequest msg)) :: repeat None k, s, w).
Proof.
  intros Hl Hb Hps Hpre Hp fuel k w. exists FlatEmpty.
  assert (Es := send_refused types b_default b_from b_try_from h m c gen ok V W ctx fs ops cs st pre p post msg w Hl Hb Hps Hpre Hp).
  cbn [take]. unfold builder_stream, pages, try_flatten_stream at 1. unfold send_page at 1. rewrite Es. cbn [page_of map_ok].
  match goal with |- match ?x with _ => _ end = _ => enough (Ht : x = Some (repeat None k, FlatEmpty, w)) by now rewrite Ht end.
  induction k as [|k IH]; cbn [take repeat]; auto. cbn [try_flatten_stream]. now rewrite IH.
Qed.
End Builder.
End Streams.

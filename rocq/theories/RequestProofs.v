(** The generated method body builds the specified request. *)
From Verif Require Import Base Utf8 SerdeModel EncodeModel HeaderModel HeaderProofs ClientModel MethodModel
  RunModel TemplateModel TemplateSpec TemplateProofs NameProofs ResponseSpec RequestSpec.
From Coq Require Import ZifyBool ZifyN.
Local Open Scope N_scope.

(** ** Variables *)

Definition bound (pv : op_param * option value) : binding :=
  match snd pv with
  | Some v => if is_optional (p_kind (fst pv)) then BOpt (Some v) else BVal v
  | None => BOpt None
  end.

Lemma variables_names args : map fst (variables args) = map p_name (map fst args).
Proof. unfold variables. rewrite !map_map. reflexivity. Qed.

Lemma lookup_variable args pv : NoDup (map p_name (map fst args)) -> In pv args ->
  assoc (p_name (fst pv)) (variables args) = Some (bound pv).
Proof.
  intros Hn Hi. apply assoc_nodup_In.
  - now rewrite variables_names.
  - unfold variables. apply in_map_iff. exists pv. auto.
Qed.

(** ** URL *)

Lemma renames_In (args : list (op_param * option value)) n x : In (n, x) (url_renames (map fst args)) ->
  exists p o, In (p, o) args /\ p_kind p = KPath /\ p_api_name p = n /\ p_name p = x.
Proof.
  unfold url_renames. rewrite in_flat_map. intros (p & Hp & Hx).
  apply in_map_iff in Hp as ([p' o] & <- & Hi). cbn in Hx. destruct (p_kind p') eqn:Hk; try easy.
  destruct Hx as [[= <- <-]|[]]. eauto 6.
Qed.

Lemma arg_texts_ok env args : Forall (fun a => exists v, assoc a env = Some (BVal v)) args ->
  arg_texts env args =
  Some (map (fun a => match assoc a env with Some (BVal v) => v_text v | _ => [] end) args).
Proof. induction 1 as [|a l (v & E) _ IH]; cbn; auto. now rewrite E, IH. Qed.

Lemma compile_args_In p rename args : compile_args p rename = Ok args ->
  forall a, In a args -> exists n, In (n, a) rename.
Proof.
  revert args; induction p as [|[s|n] p IH]; cbn; intros args H a Ha.
  - injection H as <-. easy.
  - eauto.
  - destruct (assoc_last n rename) as [x|] eqn:E; [|easy].
    apply obind_ok in H as (l & Hl & H). injection H as <-. destruct Ha as [<-|Ha].
    + apply assoc_last_In in E. eauto.
    + eauto.
Qed.

Lemma compile_args_vars p rename args : compile_args p rename = Ok args ->
  forall n, In n (names p) -> assoc_last n rename <> None.
Proof.
  revert args; induction p as [|[s|m] p IH]; cbn; intros args H n Hn; try easy.
  - eauto.
  - destruct (assoc_last m rename) as [x|] eqn:E; [|easy].
    apply obind_ok in H as (l & Hl & H). injection H as <-. destruct Hn as [<-|Hn]; [congruence|]. eauto.
Qed.

Lemma expand_ext val val' ps : (forall n, In n (vars ps) -> val n = val' n) -> expand val ps = expand val' ps.
Proof.
  unfold expand. induction ps as [|[c|n] ps IH]; cbn; intro H; auto.
  - now rewrite IH.
  - rewrite IH, (H n); auto.
Qed.

Lemma path_api_unique (args : list (op_param * option value)) p o p' o' :
  NoDup (map p_api_name (filter (fun p => match p_kind p with KPath => true | _ => false end) (map fst args))) ->
  In (p, o) args -> In (p', o') args -> p_kind p = KPath -> p_kind p' = KPath ->
  p_api_name p = p_api_name p' -> p = p'.
Proof.
  intros Hn Hi Hi' Hk Hk' E.
  assert (H : forall q oq, In (q, oq) args -> p_kind q = KPath ->
    In q (filter (fun p => match p_kind p with KPath => true | _ => false end) (map fst args))).
  { intros q oq Hq Hkq. apply filter_In. rewrite Hkq. split; auto. apply in_map_iff. now exists (q, oq). }
  apply H in Hi; auto. apply H in Hi'; auto. clear H. induction (filter _ _) as [|a l IH]; [easy|].
  cbn in Hn. inversion Hn as [|? ? Ha Hl]; subst. destruct Hi as [->|Hi], Hi' as [->|Hi']; auto.
  - exfalso. apply Ha. rewrite E. now apply in_map.
  - exfalso. apply Ha. rewrite <- E. now apply in_map.
Qed.

Lemma nodup_name_unique (args : list (op_param * option value)) pv pv' :
  NoDup (map p_name (map fst args)) -> In pv args -> In pv' args ->
  p_name (fst pv) = p_name (fst pv') -> pv = pv'.
Proof.
  rewrite map_map. induction args as [|a l IH]; [easy|]. cbn. intros Hn Hi Hi' E.
  inversion Hn as [|? ? Ha Hl]; subst. destruct Hi as [->|Hi], Hi' as [->|Hi']; auto.
  - exfalso. apply Ha. rewrite E. apply (in_map (fun x => p_name (fst x))). exact Hi'.
  - exfalso. apply Ha. rewrite <- E. apply (in_map (fun x => p_name (fst x))). exact Hi.
Qed.

Lemma no_encode_variable path args u : no_encode_path path (map fst args) -> (vars path = [] -> ue_args u = []) -> calls_variable (variables args) u = false.
Proof.
  intros H Hu. unfold calls_variable. destruct (ue_args u); auto. destruct H as [H|H]; [now specialize (Hu H)|].
  destruct (assoc (lit "encode_path") (variables args)) eqn:E; auto. exfalso.
  apply assoc_In in E. unfold variables in E. apply in_map_iff in E as ([q o] & [= E _] & Hi).
  rewrite Forall_forall in H. apply (H q); auto. apply in_map_iff. now exists (q, o).
Qed.

Section Url.
Context (ctx : context) (V : Type).

Lemma eval_url_ok ps p params args u val :
  strict ps -> parse (show ps) = Ok p -> compile p (url_renames params) = Ok u ->
  arguments_for params args -> well_named params -> no_encode_path ps params -> path_values args val ->
  eval_url_expr V ctx (variables args) u =
  Val (c_base_url ctx ++ expand val (squeeze_pieces false ps)).
Proof.
  intros Hs Hp Hc (Hmap & Hreq) (Hnd & Hapi & _) Hne Hval. subst params.
  pose proof Hc as Hc'. unfold compile in Hc'. apply obind_ok in Hc' as (as_ & Ha & Hu).
  assert (Hargs : ue_args u = as_) by now injection Hu as <-. clear Hu.
  assert (HF : Forall (fun a => exists v, assoc a (variables args) = Some (BVal v)) (ue_args u)).
  { rewrite Hargs. apply Forall_forall. intros a Hin. eapply compile_args_In in Hin as (n & Hr); eauto.
    apply renames_In in Hr as (q & o & Hi & Hk & <- & <-).
    pose proof (lookup_variable args (q, o) Hnd Hi) as E. cbn in E. rewrite E.
    rewrite Forall_forall in Hreq. specialize (Hreq _ Hi). cbn in Hreq. unfold required_param in Hreq.
    rewrite Hk in Hreq. unfold bound. cbn. rewrite Hk. destruct o as [v|]; [|exfalso; now apply Hreq].
    exists v. reflexivity. }
  assert (Hnil : vars ps = [] -> ue_args u = []).
  { intro E. rewrite Hargs. rewrite <- (parse_names ps p) in E; auto; [|apply strict_lax in Hs; tauto].
    rewrite compile_args_ok, E in Ha. now injection Ha as <-. }
  unfold eval_url_expr. rewrite (no_encode_variable ps) by (exact Hne || exact Hnil). rewrite (arg_texts_ok _ _ HF), map_map.
  pose (env := fun a => match assoc a (variables args) with Some (BVal v) => v_text v | _ => [] end).
  pose proof (compile_eval ps p _ u encode_path (c_base_url ctx) env Hs Hp Hc) as E.
  unfold eval_url in E. unfold env in E at 1. rewrite E. do 2 f_equal. apply expand_ext. intros n Hn. rewrite vars_squeeze in Hn.
  rewrite <- (parse_names ps p) in Hn; auto; [|apply strict_lax in Hs; tauto].
  pose proof (compile_args_vars _ _ _ Ha n Hn) as Hsome.
  destruct (assoc_last n _) as [x|] eqn:El; [|easy]. apply assoc_last_In in El.
  apply renames_In in El as (q & o & Hi & Hk & <- & <-). unfold env.
  pose proof (lookup_variable args (q, o) Hnd Hi) as Eq. cbn in Eq. rewrite Eq.
  rewrite Forall_forall in Hreq. specialize (Hreq _ Hi). cbn in Hreq. unfold required_param in Hreq.
  rewrite Hk in Hreq. unfold bound. cbn. rewrite Hk. destruct o as [v|]; [|exfalso; now apply Hreq].
  cbn. symmetry. now apply Hval.
Qed.

Lemma path_values_exist args :
  NoDup (map p_api_name (filter (fun p => match p_kind p with KPath => true | _ => false end) (map fst args))) ->
  NoDup (map p_name (map fst args)) ->
  exists val, path_values args val.
Proof.
  intros Hapi Hnd.
  exists (fun n => match find (fun pv => match p_kind (fst pv) with KPath => str_eqb (p_api_name (fst pv)) n | _ => false end) args with
                   | Some (_, Some v) => encode_path (v_text v)
                   | _ => []
                   end).
  intros p v Hi Hk. destruct (find _ args) as [[q o]|] eqn:E.
  - apply find_some in E as (Hq & E). cbn in E. destruct (p_kind q) eqn:Hkq; try easy.
    apply str_eqb_spec in E. assert (q = p) by (eapply path_api_unique; eauto). subst q.
    assert (E2 : (p, o) = (p, Some v)) by (eapply nodup_name_unique; eauto). injection E2 as ->. reflexivity.
  - apply find_none with (x := (p, Some v)) in E; auto. cbn in E. rewrite Hk, str_eqb_refl in E. easy.
Qed.
End Url.

(** ** Headers *)

Section Headers.
Context (V : Type).

Fixpoint add_headers (h : hmap) (l : list (str * str)) : ev (inner V) hmap :=
  match l with
  | [] => Val h
  | (hn, t) :: r => ebind (append_header V h hn t) (fun h' => add_headers h' r)
  end.

Definition binds (env : list (str * binding)) (args : list (op_param * option value)) : Prop :=
  forall pv, In pv args -> p_kind (fst pv) <> KPath -> assoc (p_name (fst pv)) env = Some (bound pv).

Definition given (args : list (op_param * option value)) : Prop :=
  Forall (fun pv => required_param (fst pv) -> snd pv <> None) args.

Lemma binds_cons env pv args : binds env (pv :: args) -> binds env args.
Proof. intros H x Hx. apply H. now right. Qed.

Lemma header_stmts_eval env args : binds env args -> given args -> forall h,
  eval_header_stmts V env h (header_stmts (map fst args)) = add_headers h (present_headers args).
Proof.
  induction args as [|[p o] args IH]; cbn; intros Hb Hg h; auto.
  inversion Hg as [|? ? Hr Hg']; subst. pose proof (Hb (p, o) (or_introl eq_refl)) as E. cbn in E, Hr.
  apply binds_cons in Hb. unfold bound in E. cbn in E. unfold required_param in Hr.
  destruct (p_kind p) as [|r|[|]|ct]; cbn; auto.
  - rewrite E by easy. destruct o as [v|]; [|exfalso; now apply Hr]. cbn.
    destruct (append_header V h (p_api_name p) (v_text v)); cbn; auto.
  - rewrite E by easy. destruct o as [v|]; cbn; auto.
    destruct (append_header V h (p_api_name p) (v_text v)); cbn; auto.
Qed.

Definition given_values (l : list (str * str)) (n : str) : list (list N) :=
  flat_map (fun ht => if str_eqb (lower_name (fst ht)) n then [utf8 (snd ht)] else []) l.

Lemma add_headers_cases l : Forall (fun ht => header_name (fst ht) <> None) l -> forall h,
  (exists ht, In ht l /\ header_value (snd ht) = None /\ add_headers h l = Ret from_invalid_header) \/
  (Forall (fun ht => header_value (snd ht) <> None) l /\
   exists h', add_headers h l = Val h' /\
     (forall n, h_values n h' = h_values n h ++ given_values l n) /\
     (forall n, h_contains n h' = h_contains n h || negb (match given_values l n with [] => true | _ => false end)) /\
     (NoDup (map fst h) -> NoDup (map fst h'))).
Proof.
  induction 1 as [|[hn t] l Hn _ IH]; intro h.
  - right. split; auto. exists h. cbn. repeat split; auto; intro n; [now rewrite app_nil_r|now rewrite orb_false_r].
  - cbn [add_headers]. unfold append_header. cbn [fst] in Hn.
    destruct (header_value t) as [v|] eqn:Ev.
    + destruct (header_name hn) as [nm|] eqn:En; [|easy]. cbn [ebind].
      destruct (IH (h_append nm v h)) as [(ht & Hi & Hv & E)|(Hall & h' & E & Hval & Hcon & Hnd)].
      * left. exists ht. split; [now right|auto].
      * right. split; [constructor; auto; cbn; congruence|]. exists h'.
        apply header_value_some in Ev as (-> & _). apply header_name_lower in En. subst nm.
        assert (Hsym : forall n, str_eqb (lower_name hn) n = str_eqb n (lower_name hn)) by (intro; apply str_eqb_sym).
        split; [exact E|]. split; [|split].
        -- intro n. rewrite Hval, h_values_append. unfold given_values at 2. cbn [flat_map fst snd].
           rewrite Hsym. destruct (str_eqb n _); [now rewrite <- app_assoc|reflexivity].
        -- intro n. rewrite Hcon, h_contains_append. unfold given_values at 2. cbn [flat_map fst snd].
           rewrite Hsym. destruct (str_eqb n _); cbn; [now rewrite orb_true_r|]. reflexivity.
        -- intro Hd. apply Hnd. now apply h_append_nodup.
    + left. exists (hn, t). split; [now left|]. split; auto.
Qed.

End Headers.

(** ** Body *)

Definition body_call (ct : body_content_type) : chain_call :=
  match ct with
  | OctetStream => CContentTypeBody (lit "application/octet-stream")
  | Text m => CContentTypeBody m
  | Json => CJson
  | FormUrlencoded => CForm
  end.

Lemma body_calls_shape args bs : body_calls (map fst args) = Ok bs -> given args ->
  (bs = [] /\ body_argument args = None) \/
  exists p ct v rest, bs = body_call ct :: rest /\ body_argument args = Some (ct, v) /\
    In (p, Some v) args /\ p_kind p = KBody ct.
Proof.
  revert bs; induction args as [|[p o] args IH]; cbn; intros bs H Hg.
  - left. now injection H as <-.
  - inversion Hg as [|? ? Hr Hg']; subst. cbn in Hr. unfold required_param in Hr.
    destruct (p_kind p) as [|r|r|ct] eqn:Hk.
    1-3: destruct (IH _ H Hg') as [?|(q & ct & v & rest & H1 & H2 & H3 & H4)]; [now left|];
      right; exists q, ct, v, rest; auto.
    destruct o as [v|]; [|exfalso; now apply Hr]. right.
    destruct ct as [| | |mime], (p_typ p) as [t|]; try easy;
      apply obind_ok in H as (tl & Ht & H); injection H as <-; exists p; do 3 eexists;
      (split; [|split; [reflexivity|split; [now left|exact Hk]]]); reflexivity.
Qed.

(** ** The chain of calls *)

Section Chain.
Context (ctx : context) (V : Type).

Lemma eval_calls_app env b l1 l2 :
  eval_calls V ctx env b (l1 ++ l2) = ebind (eval_calls V ctx env b l1) (fun b' => eval_calls V ctx env b' l2).
Proof.
  revert b; induction l1 as [|c l1 IH]; intro b; cbn; auto.
  destruct (eval_call V ctx env b c); cbn; auto.
Qed.

Definition add_query (q : option (option str)) (kv : str * sval) : option (option str) :=
  match q with Some q => request_query q (query_param (fst kv) (snd kv)) | None => None end.

Lemma add_query_none l : fold_left add_query l None = None.
Proof. induction l; cbn; auto. Qed.

Lemma add_queries_fail l : forall q,
  fold_left add_query l (Some q) = None <-> exists kv, In kv l /\ query_param (fst kv) (snd kv) = None.
Proof.
  induction l as [|kv l IH]; intro q; cbn.
  - split; [easy|]. intros (kv & [] & _).
  - destruct (query_param (fst kv) (snd kv)) as [ps|] eqn:E; cbn.
    + rewrite IH. split.
      * intros (x & Hx & Ex). eauto.
      * intros (x & [->|Hx] & Ex); [congruence|eauto].
    + rewrite add_query_none. split; auto. intros _. exists kv. auto.
Qed.

Lemma arg_serde_ok env p o : assoc (p_name p) env = Some (bound (p, o)) ->
  (required_param p -> o <> None) ->
  arg_serde env (p_name p) =
  Some (match o with
        | Some v => if is_optional (p_kind p) then VSome (v_serde v) else v_serde v
        | None => VNone
        end).
Proof.
  intros E Hr. unfold arg_serde. rewrite E. unfold bound. cbn. destruct o as [v|]; auto.
  destruct (is_optional (p_kind p)); reflexivity.
Qed.

Lemma query_calls_err env args e : binds env args -> given args ->
  eval_calls V ctx env (RErr e) (query_calls (map fst args)) = Val (RErr e).
Proof.
  induction args as [|[p o] args IH]; cbn; intros Hb Hg; auto.
  inversion Hg as [|? ? Hr Hg']; subst. pose proof (Hb (p, o) (or_introl eq_refl)) as E. cbn in E, Hr.
  apply binds_cons in Hb. specialize (IH Hb Hg').
  destruct (p_kind p) as [|r|r|ct] eqn:Hk; cbn; auto.
  rewrite (arg_serde_ok _ _ _ (E ltac:(easy)) Hr). cbn. exact IH.
Qed.

Lemma query_calls_ok env args : binds env args -> given args -> forall r,
  eval_calls V ctx env (ROk r) (query_calls (map fst args)) =
  Val (match fold_left add_query (query_arguments args) (Some (q_query r)) with
       | Some q => ROk (Request (q_method r) (q_url r) q (q_headers r) (q_body r))
       | None => RErr (c_query_error ctx)
       end).
Proof.
  induction args as [|[p o] args IH]; cbn [map fst query_calls query_arguments flat_map]; intros Hb Hg r.
  - cbn. now destruct r.
  - inversion Hg as [|? ? Hr Hg']; subst. pose proof (Hb (p, o) (or_introl eq_refl)) as E. cbn in E, Hr.
    apply binds_cons in Hb. specialize (IH Hb Hg'). fold (query_calls (map fst args)) in *.
    fold (query_arguments args) in *. cbn [fst snd].
    destruct (p_kind p) as [|rq|rq|ct] eqn:Hk; cbn [app]; auto.
    cbn [eval_calls eval_call]. rewrite (arg_serde_ok _ _ _ (E ltac:(easy)) Hr).
    set (s := match o with Some _ => _ | None => _ end).
    assert (Hq : match rq with
                 | true => match o with Some v => [(p_api_name p, v_serde v)] | None => [(p_api_name p, VNone)] end
                 | false => match o with Some v => [(p_api_name p, VSome (v_serde v))] | None => [(p_api_name p, VNone)] end
                 end = [(p_api_name p, s)]).
    { unfold s. rewrite Hk. destruct rq, o; reflexivity. }
    rewrite Hq. cbn [app fold_left add_query fst snd ebind rb_query].
    destruct (request_query (q_query r) (query_param (p_api_name p) s)) as [q|] eqn:Eq; cbn [ebind].
    + rewrite IH. cbn. reflexivity.
    + rewrite add_query_none. now apply query_calls_err.
Qed.
End Chain.

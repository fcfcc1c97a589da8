(** Runs of the methods generated for a document's operations. *)
From Verif Require Import Base Utf8 OasModel SerdeModel HeaderModel HeaderProofs ClientModel TemplateModel TemplateSpec
  TemplateProofs MethodModel OpModel RunModel RefSpec RefProofs ResponseSpec ResponseProofs RequestSpec RequestProofs
  RunProofs ParamSpec ParamProofs DocSpec.
From Coq Require Import ZifyBool ZifyN.
Local Open Scope N_scope.

Section Params.
Context {snake pascal : str -> str} {ts : type_space} {comps : option components} {op : operation}
  {path method : str} {pp : list (ref_or parameter)} {m : op_method}.
Hypothesis Hp : process_operation snake pascal ts op comps path method pp = Ok m.

Lemma operation_well_named : NoDup (map p_name (m_params m)) -> well_named (m_params m).
Proof.
  intro Hn. destruct (process_operation_params _ _ _ _ _ _ _ _ _ Hp)
    as (oid & pi & ops & qs & body & _ & _ & _ & Hqs & Hb & _ & Hsort & Hpres & _).
  apply (sort_params_sorted _ _ _ Hpres) in Hsort as (Hperm & _).
  split; [auto|]. split.
  - apply (Permutation_NoDup (l := map p_api_name (filter is_path (qs ++ match body with Some b => [b] | None => [] end)))).
    { apply Permutation_map. apply (filter_perm is_path). now apply Permutation_sym. }
    rewrite filter_app. assert (E : filter is_path (match body with Some b => [b] | None => [] end) = []).
    { destruct body as [b|]; auto. apply get_body_param_ok in Hb as (ct & Hk & _). cbn. unfold is_path. now rewrite Hk. }
    rewrite E, app_nil_r. destruct Hpres as (front & bd & Heq & Hf & Hnd & Hbd).
    assert (Hq : NoDup (map p_api_name qs)).
    { assert (Eq : map p_api_name qs = map param_name (map snd (combined pi ops))).
      { clear -Hqs. induction Hqs as [|p q ps qs Hx _ IH]; cbn; auto.
        apply process_param_ok in Hx. f_equal; tauto. }
      rewrite Eq. apply combined_nodup. }
    clear -Hq. induction qs as [|q qs IH]; cbn; [constructor|]. cbn in Hq. inversion Hq as [|? ? H1 H2]; subst.
    destruct (is_path q); auto. cbn. constructor; auto. intro H. apply H1.
    apply in_map_iff in H as (x & Hx & Hi). apply in_map_iff. exists x. apply filter_In in Hi. tauto.
  - apply Forall_forall. intros p Hi. apply (Permutation_in _ Hperm) in Hi. apply in_app_or in Hi as [Hi|Hi].
    + destruct (forall2_In_r _ _ _ _ Hqs Hi) as (x & _ & Hx). apply process_param_ok in Hx.
      unfold non_body in Hx. destruct (p_kind p); tauto.
    + destruct body as [b|]; [|easy]. destruct Hi as [<-|[]]. apply get_body_param_ok in Hb as (ct & Hk & Hnm & _ & Hm).
      rewrite Hk. auto.
Qed.
End Params.

Section Call.
Context {W : Type} {h : hooks} {ops : world_ops W} {R E : Type}
  {interp : result response rerr -> result R (cerror E) -> Prop}.

Lemma call_first q w out tr w' : call h ops interp q w out tr w' -> first_request tr q.
Proof.
  assert (Hp : forall q' t w1, prepared h ops q w q' t w1 ->
    (t = [] /\ q' = q) \/ exists rest, t = EPre q :: rest \/ t = EPreAsync q :: rest).
  { intros q' t w1 [Ha|q1 w2 Ha He]; unfold pre_events; destruct (has_pre_hook h); cbn; eauto. }
  intros [msg w1 Ha He|q' t w1 res w2 msg w3 Hpr He Ha Hw|q' t w1 res w2 t2 w3 o Hpr He Ho Hi].
  - unfold pre_events, first_request. destruct (has_pre_hook h); cbn; eauto.
  - destruct (Hp _ _ _ Hpr) as [(-> & ->)|(rest & [-> | ->])]; unfold first_request; cbn; eauto.
  - destruct (Hp _ _ _ Hpr) as [(-> & ->)|(rest & [-> | ->])]; unfold first_request; cbn; eauto.
Qed.

Lemma pre_sends q w q' t w1 : prepared h ops q w q' t w1 -> sends t = [].
Proof. intros [Ha|q1 w2 Ha He]; unfold pre_events; destruct (has_pre_hook h); reflexivity. Qed.

Lemma post_sends res w t w1 : observed h ops res w t w1 -> sends t = [].
Proof. intros [Ha|w2 Ha He]; unfold post_events; destruct (has_post_hook h); reflexivity. Qed.

Lemma sends_app a b : sends (a ++ b) = sends a ++ sends b.
Proof. apply filter_app. Qed.

Lemma call_sends q w out tr w' : call h ops interp q w out tr w' ->
  (exists msg, sends tr = [] /\ out = RErr (PreHookError msg) /\ has_pre_hook_async h = true) \/
  (exists q' res, sends tr = [ESend q' res] /\ (has_pre_hook_async h = false -> q' = q) /\
     (interp res out \/ exists msg, has_post_hook_async h = true /\ out = RErr (PostHookError msg))).
Proof.
  intros [msg w1 Ha He|q' t w1 res w2 msg w3 Hpr He Ha Hw|q' t w1 res w2 t2 w3 o Hpr He Ho Hi].
  - left. exists msg. rewrite sends_app. unfold pre_events. destruct (has_pre_hook h); auto.
  - right. exists q', res. rewrite !sends_app, (pre_sends _ _ _ _ _ Hpr). split; [|split; eauto].
    + unfold post_events. destruct (has_post_hook h); reflexivity.
    + intro Hn. inversion Hpr; congruence.
  - right. exists q', res. rewrite !sends_app, (pre_sends _ _ _ _ _ Hpr), (post_sends _ _ _ _ Ho).
    split; [reflexivity|]. split; auto. intro Hn. inversion Hpr; congruence.
Qed.
End Call.

Section Run.
Context {snake pascal : str -> str} {ts : type_space} {comps : option components} {op : operation}
  {ps : list piece} {method : str} {pp : list (ref_or parameter)} {h : hooks} {m : op_method} {sb : sig_body}.
Hypothesis G : generated snake pascal ts comps op ps method pp h m sb.

Lemma generated_lists t : response_table pascal ts comps op (m_websocket m) t ->
  lists (m_websocket m) t (m_responses m) /\
  (m_websocket m = true -> exists pre, m_responses m = pre ++ [OpResponse (SCode 101) RUpgrade]) /\
  (m_websocket m = false -> forall key k, In (key, k) t -> k <> RUpgrade).
Proof.
  intros (oid & Hoid & Ht). destruct (process_operation_params _ _ _ _ _ _ _ _ _ (g_process _ _ _ _ _ _ _ _ _ _ _ G))
    as (oid' & pi & ops & qs & body & Hid & _ & _ & _ & _ & _ & _ & _ & Hw & Hr & _).
  assert (oid' = oid) by congruence. subst oid'. repeat split.
  - intros H. eapply process_responses_lists; eauto.
  - intros H. eapply process_responses_lists; eauto.
  - intro H. eapply process_responses_last; eauto.
  - eapply table_no_upgrade; eauto.
Qed.

Lemma generated_table : exists t, response_table pascal ts comps op (m_websocket m) t.
Proof.
  destruct (process_operation_params _ _ _ _ _ _ _ _ _ (g_process _ _ _ _ _ _ _ _ _ _ _ G))
    as (oid & pi & ops & qs & body & Hid & _ & _ & _ & _ & _ & _ & _ & Hw & Hr & _).
  destruct (table_exists _ _ _ _ _ _ _ Hr) as (t & Ht). exists t, oid. auto.
Qed.

Context {ctx : context} {V : Type} {fs : N -> list N -> result V jerr} {W : Type} {ops : world_ops W}
  {args : list (op_param * option value)}.
Hypothesis C : callable ctx m args.

Lemma doc_run t w : response_table pascal ts comps op (m_websocket m) t ->
  exists out tr w', run V ctx fs W ops sb (variables args) w = (Returned out, tr, w') /\
    ((exists e, refused ctx ps args e /\ out = RErr e /\ tr = [] /\ w' = w) \/
     (encodable args /\ exists q, is_request ctx m (sb_success sb) (sb_error sb) ps args q /\
        call h ops (interpreted fs (m_websocket m) t) q w out tr w')).
Proof.
  intro Ht. destruct G as [Hst Hpr Hme Hna Hhm Hep Hsm]. destruct C as [Ha Hl Hu].
  destruct (generated_lists t Ht) as (H1 & H2 & H3).
  destruct (process_operation_params _ _ _ _ _ _ _ _ _ Hpr)
    as (oid & pi & ops' & qs & body & _ & _ & _ & _ & _ & Hpa & _).
  apply run_refines; auto. now apply (operation_well_named Hpr).
Qed.

Lemma doc_run_inv t w f tr w' : response_table pascal ts comps op (m_websocket m) t ->
  run V ctx fs W ops sb (variables args) w = (f, tr, w') ->
  exists out, f = Returned out /\
    ((exists e, refused ctx ps args e /\ out = RErr e /\ tr = [] /\ w' = w) \/
     (encodable args /\ exists q, is_request ctx m (sb_success sb) (sb_error sb) ps args q /\
        first_request tr q /\ call h ops (interpreted fs (m_websocket m) t) q w out tr w')).
Proof.
  intros Ht Hr. destruct (doc_run t w Ht) as (out & tr0 & w0 & E & H). rewrite E in Hr.
  injection Hr; intros; subst. exists out. split; auto. destruct H as [H|(He & q & Hq & Hc)]; auto.
  right. split; auto. exists q. split; [exact Hq|]. split; [eapply call_first; eauto|exact Hc].
Qed.

Lemma first_request_fun tr q q' : first_request tr q -> first_request tr q' -> q = q'.
Proof.
  intros (r & H) (r' & H'). destruct H as [->|[->|(x & ->)]], H' as [H'|[H'|(x' & H')]]; congruence.
Qed.

Lemma doc_first w f tr w' q :
  run V ctx fs W ops sb (variables args) w = (f, tr, w') -> first_request tr q ->
  is_request ctx m (sb_success sb) (sb_error sb) ps args q.
Proof.
  intros Hr Hf. destruct generated_table as (t & Ht).
  destruct (doc_run_inv t w f tr w' Ht Hr) as (out & -> & [(e & _ & _ & -> & _)|(_ & q' & Hq & Hf' & _)]).
  - destruct Hf as (r & [H|[H|(x & H)]]); easy.
  - now rewrite (first_request_fun _ _ _ Hf Hf').
Qed.

(** The request's parts, with the URL's own headers eliminated. *)
Lemma params_path_values : exists val, path_values args val.
Proof.
  destruct C as [(Hm & _) _ _]. destruct G as [_ Hpr _ Hna _ _ _].
  pose proof (operation_well_named Hpr Hna) as (_ & Hapi & _).
  apply path_values_exist; rewrite Hm; auto.
Qed.

Lemma first_headers w f tr w' q n :
  run V ctx fs W ops sb (variables args) w = (f, tr, w') -> first_request tr q ->
  n <> lit "authorization" ->
  h_values n (q_headers q) =
  header_values (c_api_version ctx) [] (m_websocket m) (c_websocket_key ctx) (sb_success sb) (sb_error sb) args n.
Proof.
  intros Hr Hf Hn. destruct (doc_first _ _ _ _ _ Hr Hf) as [_ Hu _].
  destruct params_path_values as (val & Hval). destruct (Hu val Hval) as (pth & qu & uh & Hp & _ & _ & Hh).
  assert (Hno : forall x, x <> lit "authorization" -> h_contains x uh = false).
  { intros x Hx. destruct (h_contains x uh) eqn:E; auto. exfalso. apply Hx.
    eapply (c_url_headers ctx m args C); eauto. }
  rewrite Hh by (apply Hno; discriminate). unfold header_values, other_values.
  rewrite (h_contains_false n uh) by now apply Hno. reflexivity.
Qed.

Lemma refused_header w : illegal_header args ->
  run V ctx fs W ops sb (variables args) w =
  (Returned (RErr (InvalidRequest (lit "failed to parse header value"))), [], w).
Proof.
  intro Hi. destruct generated_table as (t & Ht). destruct (doc_run t w Ht) as (out & tr & w' & -> & H).
  destruct H as [(e & Hr & -> & -> & ->)|((Hn & _) & _)]; [|easy]. destruct Hr; try easy.
Qed.

Lemma refused_form w : ~ illegal_header args -> bad_form args ->
  run V ctx fs W ops sb (variables args) w =
  (Returned (RErr (InvalidRequest (lit "failed to serialize body"))), [], w).
Proof.
  intros Hn Hb. destruct generated_table as (t & Ht). destruct (doc_run t w Ht) as (out & tr & w' & -> & H).
  destruct H as [(e & Hr & -> & -> & ->)|((_ & Hx & _) & _)]; [|easy]. destruct Hr; try easy.
  destruct Hb as (v & E & _), H0 as (v' & E' & _). congruence.
Qed.

Lemma refused_json w : ~ illegal_header args -> bad_json args -> exists e,
  run V ctx fs W ops sb (variables args) w = (Returned (RErr (CommunicationError e)), [], w).
Proof.
  intros Hn Hb. destruct generated_table as (t & Ht). destruct (doc_run t w Ht) as (out & tr & w' & -> & H).
  destruct H as [(e & Hr & -> & -> & ->)|((_ & _ & Hx & _) & _)]; [|easy]. destruct Hr; try easy; eauto.
  destruct Hb as (v & E & _), H0 as (v' & E' & _). congruence.
Qed.

Lemma refused_query w : ~ illegal_header args -> ~ bad_form args -> bad_query args -> exists e,
  run V ctx fs W ops sb (variables args) w = (Returned (RErr (CommunicationError e)), [], w).
Proof.
  intros Hn Hf Hb. destruct generated_table as (t & Ht). destruct (doc_run t w Ht) as (out & tr & w' & -> & H).
  destruct H as [(e & Hr & -> & -> & ->)|((_ & _ & _ & Hx) & _)]; [|easy]. destruct Hr; try easy; eauto.
Qed.

Lemma never_stuck w : exists out tr w', run V ctx fs W ops sb (variables args) w = (Returned out, tr, w').
Proof.
  destruct generated_table as (t & Ht). destruct (doc_run t w Ht) as (out & tr & w' & -> & _). eauto.
Qed.

Lemma run_sends w f tr w' :
  run V ctx fs W ops sb (variables args) w = (f, tr, w') ->
  (exists e, refused ctx ps args e /\ f = Returned (RErr e) /\ tr = []) \/
  (encodable args /\ has_pre_hook_async h = true /\
   exists q msg, is_request ctx m (sb_success sb) (sb_error sb) ps args q /\ first_request tr q /\
     sends tr = [] /\ f = Returned (RErr (PreHookError msg))) \/
  (encodable args /\ exists q q' res,
     is_request ctx m (sb_success sb) (sb_error sb) ps args q /\ first_request tr q /\
     sends tr = [ESend q' res] /\ (has_pre_hook_async h = false -> q' = q)).
Proof.
  intro Hr. destruct generated_table as (t & Ht).
  destruct (doc_run_inv t w f tr w' Ht Hr) as (out & -> & [(e & He & -> & -> & _)|(Henc & q & Hq & Hf & Hc)]).
  - left. eauto.
  - right. destruct (call_sends _ _ _ _ _ Hc) as [(msg & Hs & -> & Ha)|(q' & res & Hs & Hsame & _)].
    + left. split; [exact Henc|]. split; [exact Ha|]. exists q, msg. auto.
    + right. split; auto. exists q, q', res. auto.
Qed.

Lemma run_interpreted t w f tr w' q' res : response_table pascal ts comps op (m_websocket m) t ->
  run V ctx fs W ops sb (variables args) w = (f, tr, w') -> In (ESend q' res) tr ->
  exists out, f = Returned out /\
    (interpreted fs (m_websocket m) t res out \/
     exists msg, has_post_hook_async h = true /\ out = RErr (PostHookError msg)).
Proof.
  intros Ht Hr Hi. destruct (doc_run_inv t w f tr w' Ht Hr) as (out & -> & [(e & He & -> & -> & _)|(Henc & q & Hq & Hf & Hc)]).
  - easy.
  - exists out. split; auto. assert (Hs : In (ESend q' res) (sends tr)) by now apply filter_In.
    destruct (call_sends _ _ _ _ _ Hc) as [(msg & Hs' & -> & Ha)|(q1 & res' & Hs' & Hsame & Hi')].
    + now rewrite Hs' in Hs.
    + rewrite Hs' in Hs. destruct Hs as [[= <- <-]|[]]. exact Hi'.
Qed.
End Run.

(** ** Request body media types *)

Lemma before_char_spec c s : ~ In c (before_char c s) /\
  exists rest, s = before_char c s ++ rest /\ (rest = [] \/ exists r, rest = c :: r).
Proof.
  induction s as [|x s (IH & rest & E & Hr)]; cbn.
  - split; auto. exists []. auto.
  - destruct (x =? c) eqn:Ex.
    + apply N.eqb_eq in Ex. subst. split; auto. exists (c :: s). split; auto. right. eauto.
    + split.
      * intros [->|H]; [lia|easy].
      * exists rest. split; auto. cbn. congruence.
Qed.

Lemma names_media_fun cs t t' : names_media cs t -> names_media cs t' -> t = t'.
Proof.
  intros (H1 & r1 & -> & R1) (H2 & r2 & E & R2). revert t' H2 E; induction t as [|x t IH]; intros [|y t'] H2 E; auto.
  - cbn in E. destruct R1 as [->|(a & ->)]; [easy|]. injection E as E1 _. exfalso. apply H2. left. auto.
  - cbn in E. destruct R2 as [->|(a & ->)]; [easy|]. injection E as E1 _. exfalso. apply H1. left. auto.
  - cbn in E. injection E as -> E. f_equal. apply IH; auto; intro; [apply H1|apply H2]; now right.
Qed.

Lemma before_char_names cs : names_media cs (before_char (ch ";") cs).
Proof. destruct (before_char_spec (ch ";") cs). split; auto. Qed.

Lemma body_content_type_iff cs ct : body_content_type_of cs = Ok ct <->
  exists t, names_media cs t /\ media_type_of t ct.
Proof.
  pose proof (before_char_names cs) as Hn. split.
  - intro H. exists (before_char (ch ";") cs). split; auto. unfold body_content_type_of in H.
    repeat match type of H with (if ?b then _ else _) = _ => destruct b eqn:?E end; try easy; injection H as <-.
    + apply str_eqb_spec in E. rewrite E. constructor.
    + apply str_eqb_spec in E0. rewrite E0. constructor.
    + apply str_eqb_spec in E1. rewrite E1. constructor.
    + apply orb_true_iff in E2 as [E2|E2]; apply str_eqb_spec in E2; rewrite E2; constructor.
  - intros (t & Ht & Hm). rewrite (names_media_fun _ _ _ Ht Hn) in Hm. unfold body_content_type_of.
    remember (before_char (ch ";") cs) as b. destruct Hm; reflexivity.
Qed.

Lemma body_content_type_rejects cs :
  (exists ct, body_content_type_of cs = Ok ct) \/ exists msg, body_content_type_of cs = Err (UnexpectedFormat msg).
Proof.
  unfold body_content_type_of. repeat match goal with |- context[if ?b then _ else _] => destruct b end; eauto.
Qed.

Lemma media_type_of_media t ct : media_type_of t ct -> media_of ct = t.
Proof. now intros []. Qed.

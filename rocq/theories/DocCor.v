(** Consequences of [DocProofs] in the form of the properties. *)
From Verif Require Import Base Utf8 OasModel SerdeModel HeaderModel HeaderProofs ClientModel TemplateModel TemplateSpec
  MethodModel OpModel RunModel RefSpec RefProofs ResponseSpec ResponseProofs RequestSpec RequestProofs
  RunProofs ParamSpec ParamProofs DocSpec DocProofs.
From Coq Require Import ZifyBool ZifyN.
Local Open Scope N_scope.

Section Cor.
Context (snake pascal : str -> str) (ts : type_space) (comps : option components) (op : operation)
  (ps : list piece) (method : str) (pp : list (ref_or parameter)) (h : hooks) (m : op_method) (sb : sig_body)
  (ctx : context) (V : Type) (fs : N -> list N -> result V jerr) (W : Type) (ops : world_ops W)
  (args : list (op_param * option value)) (w : W) (f : final V) (tr : list event) (w' : W).
Hypothesis G : generated snake pascal ts comps op ps method pp h m sb.
Hypothesis C : callable ctx m args.
Hypothesis R : run V ctx fs W ops sb (variables args) w = (f, tr, w').

(** ** Headers *)

Lemma own_values_only p v n : In (p, Some v) args -> (exists r, p_kind p = KHeader r) ->
  n = lower_name (p_api_name p) -> n <> lit "api-version" ->
  (forall p' v', In (p', Some v') args -> (exists r, p_kind p' = KHeader r) ->
     lower_name (p_api_name p') = n -> p' = p) ->
  own_values (c_api_version ctx) args n = [utf8 (v_text v)].
Proof.
  intros Hi (r & Hk) Hn Hver Honly. unfold own_values. apply str_eqb_neq in Hver. rewrite Hver. cbn [app].
  assert (Hnd : NoDup (map p_name (map fst args))).
  { destruct C as [(Hm & _) _ _]. rewrite Hm. apply (g_names _ _ _ _ _ _ _ _ _ _ _ G). }
  clear -Hi Hk Hn Honly Hnd. unfold present_headers.
  induction args as [|[p1 o1] l IH]; [easy|]. cbn [flat_map fst snd]. cbn in Hnd. inversion Hnd as [|? ? Hx Hnd']; subst.
  rewrite flat_map_app. destruct Hi as [[= -> ->]|Hi].
  - rewrite Hk. cbn [flat_map fst snd app]. rewrite str_eqb_refl. cbn [app]. f_equal.
    assert (H : forall pv, In pv l -> match p_kind (fst pv), snd pv with
      | KHeader _, Some v => lower_name (p_api_name (fst pv)) <> lower_name (p_api_name p) | _, _ => True end).
    { intros [p2 o2] H2. cbn. destruct (p_kind p2) eqn:K2; auto. destruct o2 as [v2|]; auto. intro E.
      assert (p2 = p) by (apply (Honly p2 v2); eauto; now right). subst p2. apply Hx.
      apply in_map_iff. exists p. split; auto. apply in_map_iff. now exists (p, Some v2). }
    clear -H. induction l as [|[p2 o2] l IHl]; auto. cbn [flat_map fst snd]. rewrite flat_map_app.
    rewrite IHl by (intros pv Hpv; apply H; now right). rewrite app_nil_r.
    specialize (H (p2, o2) (or_introl eq_refl)). cbn in H. destruct (p_kind p2); auto. destruct o2; auto.
    cbn [flat_map fst snd app]. apply str_eqb_neq in H. now rewrite H.
  - rewrite IH; auto.
    + destruct (p_kind p1) eqn:K1; auto. destruct o1 as [v1|]; auto. cbn [flat_map fst snd app].
      destruct (str_eqb _ _) eqn:E; auto. apply str_eqb_spec in E. exfalso.
      assert (p1 = p) by (apply (Honly p1 v1); eauto; now left). subst p1. apply Hx.
      apply in_map_iff. exists p. split; auto. apply in_map_iff. now exists (p, Some v).
    + intros p' v' Hi'. apply (Honly p' v'). now right.
Qed.

Lemma own_values_none n : n <> lit "api-version" ->
  (forall p v, In (p, Some v) args -> (exists r, p_kind p = KHeader r) -> lower_name (p_api_name p) <> n) ->
  own_values (c_api_version ctx) args n = [].
Proof.
  intros Hver Hno. unfold own_values. apply str_eqb_neq in Hver. rewrite Hver. cbn [app].
  clear -Hno. unfold present_headers. induction args as [|[p1 o1] l IH]; auto. cbn [flat_map fst snd].
  rewrite flat_map_app, IH, app_nil_r by (intros p v Hi; apply (Hno p v); now right).
  destruct (p_kind p1) eqn:K1; auto. destruct o1 as [v1|]; auto. cbn [flat_map fst snd app].
  destruct (str_eqb _ _) eqn:E; auto. apply str_eqb_spec in E. exfalso. apply (Hno p1 v1); eauto. now left.
Qed.

Lemma own_values_version :
  (forall p v, In (p, Some v) args -> (exists r, p_kind p = KHeader r) -> lower_name (p_api_name p) <> lit "api-version") ->
  own_values (c_api_version ctx) args (lit "api-version") = [utf8 (c_api_version ctx)].
Proof.
  intro Hno. unfold own_values. rewrite str_eqb_refl. cbn [app]. f_equal.
  clear -Hno. unfold present_headers. induction args as [|[p1 o1] l IH]; auto. cbn [flat_map fst snd].
  rewrite flat_map_app, IH, app_nil_r by (intros p v Hi; apply (Hno p v); now right).
  destruct (p_kind p1) eqn:K1; auto. destruct o1 as [v1|]; auto. cbn [flat_map fst snd app].
  destruct (str_eqb _ _) eqn:E; auto. apply str_eqb_spec in E. exfalso. apply (Hno p1 v1); eauto. now left.
Qed.

(** Header parameters win, whatever the URL carries. *)
Lemma own_headers q n : first_request tr q -> own_values (c_api_version ctx) args n <> [] ->
  h_values n (q_headers q) =
  own_values (c_api_version ctx) args n ++ handshake_values (m_websocket m) (c_websocket_key ctx) n.
Proof.
  intros Hf Ho. destruct (doc_first G C _ _ _ _ _ R Hf) as [_ Hu _].
  destruct (params_path_values G C) as (val & Hval). destruct (Hu val Hval) as (pth & qu & uh & Hp & _ & _ & Hh).
  rewrite Hh.
  - unfold header_values. destruct (own_values _ _ _) eqn:E; easy.
  - destruct (h_contains (lit "content-type") uh) eqn:E; auto.
    apply (c_url_headers ctx m args C _ _ _ _ Hp) in E. easy.
Qed.

Lemma header_sent_once q p v n : first_request tr q -> m_websocket m = false ->
  In (p, Some v) args -> (exists r, p_kind p = KHeader r) ->
  n = lower_name (p_api_name p) -> n <> lit "api-version" ->
  (forall p' v', In (p', Some v') args -> (exists r, p_kind p' = KHeader r) ->
     lower_name (p_api_name p') = n -> p' = p) ->
  h_values n (q_headers q) = [utf8 (v_text v)].
Proof.
  intros Hf Hw Hi Hk Hn Hv Ho. pose proof (own_values_only p v n Hi Hk Hn Hv Ho) as E.
  rewrite own_headers, E; auto; [|now rewrite E]. now rewrite Hw.
Qed.

Lemma header_not_sent q n : first_request tr q -> m_websocket m = false ->
  (forall p v, In (p, Some v) args -> (exists r, p_kind p = KHeader r) -> lower_name (p_api_name p) <> n) ->
  ~ In n [lit "api-version"; lit "accept"; lit "content-type"; lit "authorization"] ->
  h_values n (q_headers q) = [].
Proof.
  intros Hf Hw Hno Hn. rewrite (first_headers G C _ _ _ _ _ _ R Hf).
  - unfold header_values. rewrite own_values_none; auto.
    + unfold other_values, handshake_values. rewrite Hw. cbn.
      assert (str_eqb n (lit "accept") = false) as -> by (apply str_eqb_neq; intros ->; apply Hn; cbn; auto).
      assert (str_eqb n (lit "content-type") = false) as -> by (apply str_eqb_neq; intros ->; apply Hn; cbn; auto).
      reflexivity.
    + intros ->. apply Hn. cbn. auto.
  - intros ->. apply Hn. cbn. auto.
Qed.

Lemma version_sent q : first_request tr q ->
  (forall p v, In (p, Some v) args -> (exists r, p_kind p = KHeader r) -> lower_name (p_api_name p) <> lit "api-version") ->
  h_values (lit "api-version") (q_headers q) = [utf8 (c_api_version ctx)].
Proof.
  intros Hf Hno. pose proof (own_values_version Hno) as E. rewrite own_headers, E; auto; [|now rewrite E].
  unfold handshake_values. destruct (m_websocket m); reflexivity.
Qed.

(** ** Body *)

Lemma body_sent q ct v : first_request tr q -> body_argument args = Some (ct, v) ->
  (exists b, body_encoded ct v b /\ q_body q = Some b) /\
  (own_values (c_api_version ctx) args (lit "content-type") = [] ->
   h_values (lit "content-type") (q_headers q) = [utf8 (media_of ct)]).
Proof.
  intros Hf Hb. split.
  - destruct (doc_first G C _ _ _ _ _ R Hf) as [_ _ Hq]. now rewrite Hb in Hq.
  - intro Ho. rewrite (first_headers G C _ _ _ _ _ _ R Hf) by discriminate. unfold header_values. rewrite Ho.
    unfold other_values. rewrite Hb, str_eqb_refl. unfold handshake_values. destruct (m_websocket m); reflexivity.
Qed.

Lemma no_body_sent q : first_request tr q -> body_argument args = None ->
  q_body q = None /\
  (own_values (c_api_version ctx) args (lit "content-type") = [] ->
   h_values (lit "content-type") (q_headers q) = []).
Proof.
  intros Hf Hb. split.
  - destruct (doc_first G C _ _ _ _ _ R Hf) as [_ _ Hq]. now rewrite Hb in Hq.
  - intro Ho. rewrite (first_headers G C _ _ _ _ _ _ R Hf) by discriminate. unfold header_values. rewrite Ho.
    unfold other_values. rewrite Hb, str_eqb_refl. unfold handshake_values. destruct (m_websocket m); reflexivity.
Qed.

Lemma accept_sent q : first_request tr q ->
  own_values (c_api_version ctx) args (lit "accept") = [] ->
  h_values (lit "accept") (q_headers q) =
  if wants_json (sb_success sb) (sb_error sb) then [utf8 (lit "application/json")] else [].
Proof.
  intros Hf Ho. rewrite (first_headers G C _ _ _ _ _ _ R Hf) by discriminate. unfold header_values. rewrite Ho.
  unfold other_values. rewrite str_eqb_refl. unfold handshake_values.
  destruct (wants_json _ _), (m_websocket m); reflexivity.
Qed.

Lemma method_and_url_sent q val : first_request tr q -> path_values args val ->
  q_method q = m_method m /\
  exists query hs, c_parse_url ctx (c_base_url ctx ++ expand val (squeeze_pieces false ps)) = ROk (q_url q, query, hs) /\
    (query = None -> send_queries (query_arguments args) = Some (q_query q)).
Proof.
  intros Hf Hv. destruct (doc_first G C _ _ _ _ _ R Hf) as [Hm Hu _]. split; auto.
  destruct (Hu val Hv) as (pth & qu & uh & Hp & <- & Hq & _). exists qu, uh. auto.
Qed.

(** ** Sending *)

Lemma at_most_one : (length (sends tr) <= 1)%nat.
Proof.
  destruct (run_sends G C _ _ _ _ R) as [(e & _ & _ & ->)|[(_ & _ & q & msg & _ & _ & -> & _)|(_ & q & q' & res & _ & _ & -> & _)]];
    cbn; lia.
Qed.

Lemma exactly_one :
  length (sends tr) = 1%nat \/
  (exists e, refused ctx ps args e /\ f = Returned (RErr e) /\ tr = []) \/
  (has_pre_hook_async h = true /\ exists msg, f = Returned (RErr (PreHookError msg))).
Proof.
  destruct (run_sends G C _ _ _ _ R) as [(e & H1 & H2 & H3)|[(_ & Ha & q & msg & _ & _ & _ & ->)|(_ & q & q' & res & _ & _ & -> & _)]].
  - right. left. eauto.
  - right. right. eauto.
  - now left.
Qed.

Lemma sends_determined q res : has_pre_hook_async h = false -> In (ESend q res) tr ->
  is_request ctx m (sb_success sb) (sb_error sb) ps args q.
Proof.
  intros Ha Hi. assert (Hs : In (ESend q res) (sends tr)) by now apply filter_In.
  destruct (run_sends G C _ _ _ _ R) as [(e & H1 & H2 & H3)|[(_ & Ha' & _)|(_ & q0 & q' & res' & Hq & _ & E & Hsame)]].
  - subst tr. easy.
  - congruence.
  - rewrite E in Hs. destruct Hs as [[= <- <-]|[]]. now rewrite (Hsame Ha).
Qed.

(** ** Responses *)

Variable t : list (resp_status * resp_kind).
Hypothesis T : response_table pascal ts comps op (m_websocket m) t.

Lemma run_call : exists out, f = Returned out /\
  ((exists e, refused ctx ps args e /\ out = RErr e /\ tr = [] /\ w' = w) \/
   (encodable args /\ exists q, is_request ctx m (sb_success sb) (sb_error sb) ps args q /\
      call h ops (interpreted fs (m_websocket m) t) q w out tr w')).
Proof.
  destruct (doc_run_inv G C t w f tr w' T R) as (out & -> & [H|(He & q & Hq & _ & Hc)]); exists out; split; auto.
  right. split; auto. exists q. auto.
Qed.

Lemma response_acted q r a : In (ESend q (ROk r)) tr ->
  (forall msg, f <> Returned (RErr (PostHookError msg))) ->
  expected (m_websocket m) t (r_status r) a -> exists out, f = Returned out /\ meaning fs r a out.
Proof.
  intros Hi Hn Ha. destruct (run_interpreted G C t w f tr w' q (ROk r) T R Hi) as (out & -> & [Hin|(msg & _ & ->)]).
  - exists out. split; auto. inversion Hin; subst. now rewrite (expected_fun _ _ _ _ _ Ha H0).
  - exfalso. now apply (Hn msg).
Qed.

Lemma success_decoded q r k : In (ESend q (ROk r)) tr ->
  (forall msg, f <> Returned (RErr (PostHookError msg))) ->
  200 <= r_status r < 300 -> lookup t (r_status r) = Some k ->
  exists out, f = Returned out /\ decoded fs r k out.
Proof.
  intros Hi Hn Hs Hl. destruct (response_acted q r (AOk k) Hi Hn) as (out & -> & Hm).
  - now apply ex_success.
  - exists out. split; auto. now inversion Hm.
Qed.

Lemma error_meaning r k out : k <> RUpgrade -> meaning fs r (err_action k) out ->
  (exists v, decoded fs r k (ROk v) /\ out = RErr (ErrorResponse v)) \/
  (exists e, decoded fs r k (RErr e) /\ out = RErr e).
Proof.
  intros Hk Hm. destruct k; try easy; cbn in Hm; inversion Hm; subst; eauto.
Qed.

Lemma error_decoded q r k : In (ESend q (ROk r)) tr ->
  (forall msg, f <> Returned (RErr (PostHookError msg))) ->
  400 <= r_status r < 600 -> lookup t (r_status r) = Some k -> k <> RUpgrade ->
  (exists v, decoded fs r k (ROk v) /\ f = Returned (RErr (ErrorResponse v))) \/
  (exists e, decoded fs r k (RErr e) /\ f = Returned (RErr e)).
Proof.
  intros Hi Hn Hs Hl Hk. destruct (response_acted q r (err_action k) Hi Hn) as (out & -> & Hm).
  - now apply ex_error.
  - destruct (error_meaning r k out Hk Hm) as [(v & H1 & ->)|(e & H1 & ->)]; eauto.
Qed.

Lemma other_decoded q r k : In (ESend q (ROk r)) tr ->
  (forall msg, f <> Returned (RErr (PostHookError msg))) ->
  r_status r < 200 \/ 300 <= r_status r < 400 \/ 600 <= r_status r -> r_status r <> 101 ->
  kind_at SDefault t = Some k -> k <> RUpgrade ->
  (exists v, decoded fs r k (ROk v) /\ f = Returned (RErr (ErrorResponse v))) \/
  (exists e, decoded fs r k (RErr e) /\ f = Returned (RErr e)).
Proof.
  intros Hi Hn Hs H1 Hl Hk. destruct (response_acted q r (err_action k) Hi Hn) as (out & -> & Hm).
  - apply ex_other_default; auto; try lia. 
  - destruct (error_meaning r k out Hk Hm) as [(v & H2 & ->)|(e & H2 & ->)]; eauto.
Qed.

Lemma lookup_none_default s : lookup t s = None -> kind_at (SCode s) t = None /\ kind_at SDefault t = None.
Proof.
  unfold lookup. destruct (kind_at (SCode s) t); [easy|]. destruct (kind_at (SRange _) t); [easy|]. auto.
Qed.

Lemma undocumented_untouched q r : In (ESend q (ROk r)) tr ->
  (forall msg, f <> Returned (RErr (PostHookError msg))) ->
  lookup t (r_status r) = None ->
  ~ (200 <= r_status r < 300 /\ ~ documents_success t) ->
  ~ (r_status r = 101 /\ m_websocket m = true) ->
  f = Returned (RErr (UnexpectedResponse r)).
Proof.
  intros Hi Hn Hl Hs Hw. destruct (response_acted q r AUnexpected Hi Hn) as (out & -> & Hm).
  - destruct (lookup_none_default _ Hl) as (Hc & Hd).
    destruct (N.ltb_spec (r_status r) 300) as [H3|H3], (N.leb_spec 200 (r_status r)) as [H2|H2].
    + apply ex_success_undocumented; auto. 
      destruct (expected_total (m_websocket m) t (r_status r)) as (a & Ha). inversion Ha; subst; try lia; try easy; auto.
      * congruence.
      * exfalso. apply Hs. auto.
    + apply ex_other; auto; try lia. intros (E & [H|H]); [apply Hw; auto|]. apply H. now rewrite <- E.
    + destruct (N.ltb_spec (r_status r) 600) as [H6|H6], (N.leb_spec 400 (r_status r)) as [H4|H4].
      * apply ex_error_undocumented; auto.
      * apply ex_other; auto; try lia.
      * apply ex_other; auto; try lia.
      * lia.
    + lia.
  - now inversion Hm.
Qed.

Lemma other_undecoded q r : In (ESend q (ROk r)) tr ->
  (forall msg, f <> Returned (RErr (PostHookError msg))) ->
  r_status r < 200 \/ 300 <= r_status r < 400 \/ 600 <= r_status r -> r_status r <> 101 ->
  kind_at SDefault t = None \/ kind_at SDefault t = Some RUpgrade -> f = Returned (RErr (UnexpectedResponse r)).
Proof.
  intros Hi Hn Hs H1 [Hd|Hd].
  - destruct (response_acted q r AUnexpected Hi Hn) as (out & -> & Hm); [|now inversion Hm].
    apply ex_other; auto; lia.
  - destruct (response_acted q r (err_action RUpgrade) Hi Hn) as (out & -> & Hm); [|now inversion Hm].
    apply ex_other_default; auto; lia.
Qed.

Lemma error_upgrade q r : In (ESend q (ROk r)) tr ->
  (forall msg, f <> Returned (RErr (PostHookError msg))) ->
  400 <= r_status r < 600 -> lookup t (r_status r) = Some RUpgrade -> f = Returned (RErr (UnexpectedResponse r)).
Proof.
  intros Hi Hn Hs Hl. destruct (response_acted q r (err_action RUpgrade) Hi Hn) as (out & -> & Hm); [now apply ex_error|].
  now inversion Hm.
Qed.

Lemma generic_success q r : In (ESend q (ROk r)) tr ->
  (forall msg, f <> Returned (RErr (PostHookError msg))) ->
  200 <= r_status r < 300 -> lookup t (r_status r) = None -> ~ documents_success t ->
  f = Returned (ROk (RValue (IStream (r_body r)) (r_status r) (r_headers r))).
Proof.
  intros Hi Hn Hs Hl Hd. destruct (response_acted q r (AOk RRaw) Hi Hn) as (out & -> & Hm).
  - now apply ex_success_generic.
  - inversion Hm; subst. inversion H0. reflexivity.
Qed.

Lemma ok_only_success v : f = Returned (ROk v) ->
  exists q r, In (ESend q (ROk r)) tr /\ rv_status v = r_status r /\ rv_headers v = r_headers r /\
    (200 <= r_status r < 300 \/
     (r_status r = 101 /\ (m_websocket m = true \/ exists k, In (SCode 101, k) t))).
Proof.
  intro Hv. destruct run_call as (out & Ef & H). rewrite Hv in Ef. injection Ef as <-.
  destruct H as [(e & _ & He & _)|(_ & q & Hq & Hc)]; [easy|].
  inversion Hc as [|? ? ? ? ? ? ? H1 H2|q' tr1 w1 res w2 tr2 w3 o Hpr He Ho Hi]; subst.
  inversion Hi as [|r a o Ha Hm]; subst. exists q', r. split.
  { rewrite !in_app_iff. cbn. auto. }
  inversion Hm as [k x Hd| | |]; subst. inversion Hd; subst; cbn; repeat split; auto;
    inversion Ha; subst; auto; try (now destruct k); try (now destruct k0); try (right; split; auto; try (left; congruence); right;
      match goal with H : kind_at _ _ = Some ?k |- _ => exists k; now apply kind_at_In end).
Qed.

Lemma documented_error_is_error q r k out : In (ESend q (ROk r)) tr -> f = Returned out ->
  400 <= r_status r < 600 -> lookup t (r_status r) = Some k -> exists e, out = RErr e.
Proof.
  intros Hi Ef Hs Hl. destruct out as [v|e]; eauto. exfalso.
  destruct (ok_only_success v Ef) as (q' & r' & Hi' & _ & _ & Hst).
  assert (Hsame : forall a b, In a (sends tr) -> In b (sends tr) -> a = b).
  { pose proof at_most_one as Hl1. intros a b Ha Hb. destruct (sends tr) as [|x [|y l]]; cbn in *; try easy; try lia.
    destruct Ha as [<-|[]], Hb as [<-|[]]. reflexivity. }
  assert (E : ESend q (ROk r) = ESend q' (ROk r')) by (apply Hsame; now apply filter_In).
  injection E as _ <-. lia.
Qed.
End Cor.

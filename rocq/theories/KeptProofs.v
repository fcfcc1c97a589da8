(** When the URL parser takes the URL of a call as it is (C07). *)
From Verif Require Import Base Utf8 SerdeModel OasModel HeaderModel ClientModel TemplateModel TemplateSpec TemplateProofs
  EncodeModel EncodeSpec EncodeProofs MethodModel OpModel RunModel RequestSpec
  RequestProofs RunProofs ParamSpec ParamProofs DocSpec DocProofs DocCor OpCor MockSpec KeptSpec.
Local Open Scope N_scope.

(** ** Paths as segments *)

Lemma base_path_cons_inj x y X Y : ~ In (ch "/") x -> ~ In (ch "/") y ->
  x ++ base_path X = y ++ base_path Y -> x = y /\ base_path X = base_path Y.
Proof.
  revert y. induction x as [|c x IH]; intros [|d y] Hx Hy E.
  - auto.
  - exfalso. destruct X as [|z X]; [discriminate|]. injection E as E _. apply Hy. now left.
  - exfalso. destruct Y as [|z Y]; [discriminate|]. injection E as E _. apply Hx. now left.
  - injection E as <- E. destruct (IH y) as (-> & ->); auto; intro Hi; [apply Hx|apply Hy]; now right.
Qed.

Lemma base_path_inj X : forall Y, Forall (fun s => ~ In (ch "/") s) X -> Forall (fun s => ~ In (ch "/") s) Y ->
  base_path X = base_path Y -> X = Y.
Proof.
  induction X as [|x X IH]; intros [|y Y] HX HY E; [reflexivity|discriminate|discriminate|].
  inversion HX; inversion HY; subst. cbn [base_path flat_map] in E. fold (base_path X) (base_path Y) in E.
  cbn [app] in E. injection E as E. apply base_path_cons_inj in E as (-> & E); auto. f_equal. auto.
Qed.

Lemma push_no_slash path buf b : Forall (fun s => ~ In (ch "/") s) path -> ~ In (ch "/") buf ->
  Forall (fun s => ~ In (ch "/") s) (push_segment path buf b).
Proof.
  intros Hp Hb.
  assert (Hr : Forall (fun s => ~ In (ch "/") s) (removelast path)).
  { clear -Hp. induction Hp as [|x l Hx _ IH]; [constructor|]. cbn. destruct l; constructor; auto. }
  assert (He : Forall (fun s => ~ In (ch "/") s) [[]]) by (constructor; [easy|constructor]).
  unfold push_segment. destruct (is_double_dot buf); [destruct b; [|apply Forall_app]; auto|].
  destruct (is_single_dot buf); [destruct b; [|apply Forall_app]; auto|].
  apply Forall_app. split; [exact Hp|]. constructor; [exact Hb|constructor].
Qed.

Lemma path_state_no_slash s : forall path buf, Forall (fun s => ~ In (ch "/") s) path -> ~ In (ch "/") buf ->
  Forall (fun s => ~ In (ch "/") s) (path_state s path buf).
Proof.
  induction s as [|c s IH]; intros path buf Hp Hb; cbn [path_state]; [now apply push_no_slash|].
  destruct (ends_path c); [now apply push_no_slash|]. destruct (separator c) eqn:E; apply IH; auto.
  - now apply push_no_slash.
  - rewrite in_app_iff. intros [H|[->|[]]]; [easy|discriminate].
Qed.

Lemma url_segments_no_slash s : Forall (fun s => ~ In (ch "/") s) (url_segments s).
Proof. unfold url_segments. destruct s as [|c s]; [|destruct (separator c)]; apply path_state_no_slash; constructor || easy. Qed.

(** ** The arguments of the placeholders *)

Section Given.
Context {snake pascal : str -> str} {ts : type_space} {comps : option components} {op : operation} {ps : list piece}
  {method : str} {pp : list (ref_or parameter)} {h : hooks} {m : op_method} {sb : sig_body}.
Hypothesis G : generated snake pascal ts comps op ps method pp h m sb.
Context {ctx : context} {args : list (op_param * option value)}.
Hypothesis C : callable ctx m args.

Lemma placeholder_given n : In n (vars ps) -> exists p v, In (p, Some v) args /\ p_kind p = KPath /\ p_api_name p = n.
Proof.
  intro Hn. destruct G as [Hst Hpr Hme Hna Hhm Hep Hsm]. destruct C as [(Hmap & Hreq) _ _].
  destruct (process_operation_params _ _ _ _ _ _ _ _ _ Hpr)
    as (oid & pi & ops' & qs & body & _ & _ & _ & _ & _ & Hpa & _).
  unfold method_sig_body in Hme. cbv zeta in Hme. apply obind_ok in Hme as (u & Hu & _).
  unfold compile in Hu. apply obind_ok in Hu as (as_ & Ha & _).
  rewrite <- (parse_names ps (m_path m)) in Hn; auto; [|apply strict_lax in Hst; tauto].
  pose proof (compile_args_vars _ _ _ Ha n Hn) as Hsome. rewrite <- Hmap in Hsome.
  destruct (assoc_last n _) as [x|] eqn:El; [|easy]. apply assoc_last_In in El.
  apply renames_In in El as (q & o & Hi & Hk & <- & <-).
  rewrite Forall_forall in Hreq. specialize (Hreq _ Hi). cbn in Hreq. unfold required_param in Hreq.
  rewrite Hk in Hreq. destruct o as [v|]; [|exfalso; now apply Hreq]. exists q, v. auto.
Qed.
End Given.

(** ** The path of a call *)

Lemma base_path_segs segs : segs <> [] -> base_path segs = ch "/" :: join_slash segs.
Proof.
  induction segs as [|s segs IH]; [easy|]. intros _. cbn [base_path flat_map app]. fold (base_path segs).
  destruct segs as [|t segs]; [cbn; now rewrite app_nil_r|]. now rewrite IH.
Qed.

Lemma path_as_segments bsegs ps enc :
  base_path bsegs ++ expand enc (PLit (ch "/") :: ps) = base_path (bsegs ++ map (expand enc) (split_slash ps)).
Proof.
  unfold base_path at 2. rewrite flat_map_app. fold (base_path bsegs) (base_path (map (expand enc) (split_slash ps))). f_equal.
  rewrite base_path_segs; [cbn [expand flat_map app]; now rewrite <- expand_split|].
  intro E. apply map_eq_nil in E. now apply split_slash_nonempty in E.
Qed.

Lemma plain_path_char c : plain_literal c = true -> path_char c.
Proof.
  unfold plain_literal, path_char. intro H. apply andb_true_iff in H as (H & _). apply andb_true_iff in H as (H & _).
  destruct (N.eqb_spec c (ch "/")); [now right|]. left. destruct (delimiter c); [discriminate|reflexivity].
Qed.

Lemma expand_path_chars val ps : plain_literals ps -> (forall n, In n (vars ps) -> valid_str (val n)) ->
  Forall path_char (expand (fun n => encode_path (val n)) ps).
Proof.
  intros Hl Hv. unfold expand. apply Forall_flat_map. apply Forall_forall. intros [c|n] Hi.
  - constructor; [|constructor]. apply plain_path_char. now apply Hl.
  - apply Forall_forall. intros c Hc. left. apply (encode_path_safe (val n)); auto. apply Hv. unfold vars. apply in_flat_map. exists (PVar n).
    split; [exact Hi|now left].
Qed.

Lemma expand_seg_no_slash val seg ps : plain_literals ps -> (forall n, In n (vars ps) -> valid_str (val n)) ->
  In seg (split_slash ps) -> ~ In (ch "/") (expand (fun n => encode_path (val n)) seg).
Proof.
  intros Hl Hv Hs Hi. unfold expand in Hi. apply in_flat_map in Hi as ([c|n] & Hp & Hi); destruct (in_split_slash _ _ _ Hs Hp) as (Ha & Hb).
  - destruct Hi as [->|[]]. easy.
  - assert (Hd : delimiter (ch "/") = false); [|discriminate]. apply (encode_path_safe (val n)); auto. apply Hv. unfold vars. apply in_flat_map.
    exists (PVar n). split; [exact Ha|now left].
Qed.

Lemma path_kept_iff bsegs ps val :
  Forall (Forall (fun c => delimiter c = false /\ c <> ch "\")) bsegs -> Forall not_dots bsegs -> plain_literals ps ->
  (forall n, In n (vars ps) -> valid_str (val n)) ->
  let s := base_path bsegs ++ expand (fun n => encode_path (val n)) (PLit (ch "/") :: ps) in
  (base_path (url_segments s) = s <->
   (forall n, In n (vars ps) -> ~ In (ch "\") (val n)) /\
   (forall seg, In seg (split_slash ps) -> expand val seg <> lit "." /\ expand val seg <> lit "..")).
Proof.
  intros Hb Hd Hl Hv s.
  assert (Hc : Forall clean bsegs).
  { eapply Forall_impl; [|exact Hb]. intros x Hx. eapply Forall_impl; [|exact Hx]. intros c (H1 & H2). now apply clean_char. }
  rewrite <- (url_structure_iff bsegs ps val Hc Hd Hl Hv). fold s. split.
  - intro E. apply base_path_inj.
    + apply url_segments_no_slash.
    + apply Forall_app. split.
      * eapply Forall_impl; [|exact Hc]. intros x Hx Hi. unfold clean in Hx. rewrite Forall_forall in Hx. destruct (Hx _ Hi) as (_ & Hs). discriminate.
      * apply Forall_map, Forall_forall. intros seg Hs. now apply (expand_seg_no_slash val seg ps).
    + rewrite E. apply path_as_segments.
  - intro E. rewrite E. symmetry. apply path_as_segments.
Qed.

Lemma squeeze_In b ps x : In x (squeeze_pieces b ps) -> In x ps.
Proof.
  revert b. induction ps as [|[c|n] ps IH]; intros b; cbn [squeeze_pieces]; [easy| |].
  - destruct (c =? ch "/"); [destruct b|]; cbn [In]; intuition eauto.
  - cbn [In]. intuition eauto.
Qed.

Lemma base_chars bsegs : Forall (Forall (fun c => delimiter c = false /\ c <> ch "\")) bsegs -> Forall path_char (base_path bsegs).
Proof.
  intro H. unfold base_path. apply Forall_flat_map. eapply Forall_impl; [|exact H]. intros s Hs. constructor; [now right|].
  eapply Forall_impl; [|exact Hs]. intros c (Hc & _). now left.
Qed.

Section Kept.
Context {V W : Type} (e : episode V W).
Hypothesis H : happens e.
Let G := h_generated e H.
Let C := h_callable e H.
Hypothesis Hvalid : forall p v, In (p, Some v) (e_args e) -> p_kind p = KPath -> valid_str (v_text v).
Hypothesis Hplain : plain_literals (e_path e).
Variables (origin : str) (bsegs : list str).
Hypothesis Hparse : parses_paths (e_client e) origin.
Hypothesis Hbase : base_at (e_client e) origin bsegs.

Lemma texts_exist : exists val, path_texts (e_args e) val.
Proof.
  destruct (params_path_values G C) as (val & Hval). exists (fun n => match decode_segment (val n) with Some t => t | None => [] end).
  intros p v Hi Hk. rewrite (Hval p v Hi Hk). rewrite encode_path_decode by eauto. reflexivity.
Qed.

Lemma texts_values val val' : path_texts (e_args e) val -> path_values (e_args e) val' ->
  expand val' (squeeze_pieces false (e_path e)) = expand (fun n => encode_path (val n)) (squeeze_pieces false (e_path e)).
Proof.
  intros Ht Hv. apply expand_ext. intros n Hn. rewrite vars_squeeze in Hn. destruct (placeholder_given G C n Hn) as (p & v & Hi & Hk & <-).
  rewrite (Hv p v Hi Hk), (Ht p v Hi Hk). reflexivity.
Qed.

Lemma texts_path_values val : path_texts (e_args e) val -> path_values (e_args e) (fun n => encode_path (val n)).
Proof. intros Ht p v Hi Hk. now rewrite (Ht p v Hi Hk). Qed.

Lemma parsed val : path_texts (e_args e) val ->
  let u := c_base_url (e_client e) ++ expand (fun n => encode_path (val n)) (squeeze_pieces false (e_path e)) in
  exists u' hs, c_parse_url (e_client e) u = ROk (u', None, hs) /\ (u' = u <-> harmless (e_path e) (e_args e)).
Proof.
  intros Ht u. destruct Hbase as (Eb & Hb & Hd). destruct (g_strict _ _ _ _ _ _ _ _ _ _ _ G) as ((r & Er) & _).
  assert (Esq : squeeze_pieces false (e_path e) = PLit (ch "/") :: squeeze_pieces true r) by now rewrite Er.
  set (ps := squeeze_pieces true r) in *.
  assert (Hl : plain_literals ps).
  { intros c Hc. apply Hplain. rewrite Er. right. now apply squeeze_In in Hc. }
  assert (Hvars : vars ps = vars (e_path e)) by (rewrite Er; unfold ps; now rewrite vars_squeeze).
  assert (Hv : forall n, In n (vars ps) -> valid_str (val n)).
  { intros n Hn. rewrite Hvars in Hn. destruct (placeholder_given G C n Hn) as (p & v & Hi & Hk & <-). rewrite (Ht p v Hi Hk). eauto. }
  pose proof (path_kept_iff bsegs ps val Hb Hd Hl Hv) as K. cbv zeta in K.
  assert (Hs : exists s, base_path bsegs ++ expand (fun n => encode_path (val n)) (PLit (ch "/") :: ps) = ch "/" :: s /\ Forall path_char s).
  { assert (HF : Forall path_char (base_path bsegs ++ expand (fun n => encode_path (val n)) (PLit (ch "/") :: ps))).
    { apply Forall_app. split; [now apply base_chars|]. cbn [expand flat_map app]. constructor; [now right|]. now apply expand_path_chars. }
    clear -HF. destruct bsegs as [|b bs]; cbn [base_path flat_map expand app] in *; inversion HF; subst; eauto. }
  destruct Hs as (s & Es & Hs). destruct (Hparse s Hs) as (hs & Eu).
  assert (Hu : u = origin ++ ch "/" :: s).
  { unfold u. rewrite Eb, Esq, <- app_assoc. fold (base_path bsegs). now rewrite Es. }
  rewrite Es in K. rewrite Hu. exists (origin ++ base_path (url_segments (ch "/" :: s))), hs. split; [exact Eu|].
  assert (Hcond : harmless (e_path e) (e_args e) <->
    (forall n, In n (vars ps) -> ~ In (ch "\") (val n)) /\
    (forall seg, In seg (split_slash ps) -> expand val seg <> lit "." /\ expand val seg <> lit "..")).
  { unfold harmless. rewrite Esq. change (split_slash (PLit (ch "/") :: ps)) with ([] :: split_slash ps). rewrite Hvars. split.
    - intros (H1 & H2). split.
      + intros n Hn. destruct (placeholder_given G C n Hn) as (p & v & Hi & Hk & <-). rewrite (Ht p v Hi Hk). eauto.
      + intros seg Hseg. apply (H2 val Ht). now right.
    - intros (H1 & H2). split.
      + intros p v Hi Hk Hn. rewrite <- (Ht p v Hi Hk). now apply H1.
      + intros val' Ht' seg [<-|Hseg]; [split; discriminate|].
        replace (expand val' seg) with (expand val seg); [now apply H2|]. apply expand_ext. intros n Hn.
        assert (Hn' : In n (vars (e_path e))).
        { rewrite <- Hvars. unfold vars in Hn |- *. apply in_flat_map in Hn as (p & Hp & Hx). apply in_flat_map. exists p. split; [|exact Hx].
          now destruct (in_split_slash _ _ _ Hseg Hp). }
        destruct (placeholder_given G C n Hn') as (p & v & Hi & Hk & <-). now rewrite (Ht p v Hi Hk), (Ht' p v Hi Hk). }
  rewrite Hcond, <- K. split.
  - intro E. now apply app_inv_head in E.
  - intros ->. reflexivity.
Qed.

Lemma kept_iff : url_kept (e_client e) (e_path e) (e_args e) <-> harmless (e_path e) (e_args e).
Proof.
  destruct texts_exist as (val & Ht). destruct (parsed val Ht) as (u' & hs & Eu & K). rewrite <- K. split.
  - intro Hk. destruct (Hk _ (texts_path_values val Ht)) as (hs' & E). congruence.
  - intros E val' Hv'. rewrite (texts_values val val' Ht Hv'), Eu, E. eauto.
Qed.

Lemma sent_iff q val : first_request (e_trace e) q -> path_texts (e_args e) val ->
  (q_url q = c_base_url (e_client e) ++ expand (fun n => encode_path (val n)) (squeeze_pieces false (e_path e))
   <-> harmless (e_path e) (e_args e)).
Proof.
  intros Hq Ht. destruct (parsed val Ht) as (u' & hs & Eu & K). rewrite <- K.
  pose proof (method_and_url_sent _ _ _ _ _ _ _ _ _ _ _ _ _ _ _ _ _ _ _ _ _ G C (h_run e H) q _ Hq (texts_path_values val Ht)) as (_ & query & hs' & Hu & _).
  rewrite Eu in Hu. injection Hu as <- _ _. reflexivity.
Qed.
End Kept.

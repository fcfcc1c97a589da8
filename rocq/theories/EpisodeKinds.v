(** The arms of a generated method cover every status; Accept header in terms
    of the documented responses; declared variables. *)
From Verif Require Import Base Utf8 OasModel HeaderModel ClientModel TemplateModel TemplateSpec
  MethodModel OpModel RunModel RefSpec ResponseSpec ResponseProofs RequestSpec
  ParamSpec ParamProofs DocSpec DocProofs DocCor EpisodeProofs ExtractProofs NameSpec NameProofs.
Local Open Scope N_scope.

Lemma body_shape h m sb : method_sig_body h m = Ok sb ->
  exists u si ei eas calls,
    extract_responses m is_success_or_default = Ok (si, sb_success sb) /\
    extract_responses m is_error_or_default = Ok (ei, sb_error sb) /\
    concat_arms (mapM error_arm ei) = Ok eas /\
    let names := map p_name (m_params m) in
    let url := unique_ident_from (lit "url") names in
    let request := unique_ident_from (lit "request") names in
    let response := unique_ident_from (lit "response") names in
    let result := unique_ident_from (lit "result") names in
    sb_body sb =
      [SLetUrl url u; SLetHeaders (header_stmts (m_params m)); SLetRequest request (m_method m) url calls]
      ++ (if has_pre_hook h then [SPreHook request] else [])
      ++ (if has_pre_hook_async h then [SPreHookAsync request] else [])
      ++ [SLetExecute result request]
      ++ (if has_post_hook h then [SPostHook result] else [])
      ++ (if has_post_hook_async h then [SPostHookAsync result] else [])
      ++ [SLetTry response result;
          SMatch response (map success_arm si ++ eas ++ default_arm (m_responses m))].
Proof.
  unfold method_sig_body. cbv zeta. intro H.
  apply obind_ok in H as (u & _ & H). apply obind_ok in H as (bs & _ & H).
  destruct (1 <? _); [easy|].
  apply obind_ok in H as ([si k] & Hs & H). apply obind_ok in H as ([ei ke] & He & H).
  apply obind_ok in H as (ea & Ha & H). injection H as <-. cbn [sb_success sb_error sb_body].
  eexists u, si, ei, ea, _. repeat (split; [eassumption|]). reflexivity.
Qed.

Lemma arms_total snake pascal ts comps op ps method pp h m sb x arms :
  generated snake pascal ts comps op ps method pp h m sb ->
  In (SMatch x arms) (sb_body sb) -> forall s, exists r, select arms s = Some r.
Proof.
  intros G Hi s. destruct (generated_table G) as (t & T). destruct (generated_lists G t T) as (H1 & H2 & H3).
  destruct (body_shape _ _ _ (g_method _ _ _ _ _ _ _ _ _ _ _ G)) as (u & si & ei & eas & calls & Hs & He & Ha & Hb).
  cbv zeta in Hb. rewrite Hb in Hi.
  assert (arms = map success_arm si ++ eas ++ default_arm (m_responses m)) as ->.
  { rewrite !in_app_iff in Hi. cbn [In] in Hi. destruct (has_pre_hook h), (has_pre_hook_async h), (has_post_hook h), (has_post_hook_async h);
      cbn [In] in Hi; intuition congruence. }
  destruct (expected_total (m_websocket m) t s) as (a & Hx).
  destruct (dispatch m _ t H1 H2 H3 si ei _ _ eas Hs He Ha s a Hx) as (r & Hr & _). eauto.
Qed.

Lemma match_present h m sb : method_sig_body h m = Ok sb -> exists x arms, In (SMatch x arms) (sb_body sb).
Proof.
  intro H. destruct (body_shape _ _ _ H) as (u & si & ei & eas & calls & _ & _ & _ & Hb). cbv zeta in Hb.
  rewrite Hb. eexists _, _. rewrite !in_app_iff. cbn [In]. do 7 right. left. reflexivity.
Qed.

(** ** Declared variables *)

Lemma declared_shape h m sb : method_sig_body h m = Ok sb ->
  let f x := unique_ident_from x (map p_name (m_params m)) in
  declared sb = [f (lit "url"); lit "header_map"; f (lit "request"); f (lit "result"); f (lit "response")].
Proof.
  intros H f. destruct (body_shape _ _ _ H) as (u & si & ei & eas & calls & _ & _ & _ & Hb). cbv zeta in Hb.
  unfold declared. rewrite Hb. destruct (has_pre_hook h), (has_pre_hook_async h), (has_post_hook h), (has_post_hook_async h); reflexivity.
Qed.

Lemma declared_fresh h m sb x : method_sig_body h m = Ok sb -> In x (declared sb) ->
  x = lit "header_map" \/ ~ In x (map p_name (m_params m)).
Proof.
  intros H. rewrite (declared_shape _ _ _ H). intros [<-|[<-|[<-|[<-|[<-|[]]]]]]; auto; right; apply unique_ident_fresh.
Qed.

Lemma declared_fresh_iff h m sb : method_sig_body h m = Ok sb ->
  ((forall x, In x (declared sb) -> ~ In x (map p_name (m_params m))) <-> ~ In (lit "header_map") (map p_name (m_params m))).
Proof.
  intro H. split.
  - intro Hf. apply Hf. rewrite (declared_shape _ _ _ H). cbn. auto.
  - intros Hn x Hx. destruct (declared_fresh h m sb x H Hx) as [->|Hx']; auto.
Qed.

Lemma unique_apart ids a b : (forall r, a <> ch "_" :: r) -> (forall r, b <> ch "_" :: r) -> a <> b ->
  unique_ident_from a ids <> unique_ident_from b ids.
Proof.
  intros Ha Hb Hab E. destruct (unique_ident_spec a ids) as (j & Ej & _). destruct (unique_ident_spec b ids) as (k & Ek & _).
  rewrite Ej, Ek in E. now apply underscores_base in E.
Qed.

Lemma unique_not ids a b : (forall r, a <> ch "_" :: r) -> (forall r, b <> ch "_" :: r) -> a <> b ->
  unique_ident_from a ids <> b.
Proof.
  intros Ha Hb Hab E. destruct (unique_ident_spec a ids) as (j & Ej & _).
  rewrite Ej in E. apply (underscores_base j O) in E; auto.
Qed.

Lemma declared_distinct h m sb : method_sig_body h m = Ok sb -> NoDup (declared sb).
Proof.
  intro H. rewrite (declared_shape _ _ _ H).
  repeat constructor; cbn [In]; intro Hi;
  repeat match type of Hi with _ \/ _ => destruct Hi as [Hi|Hi] end; try easy;
  (first [now apply unique_apart in Hi | now apply unique_not in Hi | symmetry in Hi; now apply unique_not in Hi]).
Qed.

(** ** Accept *)

Lemma ep_accept_doc {V W} (e : episode V W) t q : happens e -> documents e t -> codes_valid (e_op e) ->
  first_request (e_trace e) q -> given_values e (lit "accept") = [] ->
  let ok := success_entry (e_op e) (m_websocket (e_method e)) t in
  ((exists ty, ok (RType ty)) \/ (ok RNone /\ exists ty, error_entry t (RType ty)) ->
   h_values (lit "accept") (q_headers q) = [utf8 (lit "application/json")]) /\
  (~ ((exists ty, ok (RType ty)) \/ (ok RNone /\ exists ty, error_entry t (RType ty))) ->
   h_values (lit "accept") (q_headers q) = []).
Proof.
  intros H T Hv Hf Hg ok. rewrite (ep_accept e H q Hf Hg).
  destruct (generated_kinds _ _ _ _ _ _ _ _ _ _ _ t (h_generated e H) T Hv) as (H1 & H2 & H3).
  assert (Hk : wants_json (sb_success (e_code e)) (sb_error (e_code e)) = true <->
    (exists ty, ok (RType ty)) \/ (ok RNone /\ exists ty, error_entry t (RType ty))).
  { unfold ok. split.
    - unfold wants_json. destruct (sb_success (e_code e)) eqn:Es; try easy.
      + intros _. left. eexists. apply H1. reflexivity.
      + destruct (sb_error (e_code e)) eqn:Ee; try easy. intros _. right. split; [now apply H1|].
        destruct (error_entries t) as [(k & Hk)|Hn].
        * pose proof (H2 k Hk). subst k. eauto.
        * apply H3 in Hn. congruence.
    - intros [(ty & Ht)|(Hn & ty & Ht)].
      + apply H1 in Ht. now rewrite <- Ht.
      + apply H1 in Hn. apply H2 in Ht. now rewrite <- Hn, <- Ht. }
  destruct (wants_json _ _); split; intro Hx; auto.
  - exfalso. apply Hx, Hk. reflexivity.
  - apply Hk in Hx. easy.
Qed.

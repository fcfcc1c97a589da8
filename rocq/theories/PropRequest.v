(** Properties C13-C18: what a call of a generated method sends, and when.
    An [episode] is one call of one generated method; [happens e] says that
    the method was generated for the operation and that the call took place. *)
From Verif Require Import Base Utf8 SerdeModel OasModel HeaderModel ClientModel TemplateSpec MethodModel OpModel RunModel
  RefSpec ResponseSpec RequestSpec ParamSpec DocSpec DocProofs EpisodeProofs EpisodeKinds OpCor ExampleData.
Local Open Scope N_scope.

(** The call of the examples, and what it sends. *)
Definition ex_call : episode (N * list N) nat := x_ep x_hooks (x_ops false false (x_resp 200)) x_args.
Definition ex_request : request :=
  match e_trace ex_call with EPre q :: _ => q | _ => Request Get [] None [] None end.

Example ex_call_happens : happens ex_call /\ first_request (e_trace ex_call) ex_request /\
  q_url ex_request = lit "https://x/items/a%2Fb" /\ e_path ex_call = x_pieces.
Proof.
  split; [apply x_happens, x_callable|]. split; [|split; reflexivity].
  eexists. left. vm_compute. reflexivity.
Qed.

(** ** C13 *)

(** All values of every header of the request.  ([authorization] can come
    from the base URL.) *)
Theorem C13_header_values : forall V W (e : episode V W), happens e -> forall q n,
  first_request (e_trace e) q -> n <> lit "authorization" ->
  h_values n (q_headers q) =
  header_values (c_api_version (e_client e)) [] (m_websocket (e_method e)) (c_websocket_key (e_client e))
    (sb_success (e_code e)) (sb_error (e_code e)) (e_args e) n.
Proof. exact @ep_header_values. Qed.
Print Assumptions C13_header_values.

Theorem C13_present_sent_once : forall V W (e : episode V W), happens e -> forall q p v,
  first_request (e_trace e) q -> m_websocket (e_method e) = false ->
  In (p, Some v) (e_args e) -> (exists r, p_kind p = KHeader r) ->
  lower_name (p_api_name p) <> lit "api-version" ->
  (forall p' v', In (p', Some v') (e_args e) -> (exists r, p_kind p' = KHeader r) ->
     lower_name (p_api_name p') = lower_name (p_api_name p) -> p' = p) ->
  h_values (lower_name (p_api_name p)) (q_headers q) = [utf8 (v_text v)].
Proof. exact @ep_header_once. Qed.
Print Assumptions C13_present_sent_once.

Theorem C13_absent_not_sent : forall V W (e : episode V W), happens e -> forall q n,
  first_request (e_trace e) q -> m_websocket (e_method e) = false ->
  (forall p v, In (p, Some v) (e_args e) -> (exists r, p_kind p = KHeader r) -> lower_name (p_api_name p) <> n) ->
  ~ In n [lit "api-version"; lit "accept"; lit "content-type"; lit "authorization"] ->
  h_values n (q_headers q) = [].
Proof. exact @ep_header_absent. Qed.
Print Assumptions C13_absent_not_sent.

Theorem C13_version_sent : forall V W (e : episode V W), happens e -> forall q,
  first_request (e_trace e) q ->
  In (utf8 (c_api_version (e_client e))) (h_values (lit "api-version") (q_headers q)).
Proof. exact @ep_version_always. Qed.
Print Assumptions C13_version_sent.

Theorem C13_version_sent_once : forall V W (e : episode V W), happens e -> forall q,
  first_request (e_trace e) q ->
  (forall p v, In (p, Some v) (e_args e) -> (exists r, p_kind p = KHeader r) -> lower_name (p_api_name p) <> lit "api-version") ->
  h_values (lit "api-version") (q_headers q) = [utf8 (c_api_version (e_client e))].
Proof. exact @ep_version. Qed.
Print Assumptions C13_version_sent_once.

Theorem C13_illegal_value_refused : forall V W (e : episode V W), happens e -> illegal_header (e_args e) ->
  e_final e = Returned (RErr (InvalidRequest (lit "failed to parse header value"))) /\
  e_trace e = [] /\ e_end e = e_start e.
Proof. exact @ep_illegal_header. Qed.
Print Assumptions C13_illegal_value_refused.

Example C13_ex :
  In (x_trace, Some (x_value (lit "t1"))) (e_args ex_call) /\ m_websocket (e_method ex_call) = false /\
  h_values (lit "x-trace") (q_headers ex_request) = [lit "t1"] /\
  h_values (lit "api-version") (q_headers ex_request) = [lit "1.0"] /\
  h_values (lit "x-other") (q_headers ex_request) = [].
Proof. split; [vm_compute; right; right; left; reflexivity|]. repeat split; vm_compute; reflexivity. Qed.
Example C13_absent_ex :
  let e := x_ep x_no_hooks (x_ops false false (x_resp 200)) x_args_none in
  happens e /\ In (x_trace, None) (e_args e) /\
  exists q res, e_trace e = [ESend q res] /\ h_values (lit "x-trace") (q_headers q) = [].
Proof.
  split; [apply x_happens, x_callable_none|]. split; [vm_compute; right; right; left; reflexivity|].
  eexists _, _. split; vm_compute; reflexivity.
Qed.
Example C13_illegal_ex :
  let e := x_ep x_hooks (x_ops false false (x_resp 200)) x_args_bad in happens e /\ illegal_header (e_args e) /\ e_trace e = [].
Proof.
  split; [apply x_happens, x_callable_bad|]. split; [|reflexivity].
  exists (lit "X-Trace", [10]). split; [left; reflexivity|].
  intro H. inversion H as [|? ? H1 _]; subst. cbn in H1. destruct H1 as [H1|[H1 _]].
  - discriminate.
  - now apply N.leb_le in H1.
Qed.

(** ** C14 *)

Theorem C14_body_sent : forall V W (e : episode V W), happens e -> forall q ct v,
  first_request (e_trace e) q -> body_argument (e_args e) = Some (ct, v) ->
  (exists b, body_encoded ct v b /\ q_body q = Some b) /\
  (given_values e (lit "content-type") = [] ->
   h_values (lit "content-type") (q_headers q) = [utf8 (media_of ct)]).
Proof. exact @ep_body. Qed.
Print Assumptions C14_body_sent.

(** The body parameter is there because the document has a body of that type. *)
Theorem C14_body_documented : forall snake pascal ts op comps path method pp m p ct,
  process_operation snake pascal ts op comps path method pp = Ok m ->
  In p (m_params m) -> p_kind p = KBody ct ->
  exists r b cs mt, op_request_body op = Some r /\ resolves co_request_bodies comps r b /\
    rb_content b = [(cs, mt)] /\ names_media cs (media_of ct).
Proof. exact body_documented. Qed.
Print Assumptions C14_body_documented.

(** A documented body becomes a parameter: of its media type (there is one), with the type of its schema. *)
Theorem C14_body_parameter : forall snake pascal ts op comps path method pp m oid r b,
  process_operation snake pascal ts op comps path method pp = Ok m -> op_id op = Some oid ->
  op_request_body op = Some r -> resolves co_request_bodies comps r b -> rb_content b <> [] ->
  exists cs mt ct p, rb_content b = [(cs, mt)] /\ names_media cs (media_of ct) /\ In p (m_params m) /\
    p_kind p = KBody ct /\ p_description p = rb_description b /\ body_typed ts comps (pascal (oid ++ lit "-body")) ct mt (p_typ p).
Proof. exact body_parameter. Qed.
Print Assumptions C14_body_parameter.

Theorem C14_one_body : forall snake pascal ts op comps path method pp m,
  process_operation snake pascal ts op comps path method pp = Ok m ->
  (length (filter is_body (m_params m)) <= 1)%nat.
Proof. exact one_body. Qed.
Print Assumptions C14_one_body.

Theorem C14_none_documented : forall snake pascal ts op comps path method pp m,
  process_operation snake pascal ts op comps path method pp = Ok m ->
  (op_request_body op = None \/
   exists r b, op_request_body op = Some r /\ resolves co_request_bodies comps r b /\ rb_content b = []) ->
  Forall (fun p => is_body p = false) (m_params m).
Proof. exact no_body_documented. Qed.
Print Assumptions C14_none_documented.

Theorem C14_none_sent : forall V W (e : episode V W), happens e -> forall q,
  first_request (e_trace e) q -> body_argument (e_args e) = None ->
  q_body q = None /\
  (given_values e (lit "content-type") = [] -> h_values (lit "content-type") (q_headers q) = []).
Proof. exact @ep_no_body. Qed.
Print Assumptions C14_none_sent.

Theorem C14_header_parameter_overrides : forall V W (e : episode V W), happens e -> forall q n,
  first_request (e_trace e) q -> m_websocket (e_method e) = false ->
  given_values e n <> [] -> h_values n (q_headers q) = given_values e n.
Proof. exact @ep_overridden. Qed.
Print Assumptions C14_header_parameter_overrides.

Theorem C14_bad_form_refused : forall V W (e : episode V W), happens e ->
  ~ illegal_header (e_args e) -> bad_form (e_args e) ->
  e_final e = Returned (RErr (InvalidRequest (lit "failed to serialize body"))) /\
  e_trace e = [] /\ e_end e = e_start e.
Proof. exact @ep_bad_form. Qed.
Print Assumptions C14_bad_form_refused.

Theorem C14_bad_json_refused : forall V W (e : episode V W), happens e ->
  ~ illegal_header (e_args e) -> bad_json (e_args e) ->
  (exists x, e_final e = Returned (RErr (CommunicationError x))) /\ e_trace e = [] /\ e_end e = e_start e.
Proof. exact @ep_bad_json. Qed.
Print Assumptions C14_bad_json_refused.

Example C14_ex :
  process_operation x_snake x_pascal x_ts x_op x_comps (show x_pieces) (lit "put") [] = Ok x_m /\
  body_argument (e_args ex_call) = Some (Json, x_value (lit "b")) /\
  given_values ex_call (lit "content-type") = [] /\
  q_body ex_request = Some (lit "{}") /\
  h_values (lit "content-type") (q_headers ex_request) = [lit "application/json"].
Proof. repeat split; vm_compute; reflexivity. Qed.
Example C14_parameter_ex : exists b,
  op_id x_op = Some (lit "put_item") /\ op_request_body x_op = Some (Item b) /\ resolves co_request_bodies x_comps (Item b) b
  /\ map fst (rb_content b) = [lit "application/json; charset=utf-8"] /\ In x_body (m_params x_m)
  /\ ts_add x_ts (Item x_object) (x_pascal (lit "put_item-body")) = Ok 3.
Proof.
  eexists. split; [reflexivity|]. split; [reflexivity|]. split; [constructor|]. split; [reflexivity|].
  split; [right; right; right; now left|reflexivity].
Qed.
Example C14_overridden_ex : given_values ex_call (lit "x-trace") = [lit "t1"].
Proof. reflexivity. Qed.

Example C14_form_ex :
  let e := ep_of y_op y_pieces (lit "post") y_m x_no_hooks (x_ops false false (x_resp 204)) y_args in
  happens e /\ exists q res, e_trace e = [ESend q res] /\ q_body q = Some (lit "u=a+b") /\
    h_values (lit "content-type") (q_headers q) = [lit "application/x-www-form-urlencoded"].
Proof.
  split; [apply ep_of_happens; [apply y_generated|apply y_callable]|].
  eexists _, _. split; [vm_compute; reflexivity|]. split; reflexivity.
Qed.
Example C14_bad_form_ex :
  let e := ep_of y_op y_pieces (lit "post") y_m x_hooks (x_ops false false (x_resp 204)) y_args_bad in
  happens e /\ ~ illegal_header (e_args e) /\ bad_form (e_args e) /\ e_end e = O.
Proof.
  split; [apply ep_of_happens; [apply y_generated|apply y_callable_bad]|]. split.
  - intros (ht & [] & _).
  - split; [|reflexivity]. eexists. split; reflexivity.
Qed.
Example C14_bad_json_ex :
  let e := x_ep x_hooks (x_ops false false (x_resp 200)) x_args_json in
  happens e /\ ~ illegal_header (e_args e) /\ bad_json (e_args e) /\ e_end e = O.
Proof.
  split; [apply x_happens, x_callable_json|]. split.
  - intros (ht & [] & _).
  - split; [|reflexivity]. eexists. split; reflexivity.
Qed.
Example C14_none_ex :
  let e := ep_of z_op z_pieces (lit "get") z_m x_no_hooks (x_ops false false (x_resp 200)) [] in
  happens e /\ body_argument (e_args e) = None /\ op_request_body (e_op e) = None /\
  exists q res, e_trace e = [ESend q res] /\ q_body q = None.
Proof.
  split; [apply ep_of_happens; [apply z_generated|apply z_callable]|]. split; [reflexivity|]. split; [reflexivity|].
  eexists _, _. split; vm_compute; reflexivity.
Qed.

(** ** C15 *)

Theorem C15_recognised_iff : forall cs ct, body_content_type_of cs = Ok ct <->
  exists t, names_media cs t /\ media_type_of t ct.
Proof. exact body_content_type_iff. Qed.
Print Assumptions C15_recognised_iff.

Theorem C15_otherwise_rejected : forall cs,
  (exists ct, body_content_type_of cs = Ok ct) \/ exists msg, body_content_type_of cs = Err (UnexpectedFormat msg).
Proof. exact body_content_type_rejects. Qed.
Print Assumptions C15_otherwise_rejected.

Theorem C15_one_media_type : forall cs t t', names_media cs t -> names_media cs t' -> t = t'.
Proof. exact names_media_fun. Qed.
Print Assumptions C15_one_media_type.

Example C15_ex :
  body_content_type_of (lit "text/plain;charset=utf-8;x") = Ok (Text (lit "text/plain")) /\
  names_media (lit "text/plain;charset=utf-8;x") (lit "text/plain") /\
  (exists msg, body_content_type_of (lit "application/jsonx") = Err (UnexpectedFormat msg)).
Proof.
  split; [reflexivity|]. split.
  - split; [vm_compute; intuition discriminate|]. exists (lit ";charset=utf-8;x"). split; [reflexivity|].
    right. eexists. reflexivity.
  - eexists. reflexivity.
Qed.

(** ** C16 *)

Theorem C16_accept_iff : forall V W (e : episode V W) t q, happens e -> documents e t -> codes_valid (e_op e) ->
  first_request (e_trace e) q -> given_values e (lit "accept") = [] ->
  let ok := success_entry (e_op e) (m_websocket (e_method e)) t in
  ((exists ty, ok (RType ty)) \/ (ok RNone /\ exists ty, error_entry t (RType ty)) ->
   h_values (lit "accept") (q_headers q) = [utf8 (lit "application/json")]) /\
  (~ ((exists ty, ok (RType ty)) \/ (ok RNone /\ exists ty, error_entry t (RType ty))) ->
   h_values (lit "accept") (q_headers q) = []).
Proof. exact @ep_accept_doc. Qed.
Print Assumptions C16_accept_iff.

Example C16_ex :
  documents ex_call x_table /\ codes_valid (e_op ex_call) /\ given_values ex_call (lit "accept") = [] /\
  success_entry (e_op ex_call) false x_table (RType 1) /\
  h_values (lit "accept") (q_headers ex_request) = [lit "application/json"].
Proof.
  split; [apply x_documents|]. split.
  - change (codes_valid x_op). split; intros c r [[= <- _]|[[= <- _]|[]]]; reflexivity.
  - split; [vm_compute; reflexivity|]. split; [|vm_compute; reflexivity].
    apply (se_code _ _ _ 200); [cbn; auto|]. right. split; [apply N.leb_le|]; reflexivity.
Qed.

(** ** C17 *)

(** The whole course of a call: refused, or hooks, one request, hooks, and
    interpretation of the outcome, in that order ([call]). *)
Theorem C17_order : forall V W (e : episode V W), happens e -> forall t, documents e t ->
  exists out, e_final e = Returned out /\
  ((exists x, refused (e_client e) (e_path e) (e_args e) x /\ out = RErr x /\ e_trace e = [] /\ e_end e = e_start e) \/
   (encodable (e_args e) /\
    exists q, is_request (e_client e) (e_method e) (sb_success (e_code e)) (sb_error (e_code e)) (e_path e) (e_args e) q /\
      call (e_hooks e) (e_world e) (interpreted (e_decode e) (m_websocket (e_method e)) t) q (e_start e) out
        (e_trace e) (e_end e))).
Proof. exact @ep_call. Qed.
Print Assumptions C17_order.

Theorem C17_veto : forall V W (e : episode V W), happens e ->
  (forall q w, exists msg w', w_pre_async (e_world e) q w = (RErr msg, w')) ->
  has_pre_hook_async (e_hooks e) = true ->
  sends (e_trace e) = [] /\
  exists x, e_final e = Returned (RErr x) /\
    (refused (e_client e) (e_path e) (e_args e) x \/ exists msg, x = PreHookError msg).
Proof. exact @ep_vetoed. Qed.
Print Assumptions C17_veto.

Theorem C17_overrule : forall V W (e : episode V W), happens e ->
  (forall r w, exists msg w', w_post_async (e_world e) r w = (Some msg, w')) ->
  has_post_hook_async (e_hooks e) = true -> sends (e_trace e) <> [] ->
  exists msg, e_final e = Returned (RErr (PostHookError msg)).
Proof. exact @ep_overruled. Qed.
Print Assumptions C17_overrule.

Example C17_ex :
  (exists q q' r r' r'', e_trace ex_call = [EPre q; EPreAsync q; ESend q' r; EPost r'; EPostAsync r''] /\
     q_query q = None /\ q_query q' = Some (lit "k=v") /\ r = r' /\ r = r'') /\ e_end ex_call = 5%nat.
Proof. split; [|reflexivity]. do 5 eexists. split; [vm_compute; reflexivity|]. auto. Qed.
Example C17_veto_ex :
  let e := x_ep x_hooks (x_ops true false (x_resp 200)) x_args in
  happens e /\ (forall q w, exists msg w', w_pre_async (e_world e) q w = (RErr msg, w')) /\
  (exists q, e_trace e = [EPre q; EPreAsync q]) /\ e_final e = Returned (RErr (PreHookError (lit "no"))).
Proof.
  split; [apply x_happens, x_callable|]. split; [intros; eexists _, _; reflexivity|]. split; [|reflexivity]. eexists. vm_compute. reflexivity.
Qed.
Example C17_overrule_ex :
  let e := x_ep x_hooks (x_ops false true (x_resp 200)) x_args in
  happens e /\ (forall r w, exists msg w', w_post_async (e_world e) r w = (Some msg, w')) /\
  length (sends (e_trace e)) = 1%nat /\ e_final e = Returned (RErr (PostHookError (lit "bad"))).
Proof. split; [apply x_happens, x_callable|]. split; [intros; eexists _, _; reflexivity|]. split; reflexivity. Qed.

(** ** C18 *)

Theorem C18_at_most_one : forall V W (e : episode V W), happens e -> (length (sends (e_trace e)) <= 1)%nat.
Proof. exact @ep_at_most_one. Qed.
Print Assumptions C18_at_most_one.

Theorem C18_exactly_one : forall V W (e : episode V W), happens e ->
  length (sends (e_trace e)) = 1%nat \/
  (exists x, refused (e_client e) (e_path e) (e_args e) x /\ e_final e = Returned (RErr x) /\ e_trace e = []) \/
  (has_pre_hook_async (e_hooks e) = true /\ exists msg, e_final e = Returned (RErr (PreHookError msg))).
Proof. exact @ep_exactly_one. Qed.
Print Assumptions C18_exactly_one.

Theorem C18_request_determined : forall V W (e : episode V W), happens e -> forall q res,
  has_pre_hook_async (e_hooks e) = false -> In (ESend q res) (e_trace e) ->
  is_request (e_client e) (e_method e) (sb_success (e_code e)) (sb_error (e_code e)) (e_path e) (e_args e) q.
Proof. exact @ep_determined. Qed.
Print Assumptions C18_request_determined.

Example C18_ex :
  let e := x_ep x_no_hooks (x_ops false false (x_resp 200)) x_args in
  happens e /\ has_pre_hook_async (e_hooks e) = false /\
  exists q res, e_trace e = [ESend q res] /\ q_method q = Put /\ q_url q = lit "https://x/items/a%2Fb".
Proof.
  split; [apply x_happens, x_callable|]. split; [reflexivity|]. eexists _, _. split; [vm_compute; reflexivity|]. split; reflexivity.
Qed.

(** C52-C54, C65-C68: the mocks generated for tests. *)
From Verif Require Import Base Utf8 SerdeModel OasModel TemplateModel TemplateSpec EncodeSpec QuerySpec MethodModel OpModel
  RunModel BuilderModel RequestSpec DocSpec SanitizeModel GenerateModel GenerateSpec ValidateProofs MockModel MockSpec
  MockDoc MockEpisode MockGen ExampleData ExampleGenerate ExampleMock.
Local Open Scope N_scope.

(** C52, for templates whose constants and values mean themselves in regular expressions and whose
    placeholders are different: a mock restricted to values of some path parameters matches exactly
    the requests with the method of the operation and a path that expands the template with slash-free
    values and those of the restrictions.  Several restrictions need placeholders in segments of their
    own.  Missing: the templates and values of the refutations below. *)
Theorem C52_paths_partial : forall U types m o, httpmock_method U types m = Ok o ->
  NoDup (map p_name (m_params m)) ->
  forall ps, strict ps -> parse (show ps) = Ok (m_path m) -> NoDup (vars ps) -> plain_template ps ->
  forall calls : list (op_param * value),
  Forall (fun c => In (fst c) (m_params m) /\ p_kind (fst c) = KPath /\ In (p_api_name (fst c)) (vars ps)
                   /\ plain_text (v_text (snd c)) /\ ~ In (ch "/") (v_text (snd c))) calls ->
  (length calls <= 1)%nat \/ one_per_segment ps ->
  exists es, when_calls o (map (fun c => (p_name (fst c), Some (snd c))) calls) = Some es
    /\ forall json_is r, ~ In 10 (mr_path r) ->
       (matched json_is es r = true <->
        mr_method r = m_method m
        /\ expansion ps (map (fun c => (p_api_name (fst c), v_text (snd c))) calls) (mr_path r)).
Proof. exact mock_paths. Qed.
Print Assumptions C52_paths_partial.

Example C52_ex :
  httpmock_method unicode15 y_types k_m = Ok (k_mock k_m) /\ strict k_pieces /\ NoDup (vars k_pieces)
  /\ plain_template k_pieces /\ one_per_segment k_pieces
  /\ matched (fun _ _ => false) (k_when k_m [(lit "id", Some (x_value (lit "a"))); (lit "n", Some (x_value (lit "7")))])
       (k_get (lit "/v/a/7")) = true
  /\ matched (fun _ _ => false) (k_when k_m [(lit "id", Some (x_value (lit "a")))]) (k_get (lit "/v/b/7")) = false.
Proof. exact (conj k_ok (conj k_strict (conj k_vars (conj k_plain (conj k_segments k_works))))). Qed.

(** A dot in the path of the document matches anything: /v1.0 also matches /v1x0 ... *)
Theorem C52_dot_refuted : wrong_mock [] true.
Proof. exact (k_wrong _ _ _ _ _ k_dot). Qed.
Print Assumptions C52_dot_refuted.

(** ... a plus is a repetition: the mock of /a+b does not match /a+b ... *)
Theorem C52_plus_refuted : wrong_mock [] false.
Proof. exact (k_wrong _ _ _ _ _ k_plus). Qed.
Print Assumptions C52_plus_refuted.

(** ... values are not escaped either: 1.2 also matches 1x2 ... *)
Theorem C52_value_refuted : wrong_mock [(lit "a", lit "1.2")] true.
Proof. exact (k_wrong _ _ _ _ _ k_value_dot). Qed.
Print Assumptions C52_value_refuted.

(** ... and restrictions of two parameters in one segment are not connected: /{a}-{b} with x and y
    also matches /x-q-y. *)
Theorem C52_segment_refuted : wrong_mock [(lit "a", lit "x"); (lit "b", lit "y")] true.
Proof. exact (k_wrong _ _ _ _ _ k_segment). Qed.
Print Assumptions C52_segment_refuted.

(** C53, for scalar arguments with the same [to_string] and serde text, of parameters whose name is
    the Rust name: the request of the call has what the mock asks for, which is the pair of the name
    and the text.  Missing: other names and texts, see below. *)
Theorem C53_query_partial : forall V W (e : episode V W), happens e -> forall q, first_request (e_trace e) q ->
  url_kept (e_client e) (e_path e) (e_args e) -> proper_texts (e_args e) ->
  forall types p v w r json_is, In (p, Some v) (e_args e) -> (exists b, p_kind p = KQuery b) ->
  p_name p = p_api_name p -> scalar_text (v_serde v) (v_text v) ->
  when_method_of types (m_path (e_method e)) p = Ok w -> seen (c_base_url (e_client e)) q r ->
  exists ex, when_call (wm_body w) (Some v) = Some ex
    /\ meets json_is r ex = true
    /\ forall r', meets json_is r' ex = true <-> In (p_api_name p, v_text v) (mr_query r').
Proof. exact @mock_query. Qed.
Print Assumptions C53_query_partial.

Example C53_ex :
  happens (x_ep x_no_hooks (x_ops false false (x_resp 200)) x_args_mock)
  /\ first_request (e_trace (x_ep x_no_hooks (x_ops false false (x_resp 200)) x_args_mock)) (x_request x_args_mock)
  /\ url_kept x_ctx x_pieces x_args_mock /\ proper_texts x_args_mock
  /\ seen (lit "https://x") (x_request x_args_mock)
       (MockRequest Put (lit "/items/a") [(lit "q", lit "z=&")] (lit "{}")).
Proof.
  exact (conj (x_happens _ _ _ x_callable_mock) (conj x_first_mock (conj (x_kept _) (conj x_proper x_seen)))).
Qed.

(** Exactly: restricted to a value of a query parameter, whatever its name and type, the mock accepts the requests of
    the calls that contribute the pair of the Rust name and the [to_string] text; restricted to the absence of one,
    the requests of the calls that contribute no pair with the Rust name. *)
Theorem C53_query_iff : forall V W (e : episode V W), happens e -> forall q, first_request (e_trace e) q ->
  url_kept (e_client e) (e_path e) (e_args e) -> proper_texts (e_args e) ->
  forall types p a w json_is, (exists b, p_kind p = KQuery b) -> restrictable (e_path e) (p, a) ->
  when_method_of types (m_path (e_method e)) p = Ok w ->
  exists ex, when_call (wm_body w) a = Some ex
    /\ forall r, seen (c_base_url (e_client e)) q r ->
       (meets json_is r ex = true <->
        match a with
        | Some v => contributes (e_args e) (p_name p, v_text v)
        | None => forall t, ~ contributes (e_args e) (p_name p, t)
        end).
Proof. exact @mock_query_iff. Qed.
Print Assumptions C53_query_iff.

Example C53_query_iff_ex : (exists b, p_kind x_q = KQuery b)
  /\ restrictable x_pieces (x_q, None) /\ restrictable x_pieces (x_q, Some (x_value (lit "other")))
  /\ exists w, when_method_of y_types (m_path x_m) x_q = Ok w.
Proof. repeat split; eexists; reflexivity. Qed.

(** A parameter called "page-token" is looked for as "page_token" ... *)
Theorem C53_renamed_refuted : exists (e : episode (N * list N) nat) q p v w r ex,
  happens e /\ first_request (e_trace e) q /\ url_kept (e_client e) (e_path e) (e_args e) /\ proper_texts (e_args e)
  /\ In (p, Some v) (e_args e) /\ p_kind p = KQuery false /\ scalar_text (v_serde v) (v_text v)
  /\ when_method_of y_types (m_path (e_method e)) p = Ok w /\ seen (c_base_url (e_client e)) q r
  /\ when_call (wm_body w) (Some v) = Some ex /\ meets k_json r ex = false.
Proof. exact renamed_query. Qed.
Print Assumptions C53_renamed_refuted.

(** ... and the number 1.0 is sent as "1.0" but looked for as "1". *)
Theorem C53_float_refuted : exists (e : episode (N * list N) nat) q p v w r ex,
  happens e /\ first_request (e_trace e) q /\ url_kept (e_client e) (e_path e) (e_args e) /\ proper_texts (e_args e)
  /\ In (p, Some v) (e_args e) /\ p_kind p = KQuery true /\ p_name p = p_api_name p
  /\ v_text v = lit "1" /\ v_serde v = VFloat (lit "1.0")
  /\ when_method_of y_types (m_path (e_method e)) p = Ok w /\ seen (c_base_url (e_client e)) q r
  /\ when_call (wm_body w) (Some v) = Some ex /\ meets k_json r ex = false.
Proof. exact float_query. Qed.
Print Assumptions C53_float_refuted.

(** C54: the response methods correspond to the documented responses in order; each has the content of
    its response, sets only statuses that the response documents, and can set each of them. *)
Theorem C54_statuses : forall U types m o, httpmock_method U types m = Ok o -> Forall2 (fun r t =>
    tm_value t = content_of (o_typ r)
    /\ (forall status code, then_call (tm_status t) status = Some code -> allowed (o_status r) code)
    /\ (forall code, allowed (o_status r) code -> exists status, then_call (tm_status t) status = Some code))
  (m_responses m) (mo_then_methods o).
Proof. exact mock_responses. Qed.
Print Assumptions C54_statuses.

Example C54_ex : httpmock_method unicode15 y_types x_m = Ok (k_mock x_m)
  /\ allowed (SRange 4) 404 /\ ~ allowed (SRange 4) 500.
Proof. split; [exact x_mock_ok|]. cbn. lia. Qed.

(** C65: a mock that is restricted to arguments of a call, of the kinds that can be, accepts the
    request of that call.  Missing: the arguments excluded by [mockable]. *)
Theorem C65_accepts_partial : forall V W (e : episode V W), happens e -> forall q, first_request (e_trace e) q ->
  url_kept (e_client e) (e_path e) (e_args e) -> proper_texts (e_args e) ->
  forall U types o cs json_is, httpmock_method U types (e_method e) = Ok o ->
  NoDup (vars (e_path e)) -> plain_template (e_path e) ->
  incl cs (e_args e) -> Forall (mockable json_is (e_path e) (e_args e)) cs ->
  exists es, when_calls o (map (fun c => (p_name (fst c), snd c)) cs) = Some es
    /\ (exists r, seen (c_base_url (e_client e)) q r)
    /\ forall r, seen (c_base_url (e_client e)) q r -> matched json_is es r = true.
Proof. exact @mock_accepts. Qed.
Print Assumptions C65_accepts_partial.

Example C65_ex :
  happens (x_ep x_no_hooks (x_ops false false (x_resp 200)) x_args_mock)
  /\ first_request (e_trace (x_ep x_no_hooks (x_ops false false (x_resp 200)) x_args_mock)) (x_request x_args_mock)
  /\ url_kept x_ctx x_pieces x_args_mock /\ proper_texts x_args_mock
  /\ httpmock_method unicode15 y_types x_m = Ok (k_mock x_m) /\ NoDup (vars x_pieces) /\ plain_template x_pieces
  /\ Forall (mockable k_json x_pieces x_args_mock)
       [(x_id, Some (x_value (lit "a"))); (x_q, Some (x_value (lit "z=&"))); (x_body, Some (x_value (lit "b")))].
Proof.
  exact (conj (x_happens _ _ _ x_callable_mock) (conj x_first_mock (conj (x_kept _) (conj x_proper
    (conj x_mock_ok (conj x_vars (conj x_plain x_mockable))))))).
Qed.

(** Exactly: a mock restricted to any arguments of these kinds, whether those of the call or not, accepts the request
    of the call if and only if each restriction is met. *)
Theorem C65_accepts_iff : forall V W (e : episode V W), happens e -> forall q, first_request (e_trace e) q ->
  url_kept (e_client e) (e_path e) (e_args e) -> proper_texts (e_args e) ->
  forall U types o cs json_is, httpmock_method U types (e_method e) = Ok o ->
  NoDup (vars (e_path e)) -> plain_template (e_path e) ->
  Forall (fun c => In (fst c) (m_params (e_method e)) /\ restrictable (e_path e) c) cs ->
  exists es, when_calls o (map (fun c => (p_name (fst c), snd c)) cs) = Some es
    /\ (exists r, seen (c_base_url (e_client e)) q r)
    /\ forall r, seen (c_base_url (e_client e)) q r ->
       (matched json_is es r = true <-> Forall (restriction_met json_is (e_path e) (e_args e) r) cs).
Proof. exact @mock_accepts_iff. Qed.
Print Assumptions C65_accepts_iff.

Example C65_iff_ex : Forall (fun c => In (fst c) (m_params x_m) /\ restrictable x_pieces c)
    [(x_id, Some (x_value (lit "b"))); (x_q, None); (x_body, Some (x_value (lit "c")))].
Proof. exact x_restrictable. Qed.

(** The argument "a/b" is sent as "a%2Fb", which the mock does not match ... *)
Theorem C65_encoded_refuted : exists (e : episode (N * list N) nat) q o cs es r,
  happens e /\ first_request (e_trace e) q /\ url_kept (e_client e) (e_path e) (e_args e) /\ proper_texts (e_args e)
  /\ httpmock_method unicode15 y_types (e_method e) = Ok o
  /\ NoDup (vars (e_path e)) /\ plain_template (e_path e) /\ incl cs (e_args e)
  /\ (forall p a, In (p, a) cs -> p_kind p = KPath)
  /\ when_calls o (map (fun c => (p_name (fst c), snd c)) cs) = Some es
  /\ seen (c_base_url (e_client e)) q r /\ matched k_json es r = false.
Proof. exact slash_argument. Qed.
Print Assumptions C65_encoded_refuted.

(** ... and the methods for header parameters panic. *)
Theorem C65_header_refuted : exists (e : episode (N * list N) nat) o c,
  happens e /\ httpmock_method unicode15 y_types (e_method e) = Ok o /\ In c (e_args e)
  /\ when_calls o [(p_name (fst c), snd c)] = None.
Proof. exact header_argument. Qed.
Print Assumptions C65_header_refuted.

(** C66: a document with a client has mocks exactly if its statuses have names. *)
Theorem C66_mocks_partial : forall U add_ref_types types is_path s d cp g,
  is_path cp = true -> (forall t, types t <> None) ->
  generate_tokens U add_ref_types types s d = Ok g ->
  ((exists k, httpmock U add_ref_types types is_path d cp = Ok k) <->
   forall e, in_document d e -> Forall mockable_status (map fst (documented (do_op e)))).
Proof. exact mock_iff. Qed.
Print Assumptions C66_mocks_partial.

Example C66_ex :
  httpmock unicode15 (fun _ => Ok x_ts) y_types (fun _ => true) (y_doc (lit "ping")) (lit "sdk")
    = Ok (s_mock (y_doc (lit "ping")))
  /\ generate_tokens unicode15 (fun _ => Ok x_ts) y_types (y_set Positional Merged) (y_doc (lit "ping"))
     = Ok (y_gen Positional Merged (lit "ping"))
  /\ forall e, In e (doc_ops 0 (oa_paths (y_doc (lit "ping")))) ->
       Forall mockable_status (map fst (documented (do_op e))).
Proof. exact (conj y_mock_ok (conj y_positional y_statuses)). Qed.

(** Otherwise the generator panics. *)
Theorem C66_unnamed_status_refuted : exists d g,
  generate_tokens unicode15 (fun _ => Ok x_ts) y_types (y_set Builder Merged) d = Ok g
  /\ httpmock unicode15 (fun _ => Ok x_ts) y_types (fun _ => true) d (lit "sdk")
     = Panic (lit "called `Option::unwrap()` on a `None` value").
Proof. exact unnamed_status. Qed.
Print Assumptions C66_unnamed_status_refuted.

(** C67: the mock has one method per operation, in document order, called like the client's, with
    the wrappers of that operation. *)
Theorem C67_operations : forall U add_ref_types types is_path d cp k l,
  httpmock U add_ref_types types is_path d cp = Ok k -> operations_in_order d l ->
  exists ts, Forall2 (fun e no => exists m, processed U ts d e m /\ fst no = method_name U e
      /\ httpmock_method U types m = Ok (snd no)) l (mk_ops k).
Proof. exact mock_ops. Qed.
Print Assumptions C67_operations.

Example C67_ex :
  httpmock unicode15 (fun _ => Ok x_ts) y_types (fun _ => true) (y_doc (lit "ping")) (lit "sdk")
    = Ok (s_mock (y_doc (lit "ping")))
  /\ operations_in_order (y_doc (lit "ping")) (y_ops (lit "ping"))
  /\ map fst (mk_ops (s_mock (y_doc (lit "ping")))) = [lit "get_item"; lit "put_item"; lit "ping"].
Proof. exact (conj y_mock_ok (conj (doc_ops_in_order _) y_mock_names)). Qed.

(** C68: the response methods of an operation are called differently, and not like the wrapper's own
    methods, unless a websocket operation documents 101. *)
Theorem C68_response_names_partial : forall snake pascal ts op comps path method pp m types o,
  process_operation snake pascal ts op comps path method pp = Ok m ->
  httpmock_method unicode15 types m = Ok o ->
  NoDup (map fst (documented op)) ->
  (m_websocket m = true -> ~ In (SCode 101) (map fst (documented op))) ->
  NoDup (lit "new" :: lit "into_inner" :: map tm_name (mo_then_methods o)).
Proof. exact then_names_distinct. Qed.
Print Assumptions C68_response_names_partial.

Example C68_ex :
  process_operation x_snake x_pascal x_ts x_op x_comps (show x_pieces) (lit "put") [] = Ok x_m
  /\ httpmock_method unicode15 y_types x_m = Ok (k_mock x_m)
  /\ map fst (documented x_op) = [SDefault; SCode 200; SCode 404] /\ m_websocket x_m = false.
Proof. exact (conj eq_refl (conj x_mock_ok (conj eq_refl eq_refl))). Qed.

Theorem C68_websocket_refuted : exists d k,
  httpmock unicode15 (fun _ => Ok x_ts) y_types (fun _ => true) d (lit "sdk") = Ok k
  /\ map (fun no => map tm_name (mo_then_methods (snd no))) (mk_ops k)
     = [[lit "switching_protocols"; lit "success"; lit "switching_protocols"]].
Proof. exact (ex_intro _ s_ws (ex_intro _ (s_mock s_ws) (conj s_ws_ok s_ws_clash))). Qed.
Print Assumptions C68_websocket_refuted.

(** Methods for parameters may be called like the wrapper's own ... *)
Theorem C68_new_refuted : exists m o, httpmock_method unicode15 y_types m = Ok o
  /\ In (lit "new") (map wm_name (mo_when_methods o)).
Proof. exact (ex_intro _ s_new (ex_intro _ (k_mock s_new) s_new_ok)). Qed.
Print Assumptions C68_new_refuted.

(** ... and different operations may have wrappers with the same name. *)
Theorem C68_wrappers_refuted : exists d k,
  httpmock unicode15 (fun _ => Ok x_ts) y_types (fun _ => true) d (lit "sdk") = Ok k
  /\ map (fun no => mo_when (snd no)) (mk_ops k) = [lit "A1When"; lit "A1When"]
  /\ map fst (mk_ops k) = [lit "a1"; lit "a_1"].
Proof. exact (ex_intro _ s_twins (ex_intro _ (s_mock s_twins) (conj s_twins_ok s_twins_clash))). Qed.
Print Assumptions C68_wrappers_refuted.

(** Concrete mocks. *)
From Verif Require Import Base Utf8 SerdeModel OasModel HeaderModel ClientModel TemplateModel TemplateSpec EncodeModel
  EncodeSpec QuerySpec MethodModel OpModel RunModel BuilderModel RequestSpec DocSpec SanitizeModel GenerateModel GenerateSpec
  UnicodeProofs ValidateProofs MockModel MockSpec ExampleData ExampleGenerate.
Local Open Scope N_scope.

(** GET of a path with the given path parameters. *)
Definition k_path_param (n : str) : op_param := OpParam n n None (PType 2) KPath.
Definition k_method (path : path_template) (ns : list str) : op_method :=
  OpMethod (lit "k") [] Get path None None (map k_path_param ns) [OpResponse (SCode 200) RNone] None false.
Definition k_empty : mock_op := MockOp [] Get [] [] [] [].
Definition k_mock (m : op_method) : mock_op :=
  match httpmock_method unicode15 y_types m with Ok o => o | _ => k_empty end.
Definition k_when (m : op_method) (cs : list (str * option value)) : list expectation :=
  match when_calls (k_mock m) cs with Some es => es | None => [] end.
Definition k_get (path : str) : mock_request := MockRequest Get path [] [].

Lemma k_is_ok (m : op_method) :
  match httpmock_method unicode15 y_types m with Ok _ => true | _ => false end = true ->
  httpmock_method unicode15 y_types m = Ok (k_mock m).
Proof. apply is_ok. Qed.
Lemma k_is_some m cs : match when_calls (k_mock m) cs with Some _ => true | None => false end = true ->
  when_calls (k_mock m) cs = Some (k_when m cs).
Proof. unfold k_when. now destruct (when_calls _ _). Qed.

(** /v/{id}/{n}. *)
Definition k_pieces : list piece :=
  map PLit (lit "/v/") ++ [PVar (lit "id"); PLit (ch "/"); PVar (lit "n")].
Definition k_m : op_method :=
  k_method [CConst (lit "/v/"); CParam (lit "id"); CConst (lit "/"); CParam (lit "n")] [lit "id"; lit "n"].
Lemma k_strict : strict k_pieces.
Proof. split; [now exists (map PLit (lit "v/") ++ [PVar (lit "id"); PLit (ch "/"); PVar (lit "n")])|]. literal_pieces. Qed.
Lemma k_plain : plain_template k_pieces.
Proof.
  intros c Hc. vm_compute in Hc.
  repeat (destruct Hc as [Hc|Hc]; [first [discriminate Hc | injection Hc as <-; intro Hi; vm_compute in Hi; intuition discriminate]|]).
  easy.
Qed.
Lemma k_vars : NoDup (vars k_pieces).
Proof. repeat constructor; vm_compute; intuition discriminate. Qed.
Lemma k_parse : parse (show k_pieces) = Ok (m_path k_m).
Proof. reflexivity. Qed.
Lemma k_ok : httpmock_method unicode15 y_types k_m = Ok (k_mock k_m).
Proof. apply k_is_ok. vm_compute. reflexivity. Qed.
Lemma k_segments : one_per_segment k_pieces.
Proof. unfold one_per_segment. vm_compute. repeat constructor. Qed.
Lemma k_works :
  matched (fun _ _ => false) (k_when k_m [(lit "id", Some (x_value (lit "a"))); (lit "n", Some (x_value (lit "7")))])
    (k_get (lit "/v/a/7")) = true
  /\ matched (fun _ _ => false) (k_when k_m [(lit "id", Some (x_value (lit "a")))]) (k_get (lit "/v/b/7")) = false.
Proof. vm_compute. auto. Qed.

(** ** Paths that are matched too often, or not *)

Definition k_case (ps : list piece) (m : op_method) (fixed : list (str * str)) (path : str) (yes : bool) : Prop :=
  strict ps /\ parse (show ps) = Ok (m_path m) /\ NoDup (vars ps)
  /\ httpmock_method unicode15 y_types m = Ok (k_mock m)
  /\ when_calls (k_mock m) (map (fun nv => (fst nv, Some (x_value (snd nv)))) fixed)
     = Some (k_when m (map (fun nv => (fst nv, Some (x_value (snd nv)))) fixed))
  /\ (forall json_is, matched json_is (k_when m (map (fun nv => (fst nv, Some (x_value (snd nv)))) fixed)) (k_get path) = yes)
  /\ (yes = true <-> ~ expansion ps fixed path).

(** A dot in the path of the document. *)
Lemma k_dot : k_case (map PLit (lit "/v1.0")) (k_method [CConst (lit "/v1.0")] []) [] (lit "/v1x0") true.
Proof.
  unfold k_case. split; [|split; [|split; [|split; [|split; [|split]]]]].
  - split; [now exists (map PLit (lit "v1.0"))|]. literal_pieces.
  - reflexivity.
  - constructor.
  - apply k_is_ok. vm_compute. reflexivity.
  - apply k_is_some. vm_compute. reflexivity.
  - intro. vm_compute. reflexivity.
  - split; auto. intros _ (val & _ & _ & E). vm_compute in E. discriminate.
Qed.

(** A plus in the path of the document. *)
Lemma k_plus : k_case (map PLit (lit "/a+b")) (k_method [CConst (lit "/a+b")] []) [] (lit "/a+b") false.
Proof.
  unfold k_case. split; [|split; [|split; [|split; [|split; [|split]]]]].
  - split; [now exists (map PLit (lit "a+b"))|]. literal_pieces.
  - reflexivity.
  - constructor.
  - apply k_is_ok. vm_compute. reflexivity.
  - apply k_is_some. vm_compute. reflexivity.
  - intro. vm_compute. reflexivity.
  - split; [discriminate|]. intro Hn. exfalso. apply Hn. exists (fun _ => []). repeat split; easy.
Qed.

(** A dot in the value of a parameter. *)
Lemma k_value_dot : k_case [PLit (ch "/"); PVar (lit "a")] (k_method [CConst (lit "/"); CParam (lit "a")] [lit "a"])
  [(lit "a", lit "1.2")] (lit "/1x2") true.
Proof.
  unfold k_case. split; [|split; [|split; [|split; [|split; [|split]]]]].
  - split; [now exists [PVar (lit "a")]|]. literal_pieces.
  - reflexivity.
  - repeat constructor; easy.
  - apply k_is_ok. vm_compute. reflexivity.
  - apply k_is_some. vm_compute. reflexivity.
  - intro. vm_compute. reflexivity.
  - split; auto. intros _ (val & _ & Hf & E). pose proof (Hf _ _ (or_introl eq_refl)) as Hv.
    cbn [squeeze_pieces N.eqb expand flat_map app] in E. change (ch "/" =? ch "/") with true in E.
    cbn [expand flat_map app] in E. rewrite Hv in E. vm_compute in E. discriminate.
Qed.

(** Two parameters in one segment. *)
Lemma k_segment : k_case [PLit (ch "/"); PVar (lit "a"); PLit (ch "-"); PVar (lit "b")]
  (k_method [CConst (lit "/"); CParam (lit "a"); CConst (lit "-"); CParam (lit "b")] [lit "a"; lit "b"])
  [(lit "a", lit "x"); (lit "b", lit "y")] (lit "/x-q-y") true.
Proof.
  unfold k_case. split; [|split; [|split; [|split; [|split; [|split]]]]].
  - split; [now exists [PVar (lit "a"); PLit (ch "-"); PVar (lit "b")]|]. literal_pieces.
  - reflexivity.
  - repeat constructor; vm_compute; intuition discriminate.
  - apply k_is_ok. vm_compute. reflexivity.
  - apply k_is_some. vm_compute. reflexivity.
  - intro. vm_compute. reflexivity.
  - split; auto. intros _ (val & _ & Hf & E). pose proof (Hf _ _ (or_introl eq_refl)) as Ha.
    pose proof (Hf _ _ (or_intror (or_introl eq_refl))) as Hb.
    cbn [squeeze_pieces expand flat_map app] in E. change (ch "/" =? ch "/") with true in E.
    change (ch "-" =? ch "/") with false in E.
    cbn [expand flat_map app] in E. rewrite Ha, Hb in E. vm_compute in E. discriminate.
Qed.

(** Statements about paths: the mock, restricted as in [fixed], and its answer for the path, which is
    wrong. *)
Definition wrong_mock (fixed : list (str * str)) (yes : bool) : Prop :=
  exists ps m path o es, strict ps /\ parse (show ps) = Ok (m_path m) /\ NoDup (vars ps)
    /\ httpmock_method unicode15 y_types m = Ok o
    /\ when_calls o (map (fun nv => (fst nv, Some (x_value (snd nv)))) fixed) = Some es
    /\ (forall json_is, matched json_is es (k_get path) = yes)
    /\ (yes = true <-> ~ expansion ps fixed path).
Lemma k_wrong : forall ps m fixed path yes, k_case ps m fixed path yes -> wrong_mock fixed yes.
Proof. intros ps m fixed path yes (H1 & H2 & H3 & H4 & H5 & H6). exists ps, m, path, (k_mock m). eauto 10. Qed.

(** ** Calls *)

Definition k_json (v : value) (b : list N) : bool := match v_json v with Some b' => str_eqb b b' | None => false end.

(** The call of [put_item] with id "a", no q, and a body. *)
Definition x_args_mock : list (op_param * option value) :=
  [(x_id, Some (x_value (lit "a"))); (x_q, Some (x_value (lit "z=&"))); (x_trace, Some (x_value (lit "t1")));
   (x_body, Some (x_value (lit "b")))].
Lemma x_callable_mock : callable x_ctx x_m x_args_mock.
Proof. apply x_callable_gen; auto. repeat constructor; cbn; easy. Qed.
Lemma x_kept args : url_kept x_ctx x_pieces args.
Proof. intros val _. now exists []. Qed.
Lemma x_strict : strict x_pieces.
Proof. exact (g_strict _ _ _ _ _ _ _ _ _ _ _ (x_generated x_no_hooks)). Qed.
Lemma x_vars : NoDup (vars x_pieces).
Proof. repeat constructor; vm_compute; intuition discriminate. Qed.
Lemma x_plain : plain_template x_pieces.
Proof.
  intros c Hc. vm_compute in Hc.
  repeat (destruct Hc as [Hc|Hc]; [first [discriminate Hc | injection Hc as <-; intro Hi; vm_compute in Hi; intuition discriminate]|]).
  easy.
Qed.

Ltac all_chars := apply Forall_forall; let c := fresh "c" in let Hc := fresh "Hc" in
  intros c Hc; vm_compute in Hc; repeat (destruct Hc as [<-|Hc]; [vm_compute; intuition discriminate|]); easy.

Lemma x_proper_gen args : Forall (fun pv => forall v, snd pv = Some v -> valid_str (v_text v) /\ v_serde v = VStr (v_text v)
    /\ valid_str (p_api_name (fst pv))) args ->
  proper_texts args.
Proof.
  intro HF. rewrite Forall_forall in HF. split.
  - intros p v Hin _. now apply (HF (p, Some v) Hin).
  - intros kv (nv & ps & Hin & E & Hkv). unfold query_arguments in Hin. apply in_flat_map in Hin as ([p a] & Hi & Hin).
    cbn [fst snd] in Hin. specialize (HF _ Hi). cbn [fst snd] in HF.
    destruct (p_kind p) as [|r| |]; try easy. destruct a as [v|].
    + destruct (HF v eq_refl) as (H1 & H2 & H3).
      assert (Hps : query_param (p_api_name p) (v_serde v) = Some [(p_api_name p, v_text v)]) by (rewrite H2; reflexivity).
      destruct r; destruct Hin as [<-|[]]; cbn [fst snd] in E.
      * rewrite Hps in E. injection E as <-. destruct Hkv as [<-|[]]. auto.
      * change (query_param (p_api_name p) (v_serde v) = Some ps) in E. rewrite Hps in E. injection E as <-.
        destruct Hkv as [<-|[]]. auto.
    + destruct r; destruct Hin as [<-|[]]; cbn [fst snd] in E; injection E as <-; easy.
Qed.

Lemma x_proper : proper_texts x_args_mock.
Proof.
  apply x_proper_gen. repeat (apply Forall_cons; [cbn [snd fst]; intros v Hv; first [discriminate Hv |
    injection Hv as <-; split; [all_chars|split; [reflexivity|all_chars]]]|]). apply Forall_nil.
Qed.

Lemma x_mockable : Forall (mockable k_json x_pieces x_args_mock)
  [(x_id, Some (x_value (lit "a"))); (x_q, Some (x_value (lit "z=&"))); (x_body, Some (x_value (lit "b")))].
Proof.
  repeat apply Forall_cons; [| | |apply Forall_nil].
  - split; [vm_compute; auto|]. split; [|reflexivity]. all_chars.
  - split; [reflexivity|]. constructor.
  - intros b [= <-]. reflexivity.
Qed.
Lemma x_restrictable : Forall (fun c => In (fst c) (m_params x_m) /\ restrictable x_pieces c)
    [(x_id, Some (x_value (lit "b"))); (x_q, None); (x_body, Some (x_value (lit "c")))].
Proof.
  repeat apply Forall_cons; [| | |apply Forall_nil]; (split; [vm_compute; tauto|]); try exact I.
  split; [vm_compute; auto|]. all_chars.
Qed.

Lemma x_mock_ok : httpmock_method unicode15 y_types x_m = Ok (k_mock x_m).
Proof. apply k_is_ok. vm_compute. reflexivity. Qed.

Definition x_request (args : list (op_param * option value)) : request :=
  match e_trace (x_ep x_no_hooks (x_ops false false (x_resp 200)) args) with
  | ESend q _ :: _ => q
  | _ => Request Get [] None [] None
  end.
Lemma x_first_mock : first_request (e_trace (x_ep x_no_hooks (x_ops false false (x_resp 200)) x_args_mock)) (x_request x_args_mock).
Proof. unfold x_request. vm_compute. eexists. right. right. eexists. reflexivity. Qed.

(** The request as the server sees it. *)
Lemma x_seen : seen (lit "https://x") (x_request x_args_mock)
  (MockRequest Put (lit "/items/a") [(lit "q", lit "z=&")] (lit "{}")).
Proof. vm_compute. repeat split; reflexivity. Qed.

(** Restricting the id "a/b": the client sends "a%2Fb", the mock waits for "a/b". *)
Lemma x_first_slash : first_request (e_trace (x_ep x_no_hooks (x_ops false false (x_resp 200)) x_args)) (x_request x_args).
Proof. unfold x_request. vm_compute. eexists. right. right. eexists. reflexivity. Qed.
Lemma x_seen_slash : seen (lit "https://x") (x_request x_args) (MockRequest Put (lit "/items/a%2Fb") [] (lit "{}")).
Proof. vm_compute. repeat split; reflexivity. Qed.
Lemma x_proper_slash : proper_texts x_args.
Proof.
  apply x_proper_gen. repeat (apply Forall_cons; [cbn [snd fst]; intros v Hv; first [discriminate Hv |
    injection Hv as <-; split; [all_chars|split; [reflexivity|all_chars]]]|]). apply Forall_nil.
Qed.
Lemma x_unmatched : when_calls (k_mock x_m) [(lit "id", Some (x_value (lit "a/b")))]
    = Some (k_when x_m [(lit "id", Some (x_value (lit "a/b")))])
  /\ matched k_json (k_when x_m [(lit "id", Some (x_value (lit "a/b")))])
       (MockRequest Put (lit "/items/a%2Fb") [] (lit "{}")) = false.
Proof. split; [apply k_is_some|]; vm_compute; reflexivity. Qed.

(** Header parameters cannot be restricted at all. *)
Lemma x_header_todo : when_calls (k_mock x_m) [(lit "x_trace", Some (x_value (lit "t1")))] = None.
Proof. vm_compute. reflexivity. Qed.

(** ** Queries *)

(** GET /list with the query parameter "page-token" (a string or a float). *)
Definition p_op : operation := Operation (Some (lit "list")) [] None None
  [Item (ParQuery (x_param (lit "page-token") false) QsForm); Item (ParQuery (x_param (lit "size") true) QsForm)]
  None None [(ScCode 200, Item (ResponseDoc []))] [].
Definition p_pieces : list piece := map PLit (lit "/list").
Definition p_token : op_param := OpParam (lit "page_token") (lit "page-token") None (PType 2) (KQuery false).
Definition p_size : op_param := OpParam (lit "size") (lit "size") None (PType 2) (KQuery true).
Definition p_m : op_method :=
  OpMethod (lit "list") [] Get [CConst (lit "/list")] None None [p_token; p_size] [OpResponse (SCode 200) RNone] None false.
Lemma p_generated h : generated x_snake x_pascal x_ts x_comps p_op p_pieces (lit "get") [] h p_m (body_of h p_m).
Proof.
  split.
  - split; [now exists (map PLit (lit "list"))|]. literal_pieces.
  - reflexivity.
  - reflexivity.
  - repeat constructor; cbn; intuition discriminate.
  - repeat constructor; discriminate.
  - right. repeat constructor; discriminate.
  - split; discriminate.
Qed.
(** 1.0: [to_string] gives "1", serde "1.0". *)
Definition p_one : value := Value (lit "1") (VFloat (lit "1.0")) (Some (lit "1.0")) (lit "1").
Definition p_args : list (op_param * option value) := [(p_token, Some (x_value (lit "t"))); (p_size, Some p_one)].
Lemma p_callable : callable x_ctx p_m p_args.
Proof.
  split.
  - split; auto. repeat constructor; cbn; easy.
  - split; [discriminate|]. repeat constructor; discriminate.
  - intros u p q hs [= <- <- <-] n. discriminate.
Qed.
Definition p_ep : episode (N * list N) nat :=
  ep_of p_op p_pieces (lit "get") p_m x_no_hooks (x_ops false false (x_resp 200)) p_args.
Lemma p_happens : happens p_ep.
Proof. apply ep_of_happens; [apply p_generated|apply p_callable]. Qed.
Definition p_request : request :=
  match e_trace p_ep with ESend q _ :: _ => q | _ => Request Get [] None [] None end.
Lemma p_first : first_request (e_trace p_ep) p_request.
Proof. unfold p_request. vm_compute. eexists. right. right. eexists. reflexivity. Qed.
Definition p_seen_request : mock_request :=
  MockRequest Get (lit "/list") [(lit "page-token", lit "t"); (lit "size", lit "1.0")] [].
Lemma p_seen : seen (lit "https://x") p_request p_seen_request.
Proof. vm_compute. repeat split; reflexivity. Qed.
Lemma p_in : In (p_token, Some (x_value (lit "t"))) (e_args p_ep) /\ In (p_size, Some p_one) (e_args p_ep)
  /\ c_base_url (e_client p_ep) = lit "https://x" /\ m_path (e_method p_ep) = m_path p_m.
Proof. vm_compute. auto 10. Qed.
Definition p_when (p : op_param) : when_method :=
  match when_method_of y_types (m_path p_m) p with Ok w => w | _ => WhenMethod [] PRawBody WbTodo end.
Lemma p_renamed : when_method_of y_types (m_path p_m) p_token = Ok (p_when p_token)
  /\ when_call (wm_body (p_when p_token)) (Some (x_value (lit "t"))) = Some (ExQuery (lit "page_token") (lit "t"))
  /\ meets k_json p_seen_request (ExQuery (lit "page_token") (lit "t")) = false.
Proof. vm_compute. auto. Qed.
Lemma p_float : when_method_of y_types (m_path p_m) p_size = Ok (p_when p_size)
  /\ when_call (wm_body (p_when p_size)) (Some p_one) = Some (ExQuery (lit "size") (lit "1"))
  /\ meets k_json p_seen_request (ExQuery (lit "size") (lit "1")) = false.
Proof. vm_compute. auto. Qed.

(** ** Documents *)

(** A document with one operation that documents the given statuses. *)
Definition s_op (id : str) (ss : list status_code) (ext : list (str * json)) : operation :=
  Operation (Some id) [] None None [] None None (map (fun s => (s, Item (ResponseDoc []))) ss) ext.
Definition s_doc (ops : list (str * operation)) : openapi :=
  OpenApi (lit "3.0.0") (lit "T") None None (lit "1.0")
    (map (fun po => (fst po, Item (y_no_ops [] (Some (snd po)) None))) ops) None [].
Definition s_mock (d : openapi) : mock_code :=
  match httpmock unicode15 (fun _ => Ok x_ts) y_types (fun _ => true) d (lit "sdk") with
  | Ok k => k | _ => MockCode [] [] end.
Definition s_gen (d : openapi) : generated_code :=
  match generate_tokens unicode15 (fun _ => Ok x_ts) y_types (y_set Builder Merged) d with Ok g => g | _ => y_empty end.
Lemma s_mock_ok d : match httpmock unicode15 (fun _ => Ok x_ts) y_types (fun _ => true) d (lit "sdk") with Ok _ => true | _ => false end
  = true -> httpmock unicode15 (fun _ => Ok x_ts) y_types (fun _ => true) d (lit "sdk") = Ok (s_mock d).
Proof. apply is_ok. Qed.

Lemma y_mock_ok : httpmock unicode15 (fun _ => Ok x_ts) y_types (fun _ => true) (y_doc (lit "ping")) (lit "sdk")
  = Ok (s_mock (y_doc (lit "ping"))).
Proof. apply s_mock_ok. vm_compute. reflexivity. Qed.
Lemma y_mock_names : map fst (mk_ops (s_mock (y_doc (lit "ping")))) = [lit "get_item"; lit "put_item"; lit "ping"].
Proof. vm_compute. reflexivity. Qed.

(** 499 has no name. *)
Definition s_499 : openapi := s_doc [(lit "/a", s_op (lit "a") [ScCode 200; ScCode 499] [])].
Lemma s_499_client : generate_tokens unicode15 (fun _ => Ok x_ts) y_types (y_set Builder Merged) s_499 = Ok (s_gen s_499).
Proof. apply is_ok. vm_compute. reflexivity. Qed.
Lemma s_499_mock : httpmock unicode15 (fun _ => Ok x_ts) y_types (fun _ => true) s_499 (lit "sdk")
  = Panic (lit "called `Option::unwrap()` on a `None` value").
Proof. vm_compute. reflexivity. Qed.

(** Operations "a1" and "a_1". *)
Definition s_twins : openapi :=
  s_doc [(lit "/a", s_op (lit "a1") [ScCode 200] []); (lit "/b", s_op (lit "a_1") [ScCode 200] [])].
Lemma s_twins_client : generate_tokens unicode15 (fun _ => Ok x_ts) y_types (y_set Positional Merged) s_twins
  = Ok (match generate_tokens unicode15 (fun _ => Ok x_ts) y_types (y_set Positional Merged) s_twins with Ok g => g | _ => y_empty end).
Proof. apply is_ok. vm_compute. reflexivity. Qed.
Lemma s_twins_ok : httpmock unicode15 (fun _ => Ok x_ts) y_types (fun _ => true) s_twins (lit "sdk") = Ok (s_mock s_twins).
Proof. apply s_mock_ok. vm_compute. reflexivity. Qed.
Lemma s_twins_clash : map (fun no => mo_when (snd no)) (mk_ops (s_mock s_twins)) = [lit "A1When"; lit "A1When"]
  /\ map fst (mk_ops (s_mock s_twins)) = [lit "a1"; lit "a_1"].
Proof. vm_compute. auto. Qed.

(** A parameter called "new". *)
Definition s_new : op_method := k_method [CConst (lit "/"); CParam (lit "new")] [lit "new"].
Lemma s_new_ok : httpmock_method unicode15 y_types s_new = Ok (k_mock s_new)
  /\ In (lit "new") (map wm_name (mo_when_methods (k_mock s_new))).
Proof. split; [apply k_is_ok|]; vm_compute; auto. Qed.

(** A websocket operation that documents 101. *)
Definition s_ws : openapi := s_doc [(lit "/ws", s_op (lit "ws") [ScCode 101] [(lit "x-dropshot-websocket", JNull)])].
Lemma s_ws_ok : httpmock unicode15 (fun _ => Ok x_ts) y_types (fun _ => true) s_ws (lit "sdk") = Ok (s_mock s_ws).
Proof. apply s_mock_ok. vm_compute. reflexivity. Qed.
Lemma s_ws_clash : map (fun no => map tm_name (mo_then_methods (snd no))) (mk_ops (s_mock s_ws))
  = [[lit "switching_protocols"; lit "success"; lit "switching_protocols"]].
Proof. vm_compute. reflexivity. Qed.

Lemma p_proper : proper_texts p_args.
Proof.
  split.
  - intros p v [[= <- <-]|[[= <- <-]|[]]]; discriminate.
  - intros kv (nv & ps & Hin & E & Hkv). destruct Hin as [<-|[<-|[]]]; vm_compute in E; injection E as <-;
      destruct Hkv as [<-|[]]; split; all_chars.
Qed.
Lemma p_kept : url_kept x_ctx p_pieces p_args.
Proof. intros val _. now exists []. Qed.

Lemma renamed_query : exists (e : episode (N * list N) nat) q p v w r ex,
  happens e /\ first_request (e_trace e) q /\ url_kept (e_client e) (e_path e) (e_args e) /\ proper_texts (e_args e)
  /\ In (p, Some v) (e_args e) /\ p_kind p = KQuery false /\ scalar_text (v_serde v) (v_text v)
  /\ when_method_of y_types (m_path (e_method e)) p = Ok w /\ seen (c_base_url (e_client e)) q r
  /\ when_call (wm_body w) (Some v) = Some ex /\ meets k_json r ex = false.
Proof.
  exists p_ep, p_request, p_token, (x_value (lit "t")), (p_when p_token), p_seen_request, (ExQuery (lit "page_token") (lit "t")).
  destruct p_in as (H1 & _). destruct p_renamed as (H2 & H3 & H4).
  repeat (split; [first [exact p_happens|exact p_first|exact p_kept|exact p_proper|exact H1|reflexivity|exact H2|exact p_seen|exact H3
                         |constructor]|]). exact H4.
Qed.
Lemma float_query : exists (e : episode (N * list N) nat) q p v w r ex,
  happens e /\ first_request (e_trace e) q /\ url_kept (e_client e) (e_path e) (e_args e) /\ proper_texts (e_args e)
  /\ In (p, Some v) (e_args e) /\ p_kind p = KQuery true /\ p_name p = p_api_name p
  /\ v_text v = lit "1" /\ v_serde v = VFloat (lit "1.0")
  /\ when_method_of y_types (m_path (e_method e)) p = Ok w /\ seen (c_base_url (e_client e)) q r
  /\ when_call (wm_body w) (Some v) = Some ex /\ meets k_json r ex = false.
Proof.
  exists p_ep, p_request, p_size, p_one, (p_when p_size), p_seen_request, (ExQuery (lit "size") (lit "1")).
  destruct p_in as (_ & H1 & _). destruct p_float as (H2 & H3 & H4).
  repeat (split; [first [exact p_happens|exact p_first|exact p_kept|exact p_proper|exact H1|reflexivity|exact H2|exact p_seen|exact H3
                         ]|]). exact H4.
Qed.

Lemma slash_argument : exists (e : episode (N * list N) nat) q o cs es r,
  happens e /\ first_request (e_trace e) q /\ url_kept (e_client e) (e_path e) (e_args e) /\ proper_texts (e_args e)
  /\ httpmock_method unicode15 y_types (e_method e) = Ok o
  /\ NoDup (vars (e_path e)) /\ plain_template (e_path e) /\ incl cs (e_args e)
  /\ (forall p a, In (p, a) cs -> p_kind p = KPath)
  /\ when_calls o (map (fun c => (p_name (fst c), snd c)) cs) = Some es
  /\ seen (c_base_url (e_client e)) q r /\ matched k_json es r = false.
Proof.
  exists (x_ep x_no_hooks (x_ops false false (x_resp 200)) x_args), (x_request x_args), (k_mock x_m),
    [(x_id, Some (x_value (lit "a/b")))], (k_when x_m [(lit "id", Some (x_value (lit "a/b")))]),
    (MockRequest Put (lit "/items/a%2Fb") [] (lit "{}")).
  destruct x_unmatched as (H1 & H2).
  split; [apply x_happens, x_callable|]. split; [exact x_first_slash|].
  split; [exact (x_kept x_args)|]. split; [exact x_proper_slash|]. split; [exact x_mock_ok|].
  split; [exact x_vars|]. split; [exact x_plain|].
  split; [intros c [<-|[]]; vm_compute; auto|]. split; [intros p a [[= <- <-]|[]]; reflexivity|].
  split; [exact H1|]. split; [exact x_seen_slash|exact H2].
Qed.

Lemma header_argument : exists (e : episode (N * list N) nat) o c,
  happens e /\ httpmock_method unicode15 y_types (e_method e) = Ok o /\ In c (e_args e)
  /\ when_calls o [(p_name (fst c), snd c)] = None.
Proof.
  exists (x_ep x_no_hooks (x_ops false false (x_resp 200)) x_args), (k_mock x_m), (x_trace, Some (x_value (lit "t1"))).
  split; [apply x_happens, x_callable|]. split; [exact x_mock_ok|]. split; [vm_compute; auto|exact x_header_todo].
Qed.

Lemma unnamed_status : exists d g, generate_tokens unicode15 (fun _ => Ok x_ts) y_types (y_set Builder Merged) d = Ok g
  /\ httpmock unicode15 (fun _ => Ok x_ts) y_types (fun _ => true) d (lit "sdk")
     = Panic (lit "called `Option::unwrap()` on a `None` value").
Proof. exists s_499, (s_gen s_499). exact (conj s_499_client s_499_mock). Qed.

Lemma y_statuses : forall e, In e (doc_ops 0 (oa_paths (y_doc (lit "ping")))) ->
  Forall mockable_status (map fst (documented (do_op e))).
Proof.
  intros e He. cbn in He. repeat (destruct He as [<-|He]; [repeat constructor; cbn; tauto|]). easy.
Qed.

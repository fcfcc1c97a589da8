(** A concrete document fragment, method and call, used by the examples. *)
From Verif Require Import Base Utf8 SerdeModel OasModel HeaderModel ClientModel TemplateModel TemplateSpec MethodModel OpModel
  RunModel RefSpec RefProofs ResponseSpec ResponseProofs RequestSpec ParamSpec DocSpec.
Local Open Scope N_scope.

Definition x_data : schema_data := SchemaData false false false false None None None false None [].
Definition x_string : schema := Schema x_data (SkString (StringType VEmpty None [] None None)).
Definition x_object : schema := Schema x_data (SkObject (ObjectType [] [] None None None)).

(** Types: 1 for references, 2 for strings, 3 for objects. *)
Definition x_ts : type_space :=
  TypeSpace
    (fun s _ => match s with
                | Ref _ => Ok 1
                | Item (Schema _ (SkString _)) => Ok 2
                | Item (Schema _ (SkObject _)) => Ok 3
                | _ => Err (TypeError (lit "unsupported"))
                end)
    (fun t => if t =? 2 then Some TdString else Some TdOther).

Definition x_param (n : str) (required : bool) : param_data :=
  ParamData n None required (Some (Item x_string)) None.
Definition x_json (s : ref_or schema) : response_doc :=
  ResponseDoc [(lit "application/json", MediaType (Some s) true)].

Definition x_comps : option components :=
  Some (Components
    [(lit "Trace", Item (ParHeader (x_param (lit "X-Trace") false)))]
    []
    [(lit "Error", Item (x_json (Ref (lit "#/components/schemas/Error"))))]
    [(lit "Error", Item x_object)]).

(** PUT /items/{id} with a query parameter, a header parameter and a body. *)
Definition x_op : operation := Operation
  (Some (lit "put_item")) [] None None
  [Item (ParQuery (x_param (lit "q") false) QsForm);
   Ref (lit "#/components/parameters/Trace");
   Item (ParPath (x_param (lit "id") true) PsSimple)]
  (Some (Item (RequestBody None [(lit "application/json; charset=utf-8", MediaType (Some (Item x_object)) true)])))
  (Some (Ref (lit "#/components/responses/Error")))
  [(ScCode 200, Item (x_json (Ref (lit "#/components/schemas/Error"))));
   (ScCode 404, Item (x_json (Ref (lit "#/components/schemas/Error"))))] [].

Definition x_pieces : list piece := map PLit (lit "/items/") ++ [PVar (lit "id")].
Definition x_hooks : hooks := Hooks true true true true.
Definition x_no_hooks : hooks := Hooks false false false false.

(** Case conversion: enough of it for the names above. *)
Definition x_snake (s : str) : str := map (fun c => if c =? ch "-" then ch "_" else lower c) s.
Definition x_pascal (s : str) : str := s.

Definition x_id : op_param := OpParam (lit "id") (lit "id") None (PType 2) KPath.
Definition x_q : op_param := OpParam (lit "q") (lit "q") None (PType 2) (KQuery false).
Definition x_trace : op_param := OpParam (lit "x_trace") (lit "X-Trace") None (PType 2) (KHeader false).
Definition x_body : op_param := OpParam (lit "body") (lit "body") None (PType 3) (KBody Json).
Definition x_m : op_method :=
  OpMethod (lit "put_item") [] Put
    [CConst (lit "/items/"); CParam (lit "id")] None None
    [x_id; x_q; x_trace; x_body]
    [OpResponse SDefault (RType 1); OpResponse (SCode 200) (RType 1); OpResponse (SCode 404) (RType 1)]
    None false.

Definition x_sb (h : hooks) : sig_body :=
  match method_sig_body h x_m with Ok sb => sb | _ => SigBody RNone RNone [] end.

Example x_generated : forall h,
  generated x_snake x_pascal x_ts x_comps x_op x_pieces (lit "put") [] h x_m (x_sb h).
Proof.
  intro h. split.
  - split; [now exists (map PLit (lit "items/") ++ [PVar (lit "id")])|].
    apply Forall_forall. intros p Hp. vm_compute in Hp.
    repeat (destruct Hp as [<-|Hp]; [cbn; unfold name_ok, ch; cbn; intuition discriminate|]). easy.
  - reflexivity.
  - reflexivity.
  - repeat constructor; cbn; intuition discriminate.
  - repeat constructor; discriminate.
  - right. repeat constructor; discriminate.
  - split; discriminate.
Qed.

(** A client whose URLs are taken as they are. *)
Definition x_ctx : context :=
  Context (lit "https://x") (lit "1.0") (fun u => ROk (u, None, []))
    (RErr' (lit "query") None []) (RErr' (lit "json") None []) (lit "key").

Definition x_value (s : str) : value := Value s (VStr s) (Some (lit "{}")) (utf8 s).

(** id "a/b", no q, trace "t1". *)
Definition x_args : list (op_param * option value) :=
  [(x_id, Some (x_value (lit "a/b"))); (x_q, None); (x_trace, Some (x_value (lit "t1")));
   (x_body, Some (x_value (lit "b")))].
(** The same with an illegal header value, and without one. *)
Definition x_args_bad : list (op_param * option value) :=
  [(x_id, Some (x_value (lit "a/b"))); (x_q, None); (x_trace, Some (x_value [10]));
   (x_body, Some (x_value (lit "b")))].
Definition x_args_none : list (op_param * option value) :=
  [(x_id, Some (x_value (lit "a/b"))); (x_q, Some (x_value (lit "z"))); (x_trace, None);
   (x_body, Some (x_value (lit "b")))].

Lemma x_callable_gen a : map fst a = m_params x_m ->
  Forall (fun pv => required_param (fst pv) -> snd pv <> None) a -> callable x_ctx x_m a.
Proof.
  intros H1 H2. split.
  - split; auto.
  - split; [discriminate|]. repeat constructor; discriminate.
  - intros u p q hs [= <- <- <-] n. discriminate.
Qed.
Example x_callable : callable x_ctx x_m x_args.
Proof. apply x_callable_gen; auto. repeat constructor; cbn; easy. Qed.
Example x_callable_bad : callable x_ctx x_m x_args_bad.
Proof. apply x_callable_gen; auto. repeat constructor; cbn; easy. Qed.
Example x_callable_none : callable x_ctx x_m x_args_none.
Proof. apply x_callable_gen; auto. repeat constructor; cbn; easy. Qed.

(** Surroundings: the server answers with [r]; the async pre-hook adds a
    query, or refuses if [veto]; the async post-hook objects if [overrule].
    The world counts the calls of hooks and transport. *)
Definition x_ops (veto overrule : bool) (r : response) : world_ops nat :=
  WorldOps nat
    (fun _ n => S n)
    (fun q n => (if veto then RErr (lit "no") else
                   ROk (Request (q_method q) (q_url q) (Some (lit "k=v")) (q_headers q) (q_body q)), S n))
    (fun _ n => (ROk r, S n))
    (fun _ n => S n)
    (fun _ n => (if overrule then Some (lit "bad") else None, S n)).

(** A response with an empty object as its body; decoding returns the bytes. *)
Definition x_resp (s : N) : response :=
  Response s [] [ROk (lit "{"); ROk (lit "}")] (RErr (RErr' (lit "no upgrade") None [])).
Definition x_fs (t : N) (b : list N) : result (N * list N) jerr := ROk (t, b).

Definition x_run h ops args := run (N * list N) x_ctx x_fs nat ops (x_sb h) (variables args) O.

(** The documented responses. *)
Definition x_table : list (resp_status * resp_kind) :=
  [(SDefault, RType 1); (SCode 200, RType 1); (SCode 404, RType 1)].

Lemma computed_table op oid ws rs0 : op_id op = Some oid ->
  mapM (process_response x_pascal x_ts oid ws x_comps) (documented op) = Ok rs0 ->
  forall t, t = table_of rs0 -> response_table x_pascal x_ts x_comps op ws t.
Proof.
  intros Hid Hm t ->. exists oid. split; auto. apply table_of_tabulates. now apply mapM_ok_iff.
Qed.

Example x_tabulates : response_table x_pascal x_ts x_comps x_op false x_table.
Proof. eapply computed_table; reflexivity. Qed.

(** The call as an episode. *)
Definition x_ep (h : hooks) (ops : world_ops nat) (args : list (op_param * option value)) : episode (N * list N) nat :=
  let '(f, tr, w) := x_run h ops args in
  Episode _ _ x_snake x_pascal x_ts x_comps x_op x_pieces (lit "put") [] h x_m (x_sb h) x_ctx x_fs ops args O f tr w.

Lemma x_happens h ops args : callable x_ctx x_m args -> happens (x_ep h ops args).
Proof.
  intro Hc. unfold x_ep. destruct (x_run h ops args) as [[f tr] w] eqn:E. split.
  - apply x_generated.
  - exact Hc.
  - exact E.
Qed.

Lemma x_documents h ops args : documents (x_ep h ops args) x_table.
Proof. unfold documents, x_ep. destruct (x_run h ops args) as [[f tr] w]. exact x_tabulates. Qed.

(** ** Two more operations *)

(** POST /login with a form body; documents 204 only. *)
Definition y_op : operation := Operation (Some (lit "login")) [] None None []
  (Some (Item (RequestBody None
     [(lit "application/x-www-form-urlencoded", MediaType (Some (Item x_object)) true)])))
  None [(ScCode 204, Item (ResponseDoc []))] [].
Definition y_pieces : list piece := map PLit (lit "/login").
Definition y_body : op_param := OpParam (lit "body") (lit "body") None (PType 3) (KBody FormUrlencoded).
Definition y_m : op_method :=
  OpMethod (lit "login") [] Post [CConst (lit "/login")] None None [y_body]
    [OpResponse (SCode 204) RNone] None false.

(** GET /status without parameters; documents 404 as plain text only. *)
Definition z_op : operation := Operation (Some (lit "status")) [] None None [] None None
  [(ScCode 404, Item (ResponseDoc [(lit "text/plain", MediaType (Some (Item x_string)) true)]))] [].
Definition z_pieces : list piece := map PLit (lit "/status").
Definition z_m : op_method :=
  OpMethod (lit "status") [] Get [CConst (lit "/status")] None None []
    [OpResponse (SCode 404) RRaw; OpResponse (SRange 2) RRaw] None false.

Definition body_of (h : hooks) (m : op_method) : sig_body :=
  match method_sig_body h m with Ok sb => sb | _ => SigBody RNone RNone [] end.

Ltac literal_pieces := apply Forall_forall; let p := fresh in let Hp := fresh in intros p Hp; vm_compute in Hp;
    repeat (destruct Hp as [<-|Hp]; [cbn; unfold name_ok, ch; cbn; intuition discriminate|]); easy.

Example y_generated : forall h,
  generated x_snake x_pascal x_ts x_comps y_op y_pieces (lit "post") [] h y_m (body_of h y_m).
Proof.
  intro h. split.
  - split; [now exists (map PLit (lit "login"))|]. literal_pieces.
  - reflexivity.
  - reflexivity.
  - repeat constructor; cbn; intuition discriminate.
  - repeat constructor; discriminate.
  - right. repeat constructor; discriminate.
  - split; discriminate.
Qed.
Example z_generated : forall h,
  generated x_snake x_pascal x_ts x_comps z_op z_pieces (lit "get") [] h z_m (body_of h z_m).
Proof.
  intro h. split.
  - split; [now exists (map PLit (lit "status"))|]. literal_pieces.
  - reflexivity.
  - reflexivity.
  - repeat constructor; cbn; intuition discriminate.
  - repeat constructor; discriminate.
  - right. repeat constructor; discriminate.
  - split; discriminate.
Qed.

Definition ep_of (op : operation) (ps : list piece) (verb : str) (m : op_method) (h : hooks)
    (ops : world_ops nat) (args : list (op_param * option value)) : episode (N * list N) nat :=
  let '(f, tr, w) := run (N * list N) x_ctx x_fs nat ops (body_of h m) (variables args) O in
  Episode _ _ x_snake x_pascal x_ts x_comps op ps verb [] h m (body_of h m) x_ctx x_fs ops args O f tr w.

Lemma ep_of_happens op ps verb m h ops args :
  generated x_snake x_pascal x_ts x_comps op ps verb [] h m (body_of h m) -> callable x_ctx m args ->
  happens (ep_of op ps verb m h ops args).
Proof.
  intros G Hc. unfold ep_of. destruct (run _ _ _ _ _ _ _ _) as [[f tr] w] eqn:E. split; auto.
Qed.

(** A form that cannot be encoded (a list of lists), one that can, and a JSON
    body that cannot. *)
Definition y_args : list (op_param * option value) :=
  [(y_body, Some (Value [] (VMap [(VStr (lit "u"), VStr (lit "a b"))]) None []))].
Definition y_args_bad : list (op_param * option value) :=
  [(y_body, Some (Value [] (VSeq [VSeq []]) None []))].
Definition x_args_json : list (op_param * option value) :=
  [(x_id, Some (x_value (lit "a/b"))); (x_q, None); (x_trace, None);
   (x_body, Some (Value [] VUnit None []))].

Example y_callable : callable x_ctx y_m y_args.
Proof.
  split.
  - split; auto. repeat constructor; cbn; easy.
  - split; [discriminate|]. repeat constructor; discriminate.
  - intros u p q hs [= <- <- <-] n. discriminate.
Qed.
Example y_callable_bad : callable x_ctx y_m y_args_bad.
Proof.
  split.
  - split; auto. repeat constructor; cbn; easy.
  - split; [discriminate|]. repeat constructor; discriminate.
  - intros u p q hs [= <- <- <-] n. discriminate.
Qed.
Example z_callable : callable x_ctx z_m [].
Proof.
  split.
  - split; auto.
  - split; [discriminate|]. repeat constructor; discriminate.
  - intros u p q hs [= <- <- <-] n. discriminate.
Qed.
Example x_callable_json : callable x_ctx x_m x_args_json.
Proof. apply x_callable_gen; auto. repeat constructor; cbn; easy. Qed.

Example y_tabulates : response_table x_pascal x_ts x_comps y_op false [(SCode 204, RNone)].
Proof. eapply computed_table; reflexivity. Qed.
Example z_tabulates : response_table x_pascal x_ts x_comps z_op false [(SCode 404, RRaw)].
Proof. eapply computed_table; reflexivity. Qed.

Lemma ep_of_documents op ps verb m h ops args t :
  response_table x_pascal x_ts x_comps op (m_websocket m) t -> documents (ep_of op ps verb m h ops args) t.
Proof. intro T. unfold documents, ep_of. destruct (run _ _ _ _ _ _ _ _) as [[f tr] w]. exact T. Qed.

(** GET /moved, which documents 200 as JSON and 304 as JSON. *)
Definition u_op : operation := Operation (Some (lit "moved")) [] None None [] None None
  [(ScCode 200, Item (x_json (Item x_string))); (ScCode 304, Item (x_json (Item x_string)))] [].
Definition u_pieces : list piece := map PLit (lit "/moved").
Definition u_m : op_method :=
  OpMethod (lit "moved") [] Get [CConst (lit "/moved")] None None []
    [OpResponse (SCode 200) (RType 2); OpResponse (SCode 304) (RType 2)] None false.
Example u_generated : forall h,
  generated x_snake x_pascal x_ts x_comps u_op u_pieces (lit "get") [] h u_m (body_of h u_m).
Proof.
  intro h. split.
  - split; [now exists (map PLit (lit "moved"))|]. literal_pieces.
  - reflexivity.
  - reflexivity.
  - repeat constructor; cbn; intuition discriminate.
  - repeat constructor; discriminate.
  - right. repeat constructor; discriminate.
  - split; discriminate.
Qed.
Example u_tabulates : response_table x_pascal x_ts x_comps u_op false [(SCode 200, RType 2); (SCode 304, RType 2)].
Proof. eapply computed_table; reflexivity. Qed.
Example u_callable : callable x_ctx u_m [].
Proof.
  split.
  - split; auto.
  - split; [discriminate|]. repeat constructor; discriminate.
  - intros u p q hs [= <- <- <-] n. discriminate.
Qed.

(** GET /ws, a websocket operation with a JSON default response. *)
Definition w_op : operation := Operation (Some (lit "ws")) [] None None [] None
  (Some (Item (ResponseDoc []))) [] [(lit "x-dropshot-websocket", JObj [])].
Definition w_pieces : list piece := map PLit (lit "/ws").
Definition w_m : op_method :=
  OpMethod (lit "ws") [] Get [CConst (lit "/ws")] None None []
    [OpResponse SDefault RUpgrade; OpResponse (SCode 101) RUpgrade] None true.
Example w_generated : forall h,
  generated x_snake x_pascal x_ts x_comps w_op w_pieces (lit "get") [] h w_m (body_of h w_m).
Proof.
  intro h. split.
  - split; [now exists (map PLit (lit "ws"))|]. literal_pieces.
  - reflexivity.
  - reflexivity.
  - repeat constructor; cbn; intuition discriminate.
  - repeat constructor; discriminate.
  - right. repeat constructor; discriminate.
  - split; discriminate.
Qed.
Example w_tabulates : response_table x_pascal x_ts x_comps w_op true [(SDefault, RUpgrade)].
Proof. eapply computed_table; reflexivity. Qed.
Example w_callable : callable x_ctx w_m [].
Proof.
  split.
  - split; auto.
  - split; [discriminate|]. repeat constructor; discriminate.
  - intros u p q hs [= <- <- <-] n. discriminate.
Qed.

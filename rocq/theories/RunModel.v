(** Meaning of the generated method body: an interpreter for the statements of
    [MethodModel] (the code quoted at progenitor-impl/src/method.rs:1086-1145)
    over a model of reqwest 0.12's [RequestBuilder] and of the client's
    surroundings. *)
From Verif Require Import Base Utf8 SerdeModel EncodeModel HeaderModel ClientModel TemplateModel MethodModel.
Local Open Scope N_scope.

(** A caller-supplied argument: its [to_string()] text, its serde value, its
    [serde_json::to_vec] encoding (or failure), and its bytes when it is a
    [reqwest::Body] or [String] body (method.rs:559-593). *)
Record value := Value {
  v_text : str; v_serde : sval; v_json : option (list N); v_bytes : list N }.

(** A [reqwest::Request]: method, URL without query, query, headers, body (method.rs:1092-1099). *)
Record request := Request {
  q_method : http_method;
  q_url : str;
  q_query : option str;
  q_headers : hmap;
  q_body : option (list N) }.

(** What the surroundings of a client determine: URL parsing as done by
    [reqwest::Client::request] (URL without query, query, and the headers it
    derives from user info in the URL), the errors of failed serialization,
    the client's base URL and API version, and the websocket key drawn for
    this call (method.rs:1092-1105, lib.rs:441-493). *)
Record context := Context {
  c_base_url : str;
  c_api_version : str;
  c_parse_url : str -> result (str * option str * hmap) rerr;
  c_query_error : rerr;
  c_json_error : rerr;
  c_websocket_key : list N }.

(** Hooks and transport as arbitrary functions over a world state (method.rs:1057-1105). *)
Record world_ops (W : Type) := WorldOps {
  w_pre : request -> W -> W;
  w_pre_async : request -> W -> result request str * W;
  w_execute : request -> W -> result response rerr * W;
  w_post : result response rerr -> W -> W;
  w_post_async : result response rerr -> W -> option str * W }.
Arguments w_pre {W}.
Arguments w_pre_async {W}.
Arguments w_execute {W}.
Arguments w_post {W}.
Arguments w_post_async {W}.

(** What a method did, in order; sending is recorded with its outcome (method.rs:1101-1107). *)
Inductive event :=
| EPre (r : request)
| EPreAsync (r : request)
| ESend (r : request) (res : result response rerr)
| EPost (r : result response rerr)
| EPostAsync (r : result response rerr).

(** The inner value of a response, by kind (progenitor_client.rs:55-60). *)
Inductive inner (V : Type) :=
| IVal (v : V)
| IUnit
| IStream (s : list (result (list N) rerr))
| IUpgraded (c : N).
Arguments IVal {V}.
Arguments IUnit {V}.
Arguments IStream {V}.
Arguments IUpgraded {V}.

(** Bindings of the local variables (method.rs:559-593). *)
Inductive binding :=
| BVal (v : value)                       (* required argument *)
| BOpt (v : option value)                (* optional argument *)
| BUrl (s : str)
| BHeaders (h : hmap)
| BRequest (r : request)
| BResult (r : result response rerr)
| BResponse (r : response).
(** method.rs:559-593. *)
Notation locals_env := (list (prod (list N) binding)) (only parsing).

(** Evaluating a piece of generated code: a value, an early return of an
    error, a panic, or code that does not compile (method.rs:1086-1145). *)
Inductive ev (E A : Type) :=
| Val (a : A)
| Ret (e : cerror E)
| Pan (msg : str)
| Ill.
Arguments Val {E A}.
Arguments Ret {E A}.
Arguments Pan {E A}.
Arguments Ill {E A}.

(** method.rs:1086-1145. *)
Definition ebind {E A B} (x : ev E A) (f : A -> ev E B) : ev E B :=
  match x with Val a => f a | Ret e => Ret e | Pan m => Pan m | Ill => Ill end.

Section Run.
Variable V : Type.
Variable ctx : context.
(** [serde_json::from_slice] at a generated type. *)
Variable from_slice : type_id -> list N -> result V jerr.

(** progenitor_client.rs:55-60. *)
Notation I := (inner V).
(** progenitor_client.rs:55-60. *)
Notation E := (inner V).

(** The [to_string()] text of the arguments used in the URL expression
    (template.rs:40-42); only required arguments have one. *)
Fixpoint arg_texts (env : locals_env) (args : list str) : option (list str) :=
  match args with
  | [] => Some []
  | a :: r =>
      match assoc a env, arg_texts env r with
      | Some (BVal v), Some ts => Some (v_text v :: ts)
      | _, _ => None
      end
  end.

(** template.rs:40-42: a variable called [encode_path] takes the place of the function. *)
Definition calls_variable (env : locals_env) (u : url_expr) : bool :=
  match ue_args u, assoc (lit "encode_path") env with _ :: _, Some _ => true | _, _ => false end.

(** template.rs:48-50: [format!(fmt, client.baseurl, encode_path(&a.to_string()), ..)]. *)
Definition eval_url_expr (env : locals_env) (u : url_expr) : ev E str :=
  if calls_variable env u then Ill
  else
    match arg_texts env (ue_args u) with
    | None => Ill
    | Some ts =>
        match format_macro (ue_fmt u) (c_base_url ctx :: map encode_path ts) with
        | Some s => Val s
        | None => Ill
        end
    end.

(** [header_map.append(name, text.try_into()?)]: the value is converted
    first, an invalid static name panics (method.rs:809-812, 817-820). *)
Definition append_header (h : hmap) (hn : str) (text : str) : ev E hmap :=
  match header_value text with
  | None => Ret from_invalid_header
  | Some v =>
      match header_name hn with
      | Some n => Val (h_append n v h)
      | None => Pan (lit "static str is invalid name")
      end
  end.

(** method.rs:807-823, one header statement. *)
Definition eval_header_stmt (env : locals_env) (h : hmap) (s : header_stmt) : ev E hmap :=
  match s with
  | HRequired hn x =>
      match assoc x env with
      | Some (BVal v) => append_header h hn (v_text v)
      | _ => Ill
      end
  | HOptional hn x =>
      match assoc x env with
      | Some (BOpt (Some v)) => append_header h hn (v_text v)
      | Some (BOpt None) => Val h
      | _ => Ill
      end
  end.

(** method.rs:831-839, the statements in order. *)
Fixpoint eval_header_stmts (env : locals_env) (h : hmap) (l : list header_stmt) : ev E hmap :=
  match l with
  | [] => Val h
  | s :: r => ebind (eval_header_stmt env h s) (fun h' => eval_header_stmts env h' r)
  end.

(** method.rs:831-839.  The statements see the map under the name
    [header_map]. *)
Definition eval_headers (env : locals_env) (l : list header_stmt) : ev E hmap :=
  match header_value_static (c_api_version ctx) with
  | None => Pan (lit "invalid header value")
  | Some v =>
      let h := h_append (lit "api-version") v [] in
      eval_header_stmts ((lit "header_map", BHeaders h) :: env) h l
  end.

(** reqwest::RequestBuilder::header on a builder that may be in error (method.rs:847-857, 887, 899, 1031). *)
Definition rb_header (name : str) (v : list N) (b : result request rerr) : result request rerr :=
  match b with
  | ROk r => ROk (Request (q_method r) (q_url r) (q_query r) (h_append name v (q_headers r)) (q_body r))
  | RErr e => RErr e
  end.

(** reqwest::RequestBuilder::body (method.rs:891, 903). *)
Definition rb_body (bytes : list N) (b : result request rerr) : result request rerr :=
  match b with
  | ROk r => ROk (Request (q_method r) (q_url r) (q_query r) (q_headers r) (Some bytes))
  | RErr e => RErr e
  end.

(** reqwest::RequestBuilder::json (method.rs:910). *)
Definition rb_json (v : value) (b : result request rerr) : result request rerr :=
  match b with
  | ROk r =>
      match v_json v with
      | None => RErr (c_json_error ctx)
      | Some bytes =>
          let h := if h_contains (lit "content-type") (q_headers r) then q_headers r
                   else h_set (lit "content-type") [utf8 (lit "application/json")] (q_headers r) in
          ROk (Request (q_method r) (q_url r) (q_query r) h (Some bytes))
      end
  | RErr e => RErr e
  end.

(** reqwest::RequestBuilder::query (method.rs:1096). *)
Definition rb_query (ps : option (list kvpair)) (b : result request rerr) : result request rerr :=
  match b with
  | ROk r =>
      match request_query (q_query r) ps with
      | Some q => ROk (Request (q_method r) (q_url r) q (q_headers r) (q_body r))
      | None => RErr (c_query_error ctx)
      end
  | RErr e => RErr e
  end.

(** reqwest::RequestBuilder::headers (method.rs:842). *)
Definition rb_headers (h : hmap) (b : result request rerr) : result request rerr :=
  match b with
  | ROk r => ROk (Request (q_method r) (q_url r) (q_query r) (h_replace (q_headers r) h) (q_body r))
  | RErr e => RErr e
  end.

(** The serde value of an argument variable passed to [QueryParam::new] (method.rs:793). *)
Definition arg_serde (env : locals_env) (x : str) : option sval :=
  match assoc x env with
  | Some (BVal v) => Some (v_serde v)
  | Some (BOpt (Some v)) => Some (VSome (v_serde v))
  | Some (BOpt None) => Some VNone
  | _ => None
  end.

(** method.rs:891, 903, 910, 918. *)
Definition arg_body (env : locals_env) : option value :=
  match assoc (lit "body") env with Some (BVal v) => Some v | _ => None end.

(** One call of the chain 1092-1098; [form_urlencoded] is
    progenitor_client.rs:433-445. *)
Definition eval_call (env : locals_env) (b : result request rerr) (c : chain_call)
  : ev E (result request rerr) :=
  match c with
  | CAcceptJson => Val (rb_header (lit "accept") (utf8 (lit "application/json")) b)
  | CContentTypeBody mime =>
      match header_value_static mime, arg_body env with
      | _, None => Ill
      | None, _ => Pan (lit "invalid header value")
      | Some m, Some v => Val (rb_body (v_bytes v) (rb_header (lit "content-type") m b))
      end
  | CJson => match arg_body env with Some v => Val (rb_json v b) | None => Ill end
  | CForm =>
      match arg_body env with
      | None => Ill
      | Some v =>
          match urlencoded_to_string (v_serde v) with
          | None => Ret (InvalidRequest (lit "failed to serialize body"))
          | Some t =>
              Val (rb_body (utf8 t)
                    (rb_header (lit "content-type") (utf8 (lit "application/x-www-form-urlencoded")) b))
          end
      end
  | CQuery api_name x =>
      match arg_serde env x with
      | Some s => Val (rb_query (query_param api_name s) b)
      | None => Ill
      end
  | CHeaders =>
      match assoc (lit "header_map") env with
      | Some (BHeaders h) => Val (rb_headers h b)
      | _ => Ill
      end
  | CWebsocket =>
      Val (rb_header (lit "sec-websocket-key") (c_websocket_key ctx)
          (rb_header (lit "sec-websocket-version") (utf8 (lit "13"))
          (rb_header (lit "upgrade") (utf8 (lit "websocket"))
          (rb_header (lit "connection") (utf8 (lit "Upgrade")) b))))
  end.

(** method.rs:1092-1098, the calls in order. *)
Fixpoint eval_calls (env : locals_env) (b : result request rerr) (l : list chain_call)
  : ev E (result request rerr) :=
  match l with
  | [] => Val b
  | c :: r => ebind (eval_call env b c) (fun b' => eval_calls env b' r)
  end.

(** The methods of [reqwest::Client] that start a request: there are none for OPTIONS and TRACE
    (method.rs:1084, 1092-1093). *)
Definition client_starts (m : http_method) : bool :=
  match m with Options | Trace => false | _ => true end.

(** method.rs:1092-1099: [client.METHOD(url)...build()?]. *)
Definition eval_request (env : locals_env) (m : http_method) (url : str) (l : list chain_call)
  : ev E request :=
  if negb (client_starts m) then Ill
  else
  match assoc url env with
  | Some (BUrl u) =>
      let b := match c_parse_url ctx u with
               | ROk (p, q, h) => ROk (Request m p q h None)
               | RErr e => RErr e
               end in
      ebind (eval_calls env b l)
            (fun b => match b with ROk r => Val r | RErr e => Ret (from_reqwest e) end)
  | _ => Ill
  end.

(** Decoding a response at the method's declared type (method.rs:940-961). *)
Definition eval_decode (k : resp_kind) (d : decode) (r : response) : option (result (rvalue I) (cerror E)) :=
  match d, k with
  | DFromResponse, RType t =>
      Some (match from_response (from_slice t) r with
            | ROk v => ROk (RValue (IVal (rv_inner v)) (rv_status v) (rv_headers v))
            | RErr e => RErr e
            end)
  | DEmpty, RNone => Some (ROk (RValue IUnit (rv_status (empty r)) (rv_headers (empty r))))
  | DStream, RRaw =>
      Some (ROk (RValue (IStream (rv_inner (stream r))) (rv_status (stream r)) (rv_headers (stream r))))
  | DUpgrade, RUpgrade =>
      Some (match upgrade r with
            | ROk v => ROk (RValue (IUpgraded (rv_inner v)) (rv_status v) (rv_headers v))
            | RErr e => RErr e
            end)
  | _, _ => None
  end.

(** method.rs:933-938, 971-984. *)
Definition pat_matches (p : pat) (n : N) : bool :=
  match p with
  | PatCode c => n =? c
  | PatRange lo hi => (lo <=? n) && (n <=? hi)
  | PatAny => true
  end.

(** First matching arm (method.rs:1111-1144). *)
Fixpoint select (arms : list arm) (n : N) : option rhs :=
  match arms with
  | [] => None
  | (p, r) :: rest => if pat_matches p n then Some r else select rest n
  end.

(** method.rs:986-1019. *)
Definition eval_rhs (sk ek : resp_kind) (x : rhs) (r : response) : option (result (rvalue I) (cerror E)) :=
  match x with
  | RhsOk d => eval_decode sk d r
  | RhsErr d =>
      match eval_decode ek d r with
      | Some (ROk v) => Some (RErr (ErrorResponse v))
      | Some (RErr e) => Some (RErr e)
      | None => None
      end
  | RhsUnexpected => Some (RErr (UnexpectedResponse r))
  end.

(** Result of a whole call: what the method returns, or a panic, or code that
    does not compile; with the events and the final world (method.rs:1086-1145). *)
Inductive final :=
| Returned (r : result (rvalue I) (cerror E))
| Panicked (msg : str)
| DoesNotCompile.

Section World.
Variable W : Type.
Variable ops : world_ops W.

(** method.rs:1086-1145. *)
Fixpoint exec (sk ek : resp_kind) (prog : list stmt) (env : locals_env) (tr : list event) (w : W)
  : final * list event * W :=
  match prog with
  | [] => (DoesNotCompile, tr, w)
  | s :: rest =>
      match s with
      | SLetUrl x e =>
          match eval_url_expr env e with
          | Val u => exec sk ek rest ((x, BUrl u) :: env) tr w
          | Ret e => (Returned (RErr e), tr, w)
          | Pan m => (Panicked m, tr, w)
          | Ill => (DoesNotCompile, tr, w)
          end
      | SLetHeaders l =>
          match eval_headers env l with
          | Val h => exec sk ek rest ((lit "header_map", BHeaders h) :: env) tr w
          | Ret e => (Returned (RErr e), tr, w)
          | Pan m => (Panicked m, tr, w)
          | Ill => (DoesNotCompile, tr, w)
          end
      | SLetRequest x m url calls =>
          match eval_request env m url calls with
          | Val r => exec sk ek rest ((x, BRequest r) :: env) tr w
          | Ret e => (Returned (RErr e), tr, w)
          | Pan m => (Panicked m, tr, w)
          | Ill => (DoesNotCompile, tr, w)
          end
      | SPreHook x =>
          match assoc x env with
          | Some (BRequest r) => exec sk ek rest env (tr ++ [EPre r]) (w_pre ops r w)
          | _ => (DoesNotCompile, tr, w)
          end
      | SPreHookAsync x =>
          match assoc x env with
          | Some (BRequest r) =>
              match w_pre_async ops r w with
              | (ROk r', w') => exec sk ek rest ((x, BRequest r') :: env) (tr ++ [EPreAsync r]) w'
              | (RErr m, w') => (Returned (RErr (PreHookError m)), tr ++ [EPreAsync r], w')
              end
          | _ => (DoesNotCompile, tr, w)
          end
      | SLetExecute x q =>
          match assoc q env with
          | Some (BRequest r) =>
              let '(res, w') := w_execute ops r w in
              exec sk ek rest ((x, BResult res) :: env) (tr ++ [ESend r res]) w'
          | _ => (DoesNotCompile, tr, w)
          end
      | SPostHook x =>
          match assoc x env with
          | Some (BResult r) => exec sk ek rest env (tr ++ [EPost r]) (w_post ops r w)
          | _ => (DoesNotCompile, tr, w)
          end
      | SPostHookAsync x =>
          match assoc x env with
          | Some (BResult r) =>
              match w_post_async ops r w with
              | (None, w') => exec sk ek rest env (tr ++ [EPostAsync r]) w'
              | (Some m, w') => (Returned (RErr (PostHookError m)), tr ++ [EPostAsync r], w')
              end
          | _ => (DoesNotCompile, tr, w)
          end
      | SLetTry x res =>
          match assoc res env with
          | Some (BResult (ROk r)) => exec sk ek rest ((x, BResponse r) :: env) tr w
          | Some (BResult (RErr e)) => (Returned (RErr (from_reqwest e)), tr, w)
          | _ => (DoesNotCompile, tr, w)
          end
      | SMatch x arms =>
          match assoc x env with
          | Some (BResponse r) =>
              match select arms (r_status r) with
              | Some a =>
                  match eval_rhs sk ek a r with
                  | Some v => (Returned v, tr, w)
                  | None => (DoesNotCompile, tr, w)
                  end
              | None => (DoesNotCompile, tr, w)
              end
          | _ => (DoesNotCompile, tr, w)
          end
      end
  end.

(** The environment of a positional method call: one variable per parameter
    (method.rs:559-593 and 614-625). *)
Definition run (sb : sig_body) (args : locals_env) (w : W) : final * list event * W :=
  exec (sb_success sb) (sb_error sb) (sb_body sb) args [] w.
End World.
End Run.
Arguments Returned {V}.
Arguments Panicked {V}.
Arguments DoesNotCompile {V}.

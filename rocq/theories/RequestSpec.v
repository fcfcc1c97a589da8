(** What a generated method must send and do, given its arguments. *)
From Verif Require Import Base Utf8 SerdeModel EncodeModel HeaderModel ClientModel MethodModel RunModel
  TemplateSpec ResponseSpec.
Local Open Scope N_scope.

(** The arguments of a call: every parameter with its value, absent for an
    optional parameter that is not given. *)
Notation arguments := (list (prod op_param (option value))) (only parsing).

Definition required_param (p : op_param) : Prop :=
  match p_kind p with KPath | KBody _ => True | KQuery r | KHeader r => r = true end.

(** The local variables of the method when it starts. *)
Definition variables (args : arguments) : list (str * binding) :=
  map (fun pv => (p_name (fst pv),
                  match snd pv with
                  | Some v => if is_optional (p_kind (fst pv)) then BOpt (Some v) else BVal v
                  | None => BOpt None
                  end)) args.

(** Arguments for the parameters [ps]; required ones are there. *)
Definition arguments_for (ps : list op_param) (args : arguments) : Prop :=
  map fst args = ps /\ Forall (fun pv => required_param (fst pv) -> snd pv <> None) args.

(** Parameters as [process_operation] makes them: distinct names, path
    parameters with distinct API names, the body called [body] and of a
    supported media type. *)
Definition well_named (ps : list op_param) : Prop :=
  NoDup (map p_name ps) /\
  NoDup (map p_api_name (filter (fun p => match p_kind p with KPath => true | _ => false end) ps)) /\
  Forall (fun p => match p_kind p with
                   | KBody ct =>
                       p_name p = lit "body" /\
                       match ct with
                       | Text mime => mime = lit "text/plain" \/ mime = lit "text/x-markdown"
                       | _ => True
                       end
                   | _ => True
                   end) ps.

(** No parameter other than a path parameter is called [header_map]. *)
Definition no_header_map (ps : list op_param) : Prop :=
  Forall (fun p => match p_kind p with KPath => True | _ => p_name p <> lit "header_map" end) ps.

(** No parameter is called like the function [encode_path], if that is needed: the path has a placeholder. *)
Definition no_encode_path (path : list piece) (ps : list op_param) : Prop :=
  vars path = [] \/ Forall (fun p => p_name p <> lit "encode_path") ps.

(** The HTTP methods that reqwest's client has a method for. *)
Definition startable (m : http_method) : Prop := m <> Options /\ m <> Trace.

(** ** URL *)

(** The value of each placeholder: the percent-encoded text of its argument. *)
Definition path_values (args : arguments) (val : str -> str) : Prop :=
  forall p v, In (p, Some v) args -> p_kind p = KPath -> val (p_api_name p) = encode_path (v_text v).

(** ** Headers *)

Definition lower (c : N) : N := if (65 <=? c) && (c <=? 90) then c + 32 else c.
Definition lower_name (s : str) : str := map lower s.

(** Present header parameters: API name and text, in parameter order. *)
Definition present_headers (args : arguments) : list (str * str) :=
  flat_map (fun pv => match p_kind (fst pv), snd pv with
                      | KHeader _, Some v => [(p_api_name (fst pv), v_text v)]
                      | _, _ => []
                      end) args.

(** The values the header parameters (and the API version) give to [n]. *)
Definition own_values (api_version : str) (args : arguments) (n : str) : list (list N) :=
  (if str_eqb n (lit "api-version") then [utf8 api_version] else [])
  ++ flat_map (fun ht => if str_eqb (lower_name (fst ht)) n then [utf8 (snd ht)] else [])
       (present_headers args).

Definition body_argument (args : arguments) : option (body_content_type * value) :=
  fold_right (fun pv acc => match p_kind (fst pv), snd pv with
                            | KBody ct, Some v => Some (ct, v)
                            | _, _ => acc
                            end) None args.

(** The media type sent with each kind of body. *)
Definition media_of (ct : body_content_type) : str :=
  match ct with
  | OctetStream => lit "application/octet-stream"
  | Json => lit "application/json"
  | FormUrlencoded => lit "application/x-www-form-urlencoded"
  | Text mime => mime
  end.

(** The bytes sent for a body value. *)
Inductive body_encoded : body_content_type -> value -> list N -> Prop :=
| be_octets v : body_encoded OctetStream v (v_bytes v)
| be_text mime v : body_encoded (Text mime) v (v_bytes v)
| be_json v b : v_json v = Some b -> body_encoded Json v b
| be_form v t : urlencoded_to_string (v_serde v) = Some t -> body_encoded FormUrlencoded v (utf8 t).

(** JSON is asked for when the success body is typed, or when there is no
    success body and the error body is typed. *)
Definition wants_json (success error : resp_kind) : bool :=
  match success, error with
  | RType _, _ => true
  | RNone, RType _ => true
  | _, _ => false
  end.

(** The values of [n] that come from the operation rather than from header
    parameters. *)
Definition other_values (url_headers : hmap) (success error : resp_kind) (args : arguments) (n : str)
  : list (list N) :=
  h_values n url_headers
  ++ (if str_eqb n (lit "accept") && wants_json success error then [utf8 (lit "application/json")] else [])
  ++ (if str_eqb n (lit "content-type")
      then match body_argument args with Some (ct, _) => [utf8 (media_of ct)] | None => [] end
      else []).

(** The websocket handshake headers. *)
Definition handshake_values (ws : bool) (key : list N) (n : str) : list (list N) :=
  if ws then
    if str_eqb n (lit "connection") then [utf8 (lit "Upgrade")]
    else if str_eqb n (lit "upgrade") then [utf8 (lit "websocket")]
    else if str_eqb n (lit "sec-websocket-version") then [utf8 (lit "13")]
    else if str_eqb n (lit "sec-websocket-key") then [key]
    else []
  else [].

(** All values of the header [n] (lower case) of the request: header
    parameters override what the operation itself sets. *)
Definition header_values (api_version : str) (url_headers : hmap) (ws : bool) (key : list N)
    (success error : resp_kind) (args : arguments) (n : str) : list (list N) :=
  match own_values api_version args n with
  | [] => other_values url_headers success error args n
  | own => own
  end ++ handshake_values ws key n.

(** Every header parameter has a legal name, and the API version is legal. *)
Definition legal_names (ctx : context) (ps : list op_param) : Prop :=
  header_value_static (c_api_version ctx) <> None /\
  Forall (fun p => match p_kind p with KHeader _ => header_name (p_api_name p) <> None | _ => True end) ps.

(** The query arguments, by API name, in parameter order. *)
Definition query_arguments (args : arguments) : list (str * sval) :=
  flat_map (fun pv => match p_kind (fst pv), snd pv with
                      | KQuery false, Some v => [(p_api_name (fst pv), VSome (v_serde v))]
                      | KQuery true, Some v => [(p_api_name (fst pv), v_serde v)]
                      | KQuery _, None => [(p_api_name (fst pv), VNone)]
                      | _, _ => []
                      end) args.

(** ** The request *)

Record is_request (ctx : context) (m : op_method) (success error : resp_kind) (ps : list piece)
    (args : arguments) (q : request) : Prop := IsRequest {
  rq_method : q_method q = m_method m;
  rq_url : forall val, path_values args val ->
    exists path query url_headers,
      c_parse_url ctx (c_base_url ctx ++ expand val (squeeze_pieces false ps))
        = ROk (path, query, url_headers) /\
      q_url q = path /\
      (query = None -> send_queries (query_arguments args) = Some (q_query q)) /\
      (h_contains (lit "content-type") url_headers = false ->
       forall n, h_values n (q_headers q) =
         header_values (c_api_version ctx) url_headers (m_websocket m) (c_websocket_key ctx)
           success error args n);
  rq_body : match body_argument args with
            | Some (ct, v) => exists b, body_encoded ct v b /\ q_body q = Some b
            | None => q_body q = None
            end }.

(** ** Hooks and sending *)

Section Hooks.
Context {W : Type} (h : hooks) (ops : world_ops W).

(** The synchronous hooks, when configured, see the request (the outcome). *)
Definition pre_events (q : request) : list event := if has_pre_hook h then [EPre q] else [].
Definition after_pre (q : request) (w : W) : W := if has_pre_hook h then w_pre ops q w else w.
Definition post_events (res : result response rerr) : list event :=
  if has_post_hook h then [EPost res] else [].
Definition after_post (res : result response rerr) (w : W) : W :=
  if has_post_hook h then w_post ops res w else w.

(** [prepared q w q' tr w']: after the pre-hooks the request to send is [q']. *)
Inductive prepared (q : request) (w : W) : request -> list event -> W -> Prop :=
| pr_sync : has_pre_hook_async h = false -> prepared q w q (pre_events q) (after_pre q w)
| pr_async q' w' : has_pre_hook_async h = true ->
    w_pre_async ops q (after_pre q w) = (ROk q', w') ->
    prepared q w q' (pre_events q ++ [EPreAsync q]) w'.

(** [observed res w tr w']: the post-hooks have seen the outcome. *)
Inductive observed (res : result response rerr) (w : W) : list event -> W -> Prop :=
| ob_sync : has_post_hook_async h = false -> observed res w (post_events res) (after_post res w)
| ob_async w' : has_post_hook_async h = true ->
    w_post_async ops res (after_post res w) = (None, w') ->
    observed res w (post_events res ++ [EPostAsync res]) w'.

(** A call of a method whose request is [q]: the pre-hook sees it, the async
    pre-hook may change or veto it, it is sent once, the post-hooks see the
    outcome, and the async post-hook may replace it. *)
Inductive call {R E} (interpret : result response rerr -> result R (cerror E) -> Prop)
    (q : request) (w : W) : result R (cerror E) -> list event -> W -> Prop :=
| call_vetoed msg w' :
    has_pre_hook_async h = true ->
    w_pre_async ops q (after_pre q w) = (RErr msg, w') ->
    call interpret q w (RErr (PreHookError msg)) (pre_events q ++ [EPreAsync q]) w'
| call_overruled q' tr w1 res w2 msg w' :
    prepared q w q' tr w1 -> w_execute ops q' w1 = (res, w2) ->
    has_post_hook_async h = true ->
    w_post_async ops res (after_post res w2) = (Some msg, w') ->
    call interpret q w (RErr (PostHookError msg))
      (tr ++ [ESend q' res] ++ post_events res ++ [EPostAsync res]) w'
| call_completed q' tr1 w1 res w2 tr2 w' out :
    prepared q w q' tr1 w1 -> w_execute ops q' w1 = (res, w2) ->
    observed res w2 tr2 w' -> interpret res out ->
    call interpret q w out (tr1 ++ [ESend q' res] ++ tr2) w'.
End Hooks.

(** Interpretation of the outcome of sending: a transport failure is a
    communication error, a response is treated as its status requires. *)
Inductive interpreted {V} (fs : type_id -> list N -> result V jerr) (ws : bool)
    (t : list (resp_status * resp_kind))
  : result response rerr -> result (rvalue (inner V)) (cerror (inner V)) -> Prop :=
| in_transport e : interpreted fs ws t (RErr e) (RErr (CommunicationError e))
| in_response r a out : expected ws t (r_status r) a -> meaning fs r a out ->
    interpreted fs ws t (ROk r) out.

(** ** When no request can be built *)

(** The text of some present header parameter is not a legal header value. *)
Definition illegal_header (args : arguments) : Prop :=
  exists ht, In ht (present_headers args) /\
             ~ Forall (fun b => b = 9 \/ (32 <= b /\ b <> 127)) (utf8 (snd ht)).

(** The body cannot be encoded. *)
Definition bad_form (args : arguments) : Prop :=
  exists v, body_argument args = Some (FormUrlencoded, v) /\ urlencoded_to_string (v_serde v) = None.
Definition bad_json (args : arguments) : Prop :=
  exists v, body_argument args = Some (Json, v) /\ v_json v = None.

(** Some query argument cannot be encoded. *)
Definition bad_query (args : arguments) : Prop :=
  exists kv, In kv (query_arguments args) /\ query_param (fst kv) (snd kv) = None.

(** Every argument can be encoded. *)
Definition encodable (args : arguments) : Prop :=
  ~ illegal_header args /\ ~ bad_form args /\ ~ bad_json args /\ ~ bad_query args.

(** The reasons, and the error reported for each. *)
Inductive refused {E} (ctx : context) (ps : list piece) (args : arguments) : cerror E -> Prop :=
| rf_header : illegal_header args ->
    refused ctx ps args (InvalidRequest (lit "failed to parse header value"))
| rf_form : ~ illegal_header args -> bad_form args ->
    refused ctx ps args (InvalidRequest (lit "failed to serialize body"))
| rf_url val e : path_values args val ->
    c_parse_url ctx (c_base_url ctx ++ expand val (squeeze_pieces false ps)) = RErr e ->
    ~ illegal_header args -> ~ bad_form args ->
    refused ctx ps args (CommunicationError e)
| rf_json : ~ illegal_header args -> bad_json args ->
    refused ctx ps args (CommunicationError (c_json_error ctx))
| rf_query : ~ illegal_header args -> ~ bad_form args -> ~ bad_json args -> bad_query args ->
    refused ctx ps args (CommunicationError (c_query_error ctx)).

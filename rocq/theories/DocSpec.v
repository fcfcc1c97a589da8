(** Operations of a document, the methods generated for them, and calls. *)
From Verif Require Import Base OasModel HeaderModel ClientModel TemplateModel TemplateSpec MethodModel OpModel RunModel
  RefSpec ResponseSpec RequestSpec ParamSpec.
Local Open Scope N_scope.

(** The method [m] with body [sb] is generated for the operation [op] at the
    path with pieces [ps].  The last four conditions are what it takes for the
    generated code to mean what it says: parameter names that stay distinct
    when turned into identifiers, none of them [header_map] or [encode_path],
    and an HTTP method known to reqwest's client. *)
Record generated (snake pascal : str -> str) (ts : type_space) (comps : option components)
    (op : operation) (ps : list piece) (method : str) (pp : list (ref_or parameter)) (h : hooks)
    (m : op_method) (sb : sig_body) : Prop := Generated {
  g_strict : strict ps;
  g_process : process_operation snake pascal ts op comps (show ps) method pp = Ok m;
  g_method : method_sig_body h m = Ok sb;
  g_names : NoDup (map p_name (m_params m));
  g_header_map : no_header_map (m_params m);
  g_encode_path : no_encode_path ps (m_params m);
  g_startable : startable (m_method m) }.

(** The only header reqwest derives from a URL. *)
Definition url_headers_ok (ctx : context) : Prop :=
  forall u p q hs, c_parse_url ctx u = ROk (p, q, hs) ->
  forall n, h_contains n hs = true -> n = lit "authorization".

(** A call with legal header names and one value per parameter. *)
Record callable (ctx : context) (m : op_method) (args : arguments) : Prop := Callable {
  c_args : arguments_for (m_params m) args;
  c_legal : legal_names ctx (m_params m);
  c_url_headers : url_headers_ok ctx }.

(** The documented responses of the operation. *)
Definition response_table (pascal : str -> str) (ts : type_space) (comps : option components)
    (op : operation) (ws : bool) (t : list (resp_status * resp_kind)) : Prop :=
  exists oid, op_id op = Some oid /\ tabulates ts (pascal (oid ++ lit "-response")) ws comps op t.

(** The request a call started from: the one the first event is about. *)
Definition first_request (tr : list event) (q : request) : Prop :=
  exists rest, tr = EPre q :: rest \/ tr = EPreAsync q :: rest \/ exists res, tr = ESend q res :: rest.

Definition is_send (e : event) : bool := match e with ESend _ _ => true | _ => false end.
Definition sends (tr : list event) : list event := filter is_send tr.

(** The media type text [cs] of a request body names the type [t]: equal to
    it up to parameters after the first ';'. *)
Definition names_media (cs t : str) : Prop :=
  ~ In (ch ";") t /\ exists rest, cs = t ++ rest /\ (rest = [] \/ exists r, rest = ch ";" :: r).

(** The supported media types. *)
Inductive media_type_of : str -> body_content_type -> Prop :=
| mo_octets : media_type_of (lit "application/octet-stream") OctetStream
| mo_json : media_type_of (lit "application/json") Json
| mo_form : media_type_of (lit "application/x-www-form-urlencoded") FormUrlencoded
| mo_plain : media_type_of (lit "text/plain") (Text (lit "text/plain"))
| mo_markdown : media_type_of (lit "text/x-markdown") (Text (lit "text/x-markdown")).

(** A string about which nothing is said but its format. *)
Definition bare_string (f : variant_or string_format) (s : schema) : Prop :=
  s_kind s = SkString (StringType f None [] None None)
  /\ sd_nullable (s_data s) = false /\ sd_discriminator (s_data s) = false /\ sd_default (s_data s) = None.

(** The type of a body parameter, [tn] being the name offered for it: bytes and texts are passed on as they are. *)
Inductive body_typed (ts : type_space) (comps : option components) (tn : str) : body_content_type -> media_type -> param_type -> Prop :=
| bt_octets mt sch s : mt_schema mt = Some sch -> resolves co_schemas comps sch s -> bare_string (VItem SfBinary) s ->
    body_typed ts comps tn OctetStream mt PRawBody
| bt_text mime mt sch s : mt_schema mt = Some sch -> resolves co_schemas comps sch s -> bare_string VEmpty s ->
    body_typed ts comps tn (Text mime) mt PRawBody
| bt_json mt sch t : mt_schema mt = Some sch -> mt_encoding_empty mt = true -> ts_add ts sch tn = Ok t ->
    body_typed ts comps tn Json mt (PType t)
| bt_form mt sch t : mt_schema mt = Some sch -> mt_encoding_empty mt = true -> ts_add ts sch tn = Ok t ->
    body_typed ts comps tn FormUrlencoded mt (PType t).

(** ** One call of one generated method *)

(** The document side (case conversions, types, components, operation, path,
    HTTP method, shared parameters), the generator side (hooks, method, body),
    and the call: client, decoder, surroundings, arguments, outcome. *)
Record episode (V W : Type) := Episode {
  e_snake : str -> str;
  e_pascal : str -> str;
  e_types : type_space;
  e_comps : option components;
  e_op : operation;
  e_path : list piece;
  e_verb : str;
  e_shared : list (ref_or parameter);
  e_hooks : hooks;
  e_method : op_method;
  e_code : sig_body;
  e_client : context;
  e_decode : type_id -> list N -> result V jerr;
  e_world : world_ops W;
  e_args : arguments;
  e_start : W;
  e_final : final V;
  e_trace : list event;
  e_end : W }.
Arguments e_snake {V W}.
Arguments e_pascal {V W}.
Arguments e_types {V W}.
Arguments e_comps {V W}.
Arguments e_op {V W}.
Arguments e_path {V W}.
Arguments e_verb {V W}.
Arguments e_shared {V W}.
Arguments e_hooks {V W}.
Arguments e_method {V W}.
Arguments e_code {V W}.
Arguments e_client {V W}.
Arguments e_decode {V W}.
Arguments e_world {V W}.
Arguments e_args {V W}.
Arguments e_start {V W}.
Arguments e_final {V W}.
Arguments e_trace {V W}.
Arguments e_end {V W}.

(** The method was generated for the operation. *)
Definition generated_in {V W} (e : episode V W) : Prop :=
  generated (e_snake e) (e_pascal e) (e_types e) (e_comps e) (e_op e) (e_path e) (e_verb e) (e_shared e)
    (e_hooks e) (e_method e) (e_code e).

(** And running it on the arguments gave the outcome. *)
Record happens {V W} (e : episode V W) : Prop := Happens {
  h_generated : generated_in e;
  h_callable : callable (e_client e) (e_method e) (e_args e);
  h_run : run V (e_client e) (e_decode e) W (e_world e) (e_code e) (variables (e_args e)) (e_start e)
          = (e_final e, e_trace e, e_end e) }.

(** The values that the header parameters of the call give to the header [n]. *)
Definition given_values {V W} (e : episode V W) (n : str) : list (list N) :=
  own_values (c_api_version (e_client e)) (e_args e) n.

(** The documented responses of the operation. *)
Definition documents {V W} (e : episode V W) (t : list (resp_status * resp_kind)) : Prop :=
  response_table (e_pascal e) (e_types e) (e_comps e) (e_op e) (m_websocket (e_method e)) t.

(** The server answered [r], and no post-hook replaced the outcome. *)
Definition answered {V W} (e : episode V W) (r : response) : Prop :=
  (exists q, In (ESend q (ROk r)) (e_trace e)) /\
  forall msg, e_final e <> Returned (RErr (PostHookError msg)).

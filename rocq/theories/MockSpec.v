(** What a mock should match and answer. *)
From Verif Require Import Base Utf8 SerdeModel TemplateSpec EncodeModel EncodeSpec QuerySpec MethodModel BuilderModel
  RunModel RequestSpec MockModel.
Local Open Scope N_scope.

(** Characters that mean themselves in a regular expression. *)
Definition plain_char (c : char) : Prop := ~ In c (lit "\.+*?()|[{^$").
Definition plain_text (s : str) : Prop := Forall plain_char s.
Definition plain_template (ps : list piece) : Prop := forall c, In (PLit c) ps -> plain_char c.

(** No '/' in the values of the placeholders. *)
Definition slash_free (ps : list piece) (val : str -> str) : Prop :=
  forall n, In n (vars ps) -> ~ In (ch "/") (val n).

(** Every segment of the path has at most one placeholder. *)
Definition one_per_segment (ps : list piece) : Prop :=
  Forall (fun seg => (length (vars seg) <= 1)%nat) (split_slash ps).

(** The path is an expansion of the template that gives these values to these placeholders. *)
Definition expansion (ps : list piece) (fixed : list (str * str)) (path : str) : Prop :=
  exists val, slash_free ps val /\ (forall n v, In (n, v) fixed -> val n = v)
    /\ path = expand val (squeeze_pieces false ps).

(** A status that the documentation allows. *)
Definition allowed (s : resp_status) (code : N) : Prop :=
  match s with
  | SCode c => code = c
  | SRange r => 100 * r <= code /\ code < 100 * (r + 1)
  | SDefault => True
  end.

(** The content of a response by its kind. *)
Definition content_of (k : resp_kind) : then_value :=
  match k with RType t => TvObj t | RRaw => TvJson | RNone | RUpgrade => TvNone end.

(** What the server at [base] sees of a request. *)
Definition seen (base : str) (q : request) (r : mock_request) : Prop :=
  mr_method r = q_method q /\ q_url q = base ++ mr_path r /\ form_decode (q_query q) = Some (mr_query r)
  /\ mr_body r = match q_body q with Some b => b | None => [] end.

(** The key-value pairs that the query arguments of a call contribute. *)
Definition contributes (args : arguments) (kv : str * str) : Prop :=
  exists nv ps, In nv (query_arguments args) /\ query_param (fst nv) (snd nv) = Some ps /\ In kv ps.

(** All texts are strings of Unicode scalar values, as every Rust string is. *)
Definition proper_texts (args : arguments) : Prop :=
  (forall p v, In (p, Some v) args -> p_kind p = KPath -> valid_str (v_text v))
  /\ forall kv, contributes args kv -> valid_str (fst kv) /\ valid_str (snd kv).

(** Arguments of a call to which its mock can be restricted: path arguments of the template that mean
    themselves in URLs and in regular expressions, query arguments that are scalars with equal [to_string] and serde
    texts under a name that is an identifier, absent query arguments whose name nothing contributes,
    and bodies sent as JSON or text. *)
Definition mockable (json_is : value -> list N -> bool) (ps : list piece) (args : arguments)
    (c : op_param * option value) : Prop :=
  match p_kind (fst c), snd c with
  | KPath, Some v => In (p_api_name (fst c)) (vars ps) /\ plain_text (v_text v) /\ encode_path (v_text v) = v_text v
  | KQuery _, Some v => p_name (fst c) = p_api_name (fst c) /\ scalar_text (v_serde v) (v_text v)
  | KQuery false, None => forall t, ~ contributes args (p_name (fst c), t)
  | KBody Json, Some v => forall b, v_json v = Some b -> json_is v b = true
  | KBody OctetStream, Some v => json_is v (v_bytes v) = true
  | KBody (Text _), Some v => True
  | _, _ => False
  end.

(** The URL of the call is taken as it is: the one at [base] that the template gives. *)
Definition url_kept (ctx : context) (ps : list piece) (args : arguments) : Prop :=
  forall val, path_values args val ->
  exists hs, c_parse_url ctx (c_base_url ctx ++ expand val (squeeze_pieces false ps))
             = ROk (c_base_url ctx ++ expand val (squeeze_pieces false ps), None, hs).

(** Status codes that have a name (RFC 9110 and the IANA registry, as listed by http 1.3.1). *)
Definition named_codes : list N :=
  [100; 101; 102; 200; 201; 202; 203; 204; 205; 206; 207; 208; 226; 300; 301; 302; 303; 304; 305; 307; 308;
   400; 401; 402; 403; 404; 405; 406; 407; 408; 409; 410; 411; 412; 413; 414; 415; 416; 417; 418; 421; 422;
   423; 424; 425; 426; 428; 429; 431; 451; 500; 501; 502; 503; 504; 505; 506; 507; 508; 510; 511].

(** A documented status for which there is a response method. *)
Definition mockable_status (s : resp_status) : Prop :=
  match s with SCode c => In c named_codes | SRange r => 1 <= r <= 5 | SDefault => True end.

(** The types of a method are in the type space. *)
Definition known_types (types : type_id -> option type_info) (m : op_method) : Prop :=
  (forall p t, In p (m_params m) -> p_typ p = PType t -> types t <> None)
  /\ forall r t, In r (m_responses m) -> o_typ r = RType t -> types t <> None.

(** Arguments to which a mock can be restricted at all, whatever the call: those the template has a placeholder for,
    with texts that mean themselves in regular expressions, query arguments and bodies. *)
Definition restrictable (ps : list piece) (c : op_param * option value) : Prop :=
  match p_kind (fst c), snd c with
  | KPath, Some v => In (p_api_name (fst c)) (vars ps) /\ plain_text (v_text v)
  | KQuery _, Some _ | KQuery false, None | KBody _, Some _ => True
  | _, _ => False
  end.

(** What a restriction asks of a call with the arguments [args], seen by the server as [r]: a path that has the text
    of the value at its place in the template (with no line break elsewhere), the pair of the Rust name and the text among the pairs of the query,
    no pair with this name, or this body, for all but texts as far as JSON goes. *)
Definition restriction_met (json_is : value -> list N -> bool) (ps : list piece) (args : arguments) (r : mock_request)
    (c : op_param * option value) : Prop :=
  match p_kind (fst c), snd c with
  | KPath, Some v => exists val, val (p_api_name (fst c)) = v_text v
      /\ (forall n, In n (vars ps) -> n <> p_api_name (fst c) -> ~ In 10 (val n))
      /\ mr_path r = expand val (squeeze_pieces false ps)
  | KQuery _, Some v => contributes args (p_name (fst c), v_text v)
  | KQuery _, None => forall t, ~ contributes args (p_name (fst c), t)
  | KBody (Text _), Some v => mr_body r = v_bytes v
  | KBody _, Some v => json_is v (mr_body r) = true
  | _, _ => False
  end.

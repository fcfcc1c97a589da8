(** What a command line interface of an API should offer and do. *)
From Verif Require Import Base ClientModel MethodModel RunModel BuilderModel BuilderSpec FutureModel StreamModel
  StreamSpec SanitizeModel SanitizeSpec CliModel.
From Coq Require Import Permutation Sorted.
Local Open Scope N_scope.

(** [kept P l l']: [l'] are the elements of [l] with [P], in order. *)
Inductive kept {A} (P : A -> Prop) : list A -> list A -> Prop :=
| ke_nil : kept P [] []
| ke_keep a l l' : P a -> kept P l l' -> kept P (a :: l) (a :: l')
| ke_drop a l l' : ~ P a -> kept P l l' -> kept P (a :: l) l'.

Section Spec.
Variable U : unicode.
Variable types : type_id -> option cli_type.

(** Here every alphanumeric character belongs to a word, not only those of identifiers. *)
Definition any_text : unicode := {|
  lowercase := lowercase U; uppercase := uppercase U; alphanumeric := alphanumeric U;
  whitespace := whitespace U; to_lower := to_lower U; to_upper := to_upper U;
  xid_start := xid_start U; xid_continue := fun _ => true |}.

(** The argument for the name [s] is called [n]: the words in lower case between dashes. *)
Definition argument_name (s n : str) : Prop :=
  exists ws, words_of any_text s ws /\ n = tl (flat_map (fun w => ch "-" :: lowered U w) ws).

(** The parameter has an argument: it is no body, and not the page token of a paginated operation. *)
Definition has_argument (m : op_method) (p : op_param) : Prop :=
  (forall ct, p_kind p <> KBody ct) /\ ~ (m_paginated m <> None /\ p_name p = lit "page_token").

(** The API requires the parameter, at least for the first page. *)
Definition api_requires (m : op_method) (p : op_param) : Prop :=
  p_kind p = KPath \/ p_kind p = KQuery true \/ p_kind p = KHeader true
  \/ exists pg, m_paginated m = Some pg /\ In (p_api_name p) (pg_first_page_params pg).

(** The values an argument for the type takes: those of the variants if it is an enumeration of
    simple ones, otherwise whatever the type makes of the text. *)
Inductive parser_for (ct : cli_type) : value_parser -> Prop :=
| pf_enum vs : ct_details ct = CdEnum (map (fun v => (v, true)) vs) -> parser_for ct (VpEnum (ct_ident ct) vs)
| pf_type : (forall vs, ct_details ct <> CdEnum (map (fun v => (v, true)) vs)) ->
    parser_for ct (VpType (ct_ident ct)).

(** The type of values of the type [t]: that inside of an optional type. *)
Inductive value_type (t : type_id) : cli_type -> Prop :=
| vt_plain ct : types t = Some ct -> (forall i, ct_details ct <> CdOption i) -> value_type t ct
| vt_option ct0 i ct : types t = Some ct0 -> ct_details ct0 = CdOption i -> types i = Some ct -> value_type t ct.

(** The argument [a] for the parameter. *)
Record argument_for (m : op_method) (p : op_param) (a : clap_arg) : Prop := ArgumentFor {
  af_name : argument_name (p_name p) (cl_id a);
  af_help : cl_help a = p_description p;
  af_type : exists t ct, p_typ p = PType t /\ types t = Some ct /\ parser_for ct (cl_parser a);
  af_required : cl_vol a = VoRequired <-> api_requires m p;
  af_optional : cl_vol a = VoOptional <-> ~ api_requires m p }.

(** The property can be written as one text. *)
Definition scalar (pr : prop_info) : Prop :=
  exists ct, value_type (pr_type pr) ct /\ ct_from_str ct = true.

(** The argument [a] for the property. *)
Record property_argument (pr : prop_info) (a : clap_arg) : Prop := PropertyArgument {
  pa_name : argument_name (pr_name pr) (cl_id a);
  pa_help : cl_help a = pr_description pr;
  pa_type : exists ct, value_type (pr_type pr) ct /\ parser_for ct (cl_parser a);
  pa_required : cl_vol a = VoRequiredIfNoBody <-> pr_required pr = true;
  pa_optional : cl_vol a = VoOptional <-> pr_required pr = false }.

(** [divided taken prs own rest]: of the properties [prs], [own] have arguments of their own and
    [rest] have not: those that are no scalars, and those whose argument would have a name that is
    taken, by a parameter or by an earlier property. *)
Inductive divided (taken : list str) : list prop_info -> list prop_info -> list prop_info -> Prop :=
| di_nil : divided taken [] [] []
| di_own pr n prs own rest : scalar pr -> argument_name (pr_name pr) n -> ~ In n taken ->
    divided (n :: taken) prs own rest -> divided taken (pr :: prs) (pr :: own) rest
| di_rest pr n prs own rest : argument_name (pr_name pr) n -> (~ scalar pr \/ In n taken) ->
    divided taken prs own rest -> divided taken (pr :: prs) own (pr :: rest).

(** The body of the operation. *)
Inductive body_of (m : op_method) : option param_type -> Prop :=
| bo_none : (forall p ct, In p (m_params m) -> p_kind p <> KBody ct) -> body_of m None
| bo_some pre p post ct : m_params m = pre ++ p :: post -> p_kind p = KBody ct ->
    (forall q ct', In q pre -> p_kind q <> KBody ct') -> body_of m (Some (p_typ p)).

(** The properties of the body, if it is a structure; none otherwise. *)
Inductive body_properties (m : op_method) : list prop_info -> Prop :=
| bp_struct t ct prs : body_of m (Some (PType t)) -> types t = Some ct -> ct_details ct = CdStruct prs ->
    body_properties m prs
| bp_other t ct : body_of m (Some (PType t)) -> types t = Some ct ->
    (forall prs, ct_details ct <> CdStruct prs) -> body_properties m []
| bp_raw : body_of m (Some PRawBody) -> body_properties m []
| bp_none : body_of m None -> body_properties m [].

(** The arguments for parameters and properties of the body: one for each that has one. *)
Inductive arguments_of (m : op_method) (own rest : list prop_info) (args : list clap_arg) : Prop :=
| ao_intro params param_args prop_args props :
    kept (has_argument m) (m_params m) params ->
    Forall2 (argument_for m) params param_args ->
    body_properties m props ->
    divided (map cl_id param_args) props own rest ->
    Forall2 property_argument own prop_args ->
    Permutation args (param_args ++ prop_args) ->
    StronglySorted (fun a b => str_cmp (cl_id a) (cl_id b) = Lt) args ->
    arguments_of m own rest args.

(** The properties of the body with and without arguments of their own. *)
Inductive own_properties (m : op_method) (own rest : list prop_info) : Prop :=
| op_intro params taken props :
    kept (has_argument m) (m_params m) params ->
    Forall2 (fun p n => argument_name (p_name p) n) params taken ->
    body_properties m props -> divided taken props own rest -> own_properties m own rest.

(** [filled arg set prs b b']: [b'] is [b] with every property set that has an argument. *)
Inductive filled {B} (arg : str -> option value -> Prop) (set : str -> value -> B -> B) : list prop_info -> B -> B -> Prop :=
| fl_nil b : filled arg set [] b b
| fl_given pr n v prs b b' : argument_name (pr_name pr) n -> arg n (Some v) ->
    filled arg set prs (set (sanitize U (pr_name pr) Snake) v b) b' -> filled arg set (pr :: prs) b b'
| fl_absent pr n prs b b' : argument_name (pr_name pr) n -> arg n None ->
    filled arg set prs b b' -> filled arg set (pr :: prs) b b'.

(** The arguments for the body as a whole. *)
Inductive json_arguments (m : op_method) (rest : list prop_info) : list clap_arg -> Prop :=
| ja_none : body_of m None -> json_arguments m rest []
| ja_raw : body_of m (Some PRawBody) -> json_arguments m rest []
| ja_typed t ct a flag : body_of m (Some (PType t)) -> types t = Some ct ->
    cl_id a = lit "json-body" -> cl_parser a = VpType (lit "::std::path::PathBuf") ->
    (cl_vol a = VoRequired <->
       (forall prs, ct_details ct <> CdStruct prs) \/ exists pr, In pr rest /\ pr_required pr = true) ->
    (cl_vol a = VoOptional <->
       exists prs, ct_details ct = CdStruct prs /\ forall pr, In pr rest -> pr_required pr = false) ->
    cl_id flag = lit "json-body-template" -> cl_parser flag = VpFlag -> cl_vol flag = VoOptional ->
    json_arguments m rest [a; flag].
End Spec.

(** ** Command lines *)

Section Line.
Variable parse_value : value_parser -> str -> option value.

(** The command line gives the argument [n] the value [v], of the type [ty]. *)
Definition supplies (args : list clap_arg) (given : list (str * str)) (n ty : str) (v : value) : Prop :=
  exists a text, In a args /\ cl_id a = n /\ In (n, text) given
    /\ parse_value (cl_parser a) text = Some v /\ ty = parser_type (cl_parser a).

(** What the command line gives to the argument [n], if anything. *)
Inductive on_line (args : list clap_arg) (given : list (str * str)) (n : str) : option value -> Prop :=
| ol_given ty v : supplies args given n ty v -> on_line args given n (Some v)
| ol_absent : ~ In n (map fst given) -> on_line args given n None.

(** The command line is acceptable: only known arguments, none twice, with legal values, and all
    required ones. *)
Definition acceptable_line (args : list clap_arg) (given : list (str * str)) : Prop :=
  NoDup (map fst given)
  /\ (forall n text, In (n, text) given -> exists ty v, supplies args given n ty v)
  /\ (forall a, In a args -> cl_vol a = VoRequired -> In (cl_id a) (map fst given))
  /\ (forall a, In a args -> cl_vol a = VoRequiredIfNoBody ->
        In (cl_id a) (map fst given) \/ In (lit "json-body") (map fst given)).
End Line.

(** An operation whose command can work: its builder compiles, the names of its parameters stay as
    they are when made identifiers again, the body is called [body], and no argument of the body has
    the name of one of the two for the body as a whole. *)
Record cli_ok (U : unicode) (types : type_id -> option type_info) (ctypes : type_id -> option cli_type)
    (m : op_method) (a : cli_args) : Prop := CliOk {
  ck_builder : builder_ok types m;
  ck_types : forall t ct, ctypes t = Some ct -> exists i, types t = Some i
    /\ (ti_builder i = true <-> exists prs, ct_details ct = CdStruct prs);
  ck_names : forall p, In p (m_params m) -> sanitize U (p_name p) Snake = p_name p;
  ck_body : forall p ct, In p (m_params m) -> p_kind p = KBody ct -> p_name p = lit "body";
  ck_ids : NoDup (map cl_id (cg_parsers a)) }.

(** A command can be generated: the types are known, and no two parameters have arguments of the same
    name. *)
Definition generates (U : unicode) (types : type_id -> option cli_type) (m : op_method) : Prop :=
  (exists params names, kept (has_argument m) (m_params m) params
    /\ Forall (fun p => exists t ct, p_typ p = PType t /\ types t = Some ct) params
    /\ Forall2 (fun p n => argument_name U (p_name p) n) params names /\ NoDup names)
  /\ forall t, body_of m (Some (PType t)) -> exists ct, types t = Some ct
       /\ forall prs, ct_details ct = CdStruct prs ->
            Forall (fun pr => exists ct', value_type types (pr_type pr) ct') prs.

(** Properties in the order of their arguments. *)
Definition by_argument (U : unicode) (a b : prop_info) : Prop :=
  exists na nb, argument_name U (pr_name a) na /\ argument_name U (pr_name b) nb /\ str_cmp na nb = Lt.

(** What the command line gives to a parameter: what its argument is given; nothing for the page token;
    for the body the contents of the file if there is one, otherwise what the builder makes of the
    properties. *)
Section Gives.
Context {B : Type} (U : unicode) (ctypes : type_id -> option cli_type)
  (b_default : type_id -> B) (b_from : type_id -> value -> B) (b_try_from : type_id -> B -> result value str)
  (b_set : str -> value -> B -> B) (read_json : str -> value -> option value)
  (parse_value : value_parser -> str -> option value) (m : op_method) (args : list clap_arg) (given : list (str * str)).
Notation on_line := (on_line parse_value args given).

Inductive line_gives (p : op_param) : option value -> Prop :=
| lg_argument n o : has_argument m p -> argument_name U (p_name p) n -> on_line n o -> line_gives p o
| lg_token : (forall k, p_kind p <> KBody k) -> ~ has_argument m p -> line_gives p None
| lg_file k t ct path v : p_kind p = KBody k -> p_typ p = PType t -> ctypes t = Some ct ->
    (forall prs, ct_details ct <> CdStruct prs) ->
    on_line (lit "json-body") (Some path) -> read_json (ct_ident ct) path = Some v -> line_gives p (Some v)
| lg_file_struct k t ct prs path v v' : p_kind p = KBody k -> p_typ p = PType t -> ctypes t = Some ct ->
    ct_details ct = CdStruct prs ->
    on_line (lit "json-body") (Some path) -> read_json (ct_ident ct) path = Some v ->
    b_try_from t (b_from t v) = ROk v' -> line_gives p (Some v')
| lg_properties k t ct prs own rest own' b v : p_kind p = KBody k -> p_typ p = PType t -> ctypes t = Some ct ->
    ct_details ct = CdStruct prs -> on_line (lit "json-body") None ->
    own_properties U ctypes m own rest -> Permutation own' own -> StronglySorted (by_argument U) own' ->
    filled U on_line b_set own' (b_default t) b -> b_try_from t b = ROk v -> line_gives p (Some v).
End Gives.

(** ** Outcomes *)

(** A value or nothing at all, rather than bytes or a connection. *)
Definition printable (k : resp_kind) : Prop := k = RNone \/ exists t, k = RType t.

(** The one callback for a result of the kinds [sk] and [ek]. *)
Inductive reported {V E} (sk ek : resp_kind) : result (rvalue V) E -> callback V E -> Prop :=
| re_item rv t : sk = RType t -> reported sk ek (ROk rv) (CbSuccessItem rv)
| re_nothing rv : sk = RNone -> reported sk ek (ROk rv) (CbSuccessNoItem rv)
| re_error e : printable ek -> reported sk ek (RErr e) (CbError e).

(** What the command then returns. *)
Definition returned {A E} (r : result A E) : result unit (cli_error E) :=
  match r with ROk _ => ROk tt | RErr e => RErr (CeClient e) end.

(** The callbacks of a listing of the items [vs] that ends with [r]. *)
Definition listed {V E} (vs : list V) (r : result unit E) : list (callback (inner V) E) :=
  CbListStart :: map (fun v => CbListItem (IVal v)) vs
  ++ [match r with ROk _ => CbListEndSuccess | RErr e => CbListEndError e end].

Section Listing.
Context {V W E : Type} (page_items : V -> list V) (page_next : V -> option value).
Variable request : option value -> W -> awaited V E W.
Notation fetched := (fetched page_next request).
Notation items_of := (items_of page_items).
Notation count l := (N.of_nat (length l)).

(** [to_list limit w vs r w']: what is to be listed, given what the server answers: every item; or,
    of more, as many as allowed, without asking for further pages; or those before an error. *)
Inductive to_list (limit : N) (w : W) : list V -> result unit E -> W -> Prop :=
| tl_all ps w' : fetched None w ps None w' -> count (items_of ps) < limit ->
    to_list limit w (items_of ps) (ROk tt) w'
| tl_enough ps p t w' : fetched None w (ps ++ [p]) t w' ->
    count (items_of ps) < limit -> limit <= count (items_of (ps ++ [p])) ->
    to_list limit w (firstn (N.to_nat limit) (items_of (ps ++ [p]))) (ROk tt) w'
| tl_first_fails e w' : request None w = ADone (RErr e) w' -> 0 < limit ->
    to_list limit w [] (RErr e) w'
| tl_fails ps token w1 e w' : fetched None w ps (Some token) w1 -> request (Some token) w1 = ADone (RErr e) w' ->
    count (items_of ps) < limit -> to_list limit w (items_of ps) (RErr e) w'.
End Listing.

(** The limit that the values found on the command line set. *)
Inductive line_limit (nonzero : value -> N) (ms : list (str * (str * value))) : N -> Prop :=
| ll_none : assoc (lit "limit") ms = None -> line_limit nonzero ms usize_max
| ll_some v : assoc (lit "limit") ms = Some (lit "::std::num::NonZeroU32", v) -> line_limit nonzero ms (nonzero v).

(** ** Command lines that are taken *)

(** What the body is when the file holds the value [v]. *)
Inductive file_body {B} (b_from : type_id -> value -> B) (b_try_from : type_id -> B -> result value str) (t : type_id) (ct : cli_type) (v : value)
  : result (option value) str -> Prop :=
| fb_plain : (forall prs, ct_details ct <> CdStruct prs) -> file_body b_from b_try_from t ct v (ROk (Some v))
| fb_struct prs v' : ct_details ct = CdStruct prs -> b_try_from t (b_from t v) = ROk v' ->
    file_body b_from b_try_from t ct v (ROk (Some v'))
| fb_invalid prs e : ct_details ct = CdStruct prs -> b_try_from t (b_from t v) = RErr e ->
    file_body b_from b_try_from t ct v (RErr e).

Section Accepted.
Context (U : unicode) (types : type_id -> option type_info) (ctypes : type_id -> option cli_type)
  (read_json : str -> value -> option value) (parse_value : value_parser -> str -> option value).

(** The command of the method [m], which can work, is given an acceptable command line.  The file for
    the body, if one is named, can be read.  A page token can be left out. *)
Record accepted (m : op_method) (o : cli_operation) (given : list (str * str)) : Prop := Accepted {
  ac_generated : cli_method U ctypes m = Ok o;
  ac_ok : cli_ok U types ctypes m (co_args o);
  ac_line : acceptable_line parse_value (cg_parsers (co_args o)) given;
  ac_file : forall t ct path, body_of m (Some (PType t)) -> ctypes t = Some ct ->
    on_line parse_value (cg_parsers (co_args o)) given (lit "json-body") (Some path) -> read_json (ct_ident ct) path <> None;
  ac_token : forall p, In p (m_params m) -> p_name p = lit "page_token" -> m_paginated m <> None -> is_optional (p_kind p) = true }.

(** The limit that the command line sets. *)
Inductive limit_on_line (nonzero : value -> N) (args : list clap_arg) (given : list (str * str)) : N -> Prop :=
| lo_none : on_line parse_value args given (lit "limit") None -> limit_on_line nonzero args given usize_max
| lo_some v : supplies parse_value args given (lit "limit") (lit "::std::num::NonZeroU32") v ->
    limit_on_line nonzero args given (nonzero v).
End Accepted.

(** Model of progenitor-impl/src/httpmock.rs and of what the code it generates does: the regular
    expressions it builds (regex 1.11.1), the names it takes from http 1.3.1, and the matching of
    requests by the httpmock crate. *)
From Verif Require Import Base OasModel TemplateModel MethodModel OpModel SerdeModel RunModel BuilderModel
  SanitizeModel GenerateModel.
Local Open Scope N_scope.

(** ** Regular expressions *)

(** The part of the syntax of regex 1.11.1 ([Regex::new], httpmock.rs:180-183) that is modelled: characters, [.], bracketed sets of plain
    characters, each possibly repeated by [*], [+] or [?], and the anchors [^] and [$]. *)
Inductive rx_class :=
| RcChar (c : char)
| RcDot                       (* anything but a newline *)
| RcNone (cs : list N)        (* [^..] *)
| RcSome (cs : list N).       (* [..] *)
(** [Regex::new], httpmock.rs:180-183. *)
Inductive rx_item :=
| RxOne (k : rx_class)
| RxStar (k : rx_class)
| RxPlus (k : rx_class)
| RxOpt (k : rx_class)
| RxBegin
| RxEnd.

(** [Regex::new], httpmock.rs:180-183. *)
Definition rc_has (k : rx_class) (x : char) : bool :=
  match k with
  | RcChar c => x =? c
  | RcDot => negb (x =? 10)
  | RcNone cs => negb (existsb (N.eqb x) cs)
  | RcSome cs => existsb (N.eqb x) cs
  end.

(** Where the parser of regex-syntax 0.8 ([Regex::new], httpmock.rs:180-183) is: at the top level, after a backslash, or in a bracketed
    set. *)
Inductive rx_mode :=
| RmTop
| RmEscape
| RmOpen
| RmSet (negated : bool) (cs : list N).

(** regex_syntax::is_meta_character: what may follow a backslash to stand for itself
    ([Regex::new], httpmock.rs:180-183). *)
Definition rx_escapable : str := lit "\.+*?()|[]{}^$#&-~".
(** Characters with a meaning of their own inside brackets; sets that contain them are not modelled
    ([Regex::new], httpmock.rs:180-183). *)
Definition rx_set_special : str := lit "[]\-&~".

(** [*], [+] or [?] after an item (a repetition of a repetition, and a lazy one, are not modelled)
    ([Regex::new], httpmock.rs:180-183). *)
Definition rx_repeat (f : rx_class -> rx_item) (acc : list rx_item) : option (list rx_item) :=
  match acc with RxOne k :: r => Some (f k :: r) | _ => None end.

(** One character; [acc] is in reverse.  [None]: rejected by [Regex::new], or not modelled (groups,
    alternatives, counted repetitions, classes by name) ([Regex::new], httpmock.rs:180-183). *)
Definition rx_step (st : rx_mode * list rx_item) (c : char) : option (rx_mode * list rx_item) :=
  let '(m, acc) := st in
  match m with
  | RmTop =>
      if c =? ch "*" then option_map (pair RmTop) (rx_repeat RxStar acc)
      else if c =? ch "+" then option_map (pair RmTop) (rx_repeat RxPlus acc)
      else if c =? ch "?" then option_map (pair RmTop) (rx_repeat RxOpt acc)
      else if c =? ch "." then Some (RmTop, RxOne RcDot :: acc)
      else if c =? ch "^" then Some (RmTop, RxBegin :: acc)
      else if c =? ch "$" then Some (RmTop, RxEnd :: acc)
      else if c =? ch "\" then Some (RmEscape, acc)
      else if c =? ch "[" then Some (RmOpen, acc)
      else if has_char c (lit "(){|") then None
      else Some (RmTop, RxOne (RcChar c) :: acc)
  | RmEscape =>
      if has_char c rx_escapable then Some (RmTop, RxOne (RcChar c) :: acc) else None
  | RmOpen =>
      if c =? ch "^" then Some (RmSet true [], acc)
      else if has_char c rx_set_special then None
      else Some (RmSet false [c], acc)
  | RmSet n cs =>
      match c =? ch "]", cs with
      | true, [] => None
      | true, _ => Some (RmTop, RxOne (if n then RcNone cs else RcSome cs) :: acc)
      | false, _ => if has_char c rx_set_special then None else Some (RmSet n (c :: cs), acc)
      end
  end.

(** [Regex::new], httpmock.rs:180-183. *)
Fixpoint rx_steps (st : rx_mode * list rx_item) (s : str) : option (rx_mode * list rx_item) :=
  match s with
  | [] => Some st
  | c :: r => match rx_step st c with Some st' => rx_steps st' r | None => None end
  end.

(** [regex::Regex::new] (httpmock.rs:180-182 and 259), where modelled. *)
Definition regex_new (s : str) : option (list rx_item) :=
  match rx_steps (RmTop, []) s with
  | Some (RmTop, acc) => Some (rev acc)
  | _ => None
  end.

(** Matching the items from here on; [start] says whether here is the beginning of the text. *)
Section Repeat.
Variable k : rx_class.
Variable next : bool -> str -> bool.
(** [Regex::new], httpmock.rs:180-183. *)
Fixpoint rx_many (start : bool) (s : str) : bool :=
  next start s ||
  match s with
  | x :: r => rc_has k x && rx_many false r
  | [] => false
  end.
(** [Regex::new], httpmock.rs:180-183. *)
Definition rx_once (start : bool) (s : str) : bool :=
  match s with
  | x :: r => rc_has k x && next false r
  | [] => false
  end.
End Repeat.

(** [Regex::new], httpmock.rs:180-183. *)
Fixpoint rx_here (l : list rx_item) : bool -> str -> bool :=
  match l with
  | [] => fun _ _ => true
  | RxOne k :: r => rx_once k (rx_here r)
  | RxStar k :: r => rx_many k (rx_here r)
  | RxPlus k :: r => rx_once k (rx_many k (rx_here r))
  | RxOpt k :: r => fun start s => rx_here r start s || rx_once k (rx_here r) start s
  | RxBegin :: r => fun start s => start && rx_here r start s
  | RxEnd :: r => fun start s => match s with [] => rx_here r start s | _ => false end
  end.

(** [Regex::is_match]: a match may begin anywhere ([Regex::new], httpmock.rs:180-183). *)
Fixpoint rx_search (l : list rx_item) (start : bool) (s : str) : bool :=
  rx_here l start s ||
  match s with
  | _ :: r => rx_search l false r
  | [] => false
  end.
(** [Regex::new], httpmock.rs:180-183. *)
Definition is_match (l : list rx_item) (s : str) : bool := rx_search l true s.

(** ** The generated extension *)

(** httpmock.rs:176-244: the body of a method of the [When] wrapper. *)
Inductive when_body :=
| WbPath (re_fmt : str)            (* 177-185 *)
| WbQuery (name : str)             (* 186-188 *)
| WbQueryOpt (name : str)          (* 190-228 *)
| WbTodo                           (* 229 *)
| WbJsonObj                        (* 231-234 *)
| WbJson                           (* 236-238 *)
| WbText.                          (* 239-241 *)
(** httpmock.rs:246-250, a method of the [When] wrapper, with the type of its value (158-174): that of the parameter, or for
    raw bodies a JSON value or a string as the body demands. *)
Record when_method := WhenMethod { wm_name : str; wm_type : param_type; wm_body : when_body }.

(** httpmock.rs:270-352: the methods of the [Then] wrapper. *)
Inductive then_status :=
| TsCode (c : N)                   (* 305-320 *)
| TsClass (c : N)                  (* 321-340 *)
| TsAny.                           (* 341-348 *)
(** httpmock.rs:277-302, the value a method of the [Then] wrapper takes. *)
Inductive then_value := TvObj (t : type_id) | TvNone | TvJson.
(** httpmock.rs:304-349. *)
Record then_method := ThenMethod { tm_name : str; tm_status : then_status; tm_value : then_value }.

(** httpmock.rs:19-24 and 254-373, [MockOp]: names and contents of the two wrappers. *)
Record mock_op := MockOp {
  mo_when : str;
  mo_http_method : http_method;    (* 135-144 *)
  mo_path_re : str;                (* 146 *)
  mo_when_methods : list when_method;
  mo_then : str;
  mo_then_methods : list then_method }.

(** httpmock.rs:65-127: the trait's methods with the wrappers they use. *)
Record mock_code := MockCode {
  mk_use : str;
  mk_ops : list (str * mock_op) }.

(** http 1.3.1 status.rs [canonical_reason] (httpmock.rs:306-309). *)
Definition canonical_reasons : list (N * str) := [
  (100, lit "Continue"); (101, lit "Switching Protocols"); (102, lit "Processing");
  (200, lit "OK"); (201, lit "Created"); (202, lit "Accepted");
  (203, lit "Non Authoritative Information"); (204, lit "No Content"); (205, lit "Reset Content");
  (206, lit "Partial Content"); (207, lit "Multi-Status"); (208, lit "Already Reported");
  (226, lit "IM Used"); (300, lit "Multiple Choices"); (301, lit "Moved Permanently");
  (302, lit "Found"); (303, lit "See Other"); (304, lit "Not Modified"); (305, lit "Use Proxy");
  (307, lit "Temporary Redirect"); (308, lit "Permanent Redirect"); (400, lit "Bad Request");
  (401, lit "Unauthorized"); (402, lit "Payment Required"); (403, lit "Forbidden");
  (404, lit "Not Found"); (405, lit "Method Not Allowed"); (406, lit "Not Acceptable");
  (407, lit "Proxy Authentication Required"); (408, lit "Request Timeout"); (409, lit "Conflict");
  (410, lit "Gone"); (411, lit "Length Required"); (412, lit "Precondition Failed");
  (413, lit "Payload Too Large"); (414, lit "URI Too Long"); (415, lit "Unsupported Media Type");
  (416, lit "Range Not Satisfiable"); (417, lit "Expectation Failed"); (418, lit "I'm a teapot");
  (421, lit "Misdirected Request"); (422, lit "Unprocessable Entity"); (423, lit "Locked");
  (424, lit "Failed Dependency"); (425, lit "Too Early"); (426, lit "Upgrade Required");
  (428, lit "Precondition Required"); (429, lit "Too Many Requests");
  (431, lit "Request Header Fields Too Large"); (451, lit "Unavailable For Legal Reasons");
  (500, lit "Internal Server Error"); (501, lit "Not Implemented"); (502, lit "Bad Gateway");
  (503, lit "Service Unavailable"); (504, lit "Gateway Timeout");
  (505, lit "HTTP Version Not Supported"); (506, lit "Variant Also Negotiates");
  (507, lit "Insufficient Storage"); (508, lit "Loop Detected"); (510, lit "Not Extended");
  (511, lit "Network Authentication Required")].
(** http 1.3.1 status.rs [canonical_reason] (httpmock.rs:306-309). *)
Definition canonical_reason (code : N) : option str :=
  option_map snd (find (fun cr => fst cr =? code) canonical_reasons).

Section Mock.
Variable U : unicode.
Variable add_ref_types : list (str * ref_or schema) -> outcome type_space.
Variable types : type_id -> option type_info.
(** [syn::parse_str::<syn::Path>(crate_path).is_ok()] (httpmock.rs:74-78). *)
Variable is_path : str -> bool.

(** httpmock.rs:158-174: [arg_type_name], as far as computing it can panic. *)
Definition when_type (p : op_param) : outcome unit :=
  match p_typ p with
  | PType t =>
      match types t with
      | Some _ => Ok tt
      | None => Panic (lit "called `Result::unwrap()` on an `Err` value")
      end
  | PRawBody =>
      match p_kind p with
      | KBody OctetStream | KBody (Text _) => Ok tt
      | _ => Panic (lit "internal error: entered unreachable code")
      end
  end.

(** httpmock.rs:150-251, one method of the [When] wrapper. *)
Definition when_method_of (path : path_template) (p : op_param) : outcome when_method :=
  do _ <- when_type p;
  do b <-
    match p_kind p with
    | KPath => Ok (WbPath (as_wildcard_param path (p_api_name p)))
    | KQuery true => Ok (WbQuery (p_name p))
    | KQuery false => Ok (WbQueryOpt (p_name p))
    | KHeader _ => Ok WbTodo
    | KBody ct =>
        match p_typ p with
        | PType _ => Ok WbJsonObj
        | PRawBody =>
            match ct with
            | OctetStream => Ok WbJson
            | Text _ => Ok WbText
            | _ => Panic (lit "internal error: entered unreachable code")
            end
        end
    end;
  Ok (WhenMethod (p_name p) (p_typ p) b).

(** httpmock.rs:277-302. *)
Definition then_value_of (k : resp_kind) : outcome then_value :=
  match k with
  | RType t =>
      match types t with
      | Some _ => Ok (TvObj t)
      | None => Panic (lit "called `Result::unwrap()` on an `Err` value")
      end
  | RNone | RUpgrade => Ok TvNone
  | RRaw => Ok TvJson
  end.

(** httpmock.rs:304-349: name and status of a method of the [Then] wrapper. *)
Definition then_status_of (s : resp_status) : outcome (str * then_status) :=
  match s with
  | SCode c =>
      if (c <? 100) || (999 <? c)
      then Panic (lit "called `Result::unwrap()` on an `Err` value")
      else match canonical_reason c with
           | Some reason => Ok (sanitize U reason Snake, TsCode c)
           | None => Panic (lit "called `Option::unwrap()` on a `None` value")
           end
  | SRange r =>
      match r with
      | 1 => Ok (lit "informational", TsClass r)
      | 2 => Ok (lit "success", TsClass r)
      | 3 => Ok (lit "redirect", TsClass r)
      | 4 => Ok (lit "client_error", TsClass r)
      | 5 => Ok (lit "server_error", TsClass r)
      | _ => Panic (lit "internal error: entered unreachable code")
      end
  | SDefault => Ok (lit "default_response", TsAny)
  end.

(** httpmock.rs:270-352, one method of the [Then] wrapper. *)
Definition then_method_of (r : op_response) : outcome then_method :=
  do v <- then_value_of (o_typ r);
  do (n, s) <- then_status_of (o_status r);
  Ok (ThenMethod n s v).

(** httpmock.rs:129-374, [httpmock_method]. *)
Definition httpmock_method (m : op_method) : outcome mock_op :=
  do whens <- mapM (when_method_of (m_path m)) (m_params m);
  do thens <- mapM then_method_of (m_responses m);
  Ok (MockOp (sanitize U (m_operation_id m ++ lit "-when") Pascal) (m_method m) (as_wildcard (m_path m)) whens
        (sanitize U (m_operation_id m ++ lit "-then") Pascal) thens).

(** httpmock.rs:32-127, [httpmock]. *)
Definition httpmock (d : openapi) (crate_path : str) : outcome mock_code :=
  do _ <- validate_openapi U d;
  do ts <- add_ref_types (match oa_components d with Some c => co_schemas c | None => [] end);
  do groups <- mapM (process_path U ts (oa_components d)) (oa_paths d);
  let ms := concat groups in
  do ops <- mapM httpmock_method ms;
  if is_path crate_path
  then Ok (MockCode crate_path (combine (map m_operation_id ms) ops))
  else Panic (crate_path ++ lit " is not a valid identifier").
End Mock.

(** ** Running the generated code *)

(** What a mock server sees of a request: method, raw path, decoded query, body (httpmock's
    HttpMockRequest) (httpmock.rs:146-240). *)
Record mock_request := MockRequest {
  mr_method : http_method;
  mr_path : str;
  mr_query : list (str * str);
  mr_body : list N }.

(** What a [When] has been told so far; a request must meet all of it (httpmock.rs:176-240). *)
Inductive expectation :=
| ExMethod (m : http_method)           (* .method() *)
| ExPath (re : list rx_item)           (* .path_matches() *)
| ExQuery (k v : str)                  (* .query_param() *)
| ExNoQuery (k : str)                  (* .matches(), the closure of 216-225 *)
| ExJson (v : value)                   (* .json_body_obj(), .json_body() *)
| ExBody (b : list N).                 (* .body() *)

(** httpmock.rs:146-240. *)
Definition http_method_eqb (a b : http_method) : bool := str_eqb (http_method_str a) (http_method_str b).

Section Match.
(** Whether a body, read as JSON, is the given value (serde_json [from_slice], [to_value], [==]). *)
Variable json_is : value -> list N -> bool.

(** httpmock.rs:176-240. *)
Definition meets (r : mock_request) (e : expectation) : bool :=
  match e with
  | ExMethod m => http_method_eqb (mr_method r) m
  | ExPath re => is_match re (mr_path r)
  | ExQuery k v => existsb (fun kv => str_eqb (fst kv) k && str_eqb (snd kv) v) (mr_query r)
  | ExNoQuery k => negb (existsb (fun kv => str_eqb (fst kv) k) (mr_query r))
  | ExJson v => json_is v (mr_body r)
  | ExBody b => str_eqb (mr_body r) b
  end.
(** httpmock.rs:176-240. *)
Definition matched (es : list expectation) (r : mock_request) : bool := forallb (meets r) es.
End Match.

(** httpmock.rs:256-260, [new] of the [When] wrapper; [None] where [Regex::new] is not modelled or
    fails. *)
Definition when_new (o : mock_op) : option (list expectation) :=
  match regex_new (mo_path_re o) with
  | Some re => Some [ExMethod (mo_http_method o); ExPath re]
  | None => None
  end.

(** httpmock.rs:176-251, calling a method with a value (an absent one only for [WbQueryOpt]).  [None]:
    a panic, code that does not compile, or a regular expression that is not modelled. *)
Definition when_call (b : when_body) (arg : option value) : option expectation :=
  match b, arg with
  | WbPath f, Some v =>
      match format_macro f [v_text v] with
      | Some s => option_map ExPath (regex_new s)
      | None => None
      end
  | WbQuery n, Some v | WbQueryOpt n, Some v => Some (ExQuery n (v_text v))
  | WbQueryOpt n, None => Some (ExNoQuery n)
  | WbJsonObj, Some v | WbJson, Some v => Some (ExJson v)
  | WbText, Some v => Some (ExBody (v_bytes v))
  | _, _ => None
  end.

(** A mock told about some of the parameters, by name (httpmock.rs:176-240). *)
Fixpoint when_calls (o : mock_op) (cs : list (str * option value)) : option (list expectation) :=
  match cs with
  | [] => when_new o
  | (n, arg) :: r =>
      match find (fun w => str_eqb (wm_name w) n) (mo_when_methods o), when_calls o r with
      | Some w, Some es => option_map (fun e => es ++ [e]) (when_call (wm_body w) arg)
      | _, _ => None
      end
  end.

(** httpmock.rs:304-349: the status a method of the [Then] wrapper sets, given its [status] argument
    (ignored by [TsCode]); [None] is the failed assertion of 333. *)
Definition then_call (t : then_status) (status : N) : option N :=
  match t with
  | TsCode c => Some c
  | TsClass c => if status / 100 =? c then Some status else None
  | TsAny => Some status
  end.

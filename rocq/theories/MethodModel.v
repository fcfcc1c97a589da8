(** Model of the intermediate representation of an operation and of the code
    generated for it: progenitor-impl/src/method.rs:21-283 and 763-1204. *)
From Verif Require Import Base TemplateModel.
Local Open Scope N_scope.

(** typify's [TypeId] (an opaque number) (method.rs:91, 107, 259). *)
Notation type_id := N (only parsing).

(** method.rs:35-44, [HttpMethod]. *)
Inductive http_method := Get | Put | Post | Delete | Options | Head | Patch | Trace.

(** method.rs:46-62, [HttpMethod::from_str]. *)
Definition http_method_of (s : str) : outcome http_method :=
  if str_eqb s (lit "get") then Ok Get
  else if str_eqb s (lit "put") then Ok Put
  else if str_eqb s (lit "post") then Ok Post
  else if str_eqb s (lit "delete") then Ok Delete
  else if str_eqb s (lit "options") then Ok Options
  else if str_eqb s (lit "head") then Ok Head
  else if str_eqb s (lit "patch") then Ok Patch
  else if str_eqb s (lit "trace") then Ok Trace
  else Err (InternalError (lit "bad method: " ++ s)).

(** method.rs:64-75, [HttpMethod::as_str]. *)
Definition http_method_str (m : http_method) : str :=
  match m with
  | Get => lit "get" | Put => lit "put" | Post => lit "post" | Delete => lit "delete"
  | Options => lit "options" | Head => lit "head" | Patch => lit "patch" | Trace => lit "trace"
  end.

(** method.rs:135-141, [BodyContentType]. *)
Inductive body_content_type := OctetStream | Json | FormUrlencoded | Text (mime : str).

(** [str::find(c)] and the slice before it, as in method.rs:147-148. *)
Fixpoint before_char (c : char) (s : str) : str :=
  match s with
  | [] => []
  | x :: r => if N.eqb x c then [] else x :: before_char c r
  end.

(** method.rs:143-159, [BodyContentType::from_str]. *)
Definition body_content_type_of (s : str) : outcome body_content_type :=
  let t := before_char (ch ";") s in
  if str_eqb t (lit "application/octet-stream") then Ok OctetStream
  else if str_eqb t (lit "application/json") then Ok Json
  else if str_eqb t (lit "application/x-www-form-urlencoded") then Ok FormUrlencoded
  else if str_eqb t (lit "text/plain") || str_eqb t (lit "text/x-markdown") then Ok (Text t)
  else Err (UnexpectedFormat (lit "unexpected content type: " ++ s)).

(** method.rs:161-170, [Display for BodyContentType]. *)
Definition body_content_type_str (b : body_content_type) : str :=
  match b with
  | OctetStream => lit "application/octet-stream"
  | Json => lit "application/json"
  | FormUrlencoded => lit "application/x-www-form-urlencoded"
  | Text typ => typ
  end.

(** method.rs:105-109, [OperationParameterType]. *)
Inductive param_type := PType (t : type_id) | PRawBody.

(** method.rs:111-118, [OperationParameterKind]. *)
Inductive param_kind := KPath | KQuery (required : bool) | KHeader (required : bool)
                      | KBody (t : body_content_type).

(** method.rs:121-129, [is_required]. *)
Definition is_required (k : param_kind) : bool :=
  match k with KPath => true | KQuery r => r | KHeader r => r | KBody _ => true end.

(** method.rs:130-132, [is_optional]. *)
Definition is_optional (k : param_kind) : bool := negb (is_required k).

(** method.rs:95-103, [OperationParameter]. *)
Record op_param := OpParam {
  p_name : str; p_api_name : str; p_description : option str;
  p_typ : param_type; p_kind : param_kind }.

(** method.rs:199-204, [OperationResponseStatus]. *)
Inductive resp_status := SCode (c : N) | SRange (r : N) | SDefault.

(** method.rs:257-263, [OperationResponseKind]. *)
Inductive resp_kind := RType (t : type_id) | RNone | RRaw | RUpgrade.

(** method.rs:172-180, [OperationResponse] without its description. *)
Record op_response := OpResponse { o_status : resp_status; o_typ : resp_kind }.

(** method.rs:207-219, [to_value]; the assertions are [to_value_ok]. *)
Definition to_value (s : resp_status) : N :=
  match s with SCode c => c | SRange r => r * 100 | SDefault => 1000 end.
(** method.rs:210 and 214, the assertions of [to_value]. *)
Definition to_value_ok (s : resp_status) : bool :=
  match s with SCode c => c <? 1000 | SRange r => r <? 10 | SDefault => true end.

(** method.rs:221-229. *)
Definition is_success_or_default (s : resp_status) : bool :=
  match s with
  | SDefault => true
  | SCode c => (c =? 101) || ((200 <=? c) && (c <=? 299))
  | SRange r => r =? 2
  end.

(** method.rs:231-238. *)
Definition is_error_or_default (s : resp_status) : bool :=
  match s with
  | SDefault => true
  | SCode c => (400 <=? c) && (c <=? 599)
  | SRange r => (4 <=? r) && (r <=? 5)
  end.

(** method.rs:240-242. *)
Definition is_default (s : resp_status) : bool :=
  match s with SDefault => true | _ => false end.

(** method.rs:90-93, [DropshotPagination]. *)
Record pagination := Pagination { pg_item : type_id; pg_first_page_params : list str }.

(** method.rs:22-33, [OperationMethod]. *)
Record op_method := OpMethod {
  m_operation_id : str;
  m_tags : list str;
  m_method : http_method;
  m_path : path_template;
  m_summary : option str;
  m_description : option str;
  m_params : list op_param;
  m_responses : list op_response;
  m_paginated : option pagination;
  m_websocket : bool }.

(** Equality of kinds (derived [PartialEq], method.rs:257). *)
Definition resp_kind_eqb (a b : resp_kind) : bool :=
  match a, b with
  | RType x, RType y => x =? y
  | RNone, RNone | RRaw, RRaw | RUpgrade, RUpgrade => true
  | _, _ => false
  end.

(** [Vec::sort] with the order of method.rs:188-192 and 245-249: stable, by
    [to_value]. *)
Fixpoint insert_response (x : op_response) (l : list op_response) : list op_response :=
  match l with
  | [] => [x]
  | y :: r =>
      if to_value (o_status y) <=? to_value (o_status x)
      then y :: insert_response x r
      else x :: y :: r
  end.
(** method.rs:1168, [Vec::sort]. *)
Definition sort_responses (l : list op_response) : list op_response :=
  fold_left (fun acc x => insert_response x acc) l [].

(** method.rs:1173-1188: drop a default that follows [2XX] at the end. *)
Definition pop_default (l : list op_response) : list op_response :=
  match rev l with
  | d :: s :: r =>
      match o_status s, o_status d with
      | SRange n, SDefault => if n =? 2 then rev (s :: r) else l
      | _, _ => l
      end
  | _ => l
  end.

(** method.rs:1158-1204, [extract_responses]. *)
Definition extract_responses (m : op_method) (filter : resp_status -> bool)
  : outcome (list op_response * resp_kind) :=
  let items := List.filter (fun r => filter (o_status r)) (m_responses m) in
  if (1 <? N.of_nat (List.length items)) && negb (forallb (fun r => to_value_ok (o_status r)) items)
  then Panic (lit "assertion failed: *code < 1000")
  else
    let items := pop_default (sort_responses items) in
    match items with
    | [] => Ok ([], RNone)
    | x :: r =>
        if forallb (fun y => resp_kind_eqb (o_typ y) (o_typ x)) r
        then Ok (items, o_typ x)
        else Panic (lit "assertion failed: response_types.len() <= 1")
    end.

(** ** The generated method body *)

(** Patterns of the generated [match] (method.rs:933-938, 971-984). *)
Inductive pat := PatCode (c : N) | PatRange (lo hi : N) | PatAny.

(** Right-hand sides: how the response is turned into the result (method.rs:940-961). *)
Inductive decode := DFromResponse | DEmpty | DStream | DUpgrade.
(** method.rs:986-1019. *)
Inductive rhs :=
| RhsOk (d : decode)       (* Ok(ResponseValue::..(response)) *)
| RhsErr (d : decode)      (* Err(Error::ErrorResponse(ResponseValue::..(response))) *)
| RhsUnexpected.           (* Err(Error::UnexpectedResponse(response)) *)
(** method.rs:963, 1021, 1049. *)
Notation arm := (prod pat rhs) (only parsing).

(** Calls chained on the [reqwest::RequestBuilder] (method.rs:1092-1099). *)
Inductive chain_call :=
| CAcceptJson                          (* 1029-1037 *)
| CContentTypeBody (mime : str)        (* 884-904: .header(CONTENT_TYPE, mime).body(body) *)
| CJson                                (* 908-911: .json(&body) *)
| CForm                                (* 915-919: .form_urlencoded(&body)? *)
| CQuery (api_name ident : str)        (* 792-794, 1096 *)
| CHeaders                             (* 841-843: .headers(header_map) *)
| CWebsocket.                          (* 846-857 *)

(** Header statements: api name, identifier (method.rs:808-822). *)
Inductive header_stmt := HRequired (hn ident : str) | HOptional (hn ident : str).

(** Statements of the generated body (method.rs:1086-1145), identifiers included.  The
    client expression and the argument [&client.inner] of the hooks are left
    out. *)
Inductive stmt :=
| SLetUrl (x : str) (e : url_expr)                                        (* 874-876 *)
| SLetHeaders (hs : list header_stmt)                                     (* 831-839 *)
| SLetRequest (x : str) (m : http_method) (url : str) (calls : list chain_call) (* 1091-1099 *)
| SPreHook (req : str)                                                    (* 1057-1061 *)
| SPreHookAsync (req : str)                                               (* 1062-1069 *)
| SLetExecute (x req : str)                                               (* 1103-1105 *)
| SPostHook (res : str)                                                   (* 1070-1074 *)
| SPostHookAsync (res : str)                                              (* 1075-1082 *)
| SLetTry (x res : str)                                                   (* 1109 *)
| SMatch (x : str) (arms : list arm).                                     (* 1111-1144 *)

(** method.rs:78-82, [MethodSigBody]. *)
Record sig_body := SigBody { sb_success : resp_kind; sb_error : resp_kind; sb_body : list stmt }.

(** Which hooks are configured (lib.rs:58-77, GenerationSettings). *)
Record hooks := Hooks {
  has_pre_hook : bool; has_pre_hook_async : bool; has_post_hook : bool; has_post_hook_async : bool }.

(** util.rs:116-131, [unique_ident_from].  The loop runs at most once per
    element of [ids] plus one; fuel accordingly. *)
Fixpoint unique_loop (fuel : nat) (name : str) (ids : list str) : str :=
  match fuel with
  | O => name
  | S f => if mem name ids then unique_loop f (lit "_" ++ name) ids else name
  end.
(** util.rs:116-131, [unique_ident_from]. *)
Definition unique_ident_from (name : str) (ids : list str) : str :=
  unique_loop (List.length ids) name ids.

(** method.rs:785-798. *)
Definition query_calls (ps : list op_param) : list chain_call :=
  flat_map (fun p => match p_kind p with
                     | KQuery _ => [CQuery (p_api_name p) (p_name p)]
                     | _ => []
                     end) ps.

(** method.rs:800-828. *)
Definition header_stmts (ps : list op_param) : list header_stmt :=
  flat_map (fun p => match p_kind p with
                     | KHeader true => [HRequired (p_api_name p) (p_name p)]
                     | KHeader false => [HOptional (p_api_name p) (p_name p)]
                     | _ => []
                     end) ps.

(** method.rs:864-871. *)
Definition url_renames (ps : list op_param) : list (str * str) :=
  flat_map (fun p => match p_kind p with
                     | KPath => [(p_api_name p, p_name p)]
                     | _ => []
                     end) ps.

(** method.rs:879-925. *)
Fixpoint body_calls (ps : list op_param) : outcome (list chain_call) :=
  match ps with
  | [] => Ok []
  | p :: r =>
      match p_kind p, p_typ p with
      | KBody OctetStream, PRawBody =>
          do t <- body_calls r; Ok (CContentTypeBody (lit "application/octet-stream") :: t)
      | KBody (Text mime), PRawBody => do t <- body_calls r; Ok (CContentTypeBody mime :: t)
      | KBody Json, PType _ => do t <- body_calls r; Ok (CJson :: t)
      | KBody FormUrlencoded, PType _ => do t <- body_calls r; Ok (CForm :: t)
      | KBody _, _ => Panic (lit "internal error: entered unreachable code: invalid body kind/type combination")
      | _, _ => body_calls r
      end
  end.

(** method.rs:940-961 and 986-1019. *)
Definition decode_of (k : resp_kind) : decode :=
  match k with
  | RType _ => DFromResponse
  | RNone => DEmpty
  | RRaw => DStream
  | RUpgrade => DUpgrade
  end.

(** method.rs:932-964. *)
Definition success_arm (r : op_response) : arm :=
  (match o_status r with
   | SCode c => PatCode c
   | SRange _ | SDefault => PatRange 200 299
   end, RhsOk (decode_of (o_typ r))).

(** method.rs:970-1022. *)
Definition error_arm (r : op_response) : outcome (list arm) :=
  let p := match o_status r with
           | SCode c => PatCode c
           | SRange n => PatRange (n * 100) (n * 100 + 99)
           | SDefault => PatAny
           end in
  match o_typ r with
  | RUpgrade =>
      match o_status r with
      | SDefault => Ok []
      | _ => Panic (lit "not yet implemented: non-default error response handling for upgrade requests is not yet implemented")
      end
  | k => Ok [(p, RhsErr (decode_of k))]
  end.

(** The arms of the match (method.rs:1111-1144). *)
Definition concat_arms (l : outcome (list (list arm))) : outcome (list arm) :=
  omap (@List.concat _) l.

(** method.rs:1024-1038. *)
Definition accept_calls (success error : resp_kind) : list chain_call :=
  match success, error with
  | RType _, _ => [CAcceptJson]
  | RNone, RType _ => [CAcceptJson]
  | _, _ => []
  end.

(** method.rs:1046-1051. *)
Definition default_arm (rs : list op_response) : list arm :=
  match rev rs with
  | r :: _ => if is_default (o_status r) then [] else [(PatAny, RhsUnexpected)]
  | [] => [(PatAny, RhsUnexpected)]
  end.

(** method.rs:766-1152, [method_sig_body]. *)
Definition method_sig_body (h : hooks) (m : op_method) : outcome sig_body :=
  let names := map p_name (m_params m) in
  let url := unique_ident_from (lit "url") names in
  let request := unique_ident_from (lit "request") names in
  let response := unique_ident_from (lit "response") names in
  let result := unique_ident_from (lit "result") names in
  do url_path <- compile (m_path m) (url_renames (m_params m));
  do bodies <- body_calls (m_params m);
  if 1 <? N.of_nat (List.length bodies) then Panic (lit "assertion failed: body_func.clone().count() <= 1")
  else
    do (success_items, success_type) <- extract_responses m is_success_or_default;
    do (error_items, error_type) <- extract_responses m is_error_or_default;
    do error_arms <- concat_arms (mapM error_arm error_items);
    let calls :=
      accept_calls success_type error_type ++ bodies ++ query_calls (m_params m)
      ++ [CHeaders] ++ (if m_websocket m then [CWebsocket] else []) in
    Ok (SigBody success_type error_type
         ([SLetUrl url url_path;
           SLetHeaders (header_stmts (m_params m));
           SLetRequest request (m_method m) url calls]
          ++ (if has_pre_hook h then [SPreHook request] else [])
          ++ (if has_pre_hook_async h then [SPreHookAsync request] else [])
          ++ [SLetExecute result request]
          ++ (if has_post_hook h then [SPostHook result] else [])
          ++ (if has_post_hook_async h then [SPostHookAsync result] else [])
          ++ [SLetTry response result;
              SMatch response (map success_arm success_items ++ error_arms
                               ++ default_arm (m_responses m))])).

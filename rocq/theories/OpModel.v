(** Model of the processing of one operation of the document:
    progenitor-impl/src/util.rs:11-76, progenitor-impl/src/method.rs:285-549,
    1206-1323, 2016-2140 and 2226-2306. *)
From Verif Require Import Base OasModel TemplateModel MethodModel.
Local Open Scope N_scope.

(** ** The document *)

(** openapiv3::ParameterData (method.rs:2293-2306); [pd_schema] is [None] for the [content]
    variant. *)
Record param_data := ParamData {
  pd_name : str;
  pd_description : option str;
  pd_required : bool;
  pd_schema : option (ref_or schema);
  pd_explode : option bool }.

(** openapiv3::PathStyle (method.rs:310). *)
Inductive path_style := PsMatrix | PsLabel | PsSimple.
(** openapiv3::QueryStyle (method.rs:334). *)
Inductive query_style := QsForm | QsSpaceDelimited | QsPipeDelimited | QsDeepObject.

(** openapiv3::Parameter (method.rs:306-404). *)
Inductive parameter :=
| ParQuery (d : param_data) (style : query_style)
| ParHeader (d : param_data)
| ParPath (d : param_data) (style : path_style)
| ParCookie (d : param_data).

(** openapiv3::Parameter::parameter_data_ref (method.rs:299, util.rs:50). *)
Definition parameter_data (p : parameter) : param_data :=
  match p with ParQuery d _ => d | ParHeader d => d | ParPath d _ => d | ParCookie d => d end.

(** openapiv3::MediaType (method.rs:458-475, 2026-2040): the schema, and whether [encoding] is empty. *)
Record media_type := MediaType { mt_schema : option (ref_or schema); mt_encoding_empty : bool }.

(** openapiv3::Response (method.rs:445-504): the media types in document order. *)
Record response_doc := ResponseDoc { rd_content : list (str * media_type) }.
(** openapiv3::RequestBody (method.rs:2021-2034). *)
Record request_body := RequestBody { rb_description : option str; rb_content : list (str * media_type) }.

(** openapiv3::StatusCode (method.rs:437-440). *)
Inductive status_code := ScCode (c : N) | ScRange (r : N).

(** openapiv3::Operation, the parts that are read (method.rs:286-549). *)
Record operation := Operation {
  op_id : option str;
  op_tags : list str;
  op_summary : option str;
  op_description : option str;
  op_parameters : list (ref_or parameter);
  op_request_body : option (ref_or request_body);
  op_default : option (ref_or response_doc);
  op_responses : list (status_code * ref_or response_doc);
  op_extensions : list (str * json) }.

(** openapiv3::Components, the parts that are read (util.rs:54-76, lib.rs:312-317). *)
Record components := Components {
  co_parameters : list (str * ref_or parameter);
  co_request_bodies : list (str * ref_or request_body);
  co_responses : list (str * ref_or response_doc);
  co_schemas : list (str * ref_or schema) }.

(** ** typify *)

(** typify::TypeDetails, as far as it is inspected (method.rs:1271-1310). *)
Inductive type_details :=
| TdOption (t : type_id)
| TdString
| TdVec (t : type_id)
| TdStruct (props : list (str * type_id))
| TdOther.

(** typify::TypeSpace as seen by one run of the generator: the answer of
    [add_type_with_name] for a schema and a name, and the details of the types
    it knows (method.rs:347-349, 469). *)
Record type_space := TypeSpace {
  ts_add : ref_or schema -> str -> outcome type_id;
  ts_details : type_id -> option type_details }.

(** ** util.rs *)

(** [str::rfind('/')] and the rest of the text after it (util.rs:23-24). *)
Fixpoint after_last_slash (s : str) : option str :=
  match s with
  | [] => None
  | c :: r =>
      match after_last_slash r with
      | Some t => Some t
      | None => if N.eqb c (ch "/") then Some r else None
      end
  end.

(** util.rs:18-33, [item], following at most [fuel] references. *)
Fixpoint item_n {A} (fuel : nat) (get : components -> list (str * ref_or A))
    (comps : option components) (r : ref_or A) : option (outcome A) :=
  match r with
  | Item a => Some (Ok a)
  | Ref reference =>
      match fuel with
      | O => None
      | S f =>
          match after_last_slash reference with
          | None => Some (Panic (lit "called `Option::unwrap()` on a `None` value"))
          | Some key =>
              match comps with
              | None => Some (Panic (lit "called `Option::unwrap()` on a `None` value"))
              | Some c =>
                  match assoc key (get c) with
                  | None => Some (Panic (lit "key " ++ key ++ lit " is missing"))
                  | Some r' => item_n f get comps r'
                  end
              end
          end
      end
  end.

(** util.rs:18-33, [item].  The recursion is unbounded; following more
    references than there are components means it never ends, which in Rust
    exhausts the stack. *)
Definition item {A} (get : components -> list (str * ref_or A))
    (comps : option components) (r : ref_or A) : outcome A :=
  let size := match comps with Some c => List.length (get c) | None => O end in
  match item_n (S size) get comps r with
  | Some o => o
  | None => Panic (lit "stack overflow")
  end.

(** util.rs:35-43, [items]. *)
Definition items {A} (get : components -> list (str * ref_or A))
    (refs : list (ref_or A)) (comps : option components) : outcome (list A) :=
  mapM (item get comps) refs.

(** [BTreeMap::insert] on the sorted list of entries (util.rs:45-52, method.rs:1925). *)
Fixpoint bt_insert {A} (k : str) (v : A) (l : list (str * A)) : list (str * A) :=
  match l with
  | [] => [(k, v)]
  | (k', v') :: r =>
      match str_cmp k k' with
      | Lt => (k, v) :: l
      | Eq => (k', v) :: r
      | Gt => (k', v') :: bt_insert k v r
      end
  end.

(** Inserting a sequence of entries (util.rs:45-52, method.rs:1925). *)
Definition bt_inserts {A} (kvs : list (str * A)) (m : list (str * A)) : list (str * A) :=
  fold_left (fun m kv => bt_insert (fst kv) (snd kv) m) kvs m.

(** The map entry of a parameter: keyed by its name (util.rs:50, method.rs:299). *)
Definition param_entry (p : parameter) : str * parameter := (pd_name (parameter_data p), p).

(** util.rs:45-52, [parameter_map]. *)
Definition parameter_map (refs : list (ref_or parameter)) (comps : option components)
  : outcome (list (str * parameter)) :=
  do ps <- items co_parameters refs comps; Ok (bt_inserts (map param_entry ps) []).

(** ** method.rs *)

Section Op.
(** [sanitize(_, Case::Snake)] and [sanitize(_, Case::Pascal)], and typify. *)
Variable snake pascal : str -> str.
Variable ts : type_space.

(** method.rs:2293-2306, [ParameterDataExt::schema]. *)
Definition param_schema (d : param_data) : outcome (ref_or schema) :=
  match pd_schema d with
  | Some s => Ok s
  | None => Err (UnexpectedFormat (lit "unexpected content"))
  end.

(** method.rs:306-404, one parameter.  The texts of the errors at 394-402
    print the style with [{:#?}]; the model leaves that out. *)
Definition process_param (operation_id : str) (p : parameter) : outcome op_param :=
  let type_name d := pascal (operation_id ++ lit "-" ++ pd_name d) in
  match p with
  | ParPath d PsSimple =>
      if negb (pd_required d) then Panic (lit "assertion failed: parameter_data.required")
      else
        do s <- param_schema d;
        do t <- ts_add ts s (type_name d);
        Ok (OpParam (snake (pd_name d)) (pd_name d) (pd_description d) (PType t) KPath)
  | ParQuery d QsForm =>
      do s <- param_schema d;
      do t <- ts_add ts s (type_name d);
      do (t', required) <-
        match ts_details ts t with
        | None => Panic (lit "called `Result::unwrap()` on an `Err` value")
        | Some (TdOption i) => Ok (i, false)
        | Some _ => Ok (t, pd_required d)
        end;
      Ok (OpParam (snake (pd_name d)) (pd_name d) (pd_description d) (PType t') (KQuery required))
  | ParHeader d =>
      do s <- param_schema d;
      do t <- ts_add ts s (type_name d);
      Ok (OpParam (snake (pd_name d)) (pd_name d) (pd_description d) (PType t) (KHeader (pd_required d)))
  | ParPath _ _ => Err (UnexpectedFormat (lit "unsupported style of path parameter"))
  | ParQuery _ _ => Err (UnexpectedFormat (lit "unsupported style of query parameter"))
  | ParCookie _ => Err (UnexpectedFormat (lit "cookie parameters are not supported"))
  end.

(** The schema patterns of method.rs:2049-2073 and 2086-2107. *)
Definition plain_string (fmt : variant_or string_format -> bool) (s : schema) : bool :=
  let d := s_data s in
  negb (sd_nullable d) && negb (sd_discriminator d)
  && match sd_default d with None => true | _ => false end
  && match s_kind s with
     | SkString t =>
         fmt (st_format t)
         && match st_pattern t with None => true | _ => false end
         && match st_min_length t with None => true | _ => false end
         && match st_max_length t with None => true | _ => false end
         && match st_enumeration t with [] => true | _ => false end
     | _ => false
     end.
(** method.rs:2063-2066. *)
Definition is_binary_format (f : variant_or string_format) : bool :=
  match f with VItem SfBinary => true | _ => false end.
(** method.rs:2100. *)
Definition is_empty_format (f : variant_or string_format) : bool :=
  match f with VEmpty => true | _ => false end.

(** method.rs:2016-2140, [get_body_param]. *)
Definition get_body_param (operation_id : str) (body : option (ref_or request_body))
    (comps : option components) : outcome (option op_param) :=
  match body with
  | None => Ok None
  | Some b =>
      do b <- item co_request_bodies comps b;
      match rb_content b with
      | [] => Ok None
      | [(content_str, media)] =>
          match mt_schema media with
          | None => Err (UnexpectedFormat (lit "No schema specified for request body"))
          | Some sch =>
              do ct <- body_content_type_of content_str;
              do typ <-
                match ct with
                | OctetStream =>
                    do s <- item co_schemas comps sch;
                    if plain_string is_binary_format s then Ok PRawBody
                    else Err (UnexpectedFormat (lit "invalid schema for application/octet-stream"))
                | Text _ =>
                    do s <- item co_schemas comps sch;
                    if plain_string is_empty_format s then Ok PRawBody
                    else Err (UnexpectedFormat (lit "invalid schema for " ++ body_content_type_str ct))
                | Json | FormUrlencoded =>
                    if negb (mt_encoding_empty media) then Panic (lit "not yet implemented: media type encoding not empty")
                    else
                      do t <- ts_add ts sch (pascal (operation_id ++ lit "-body"));
                      Ok (PType t)
                end;
              Ok (Some (OpParam (lit "body") (lit "body") (rb_description b) typ (KBody ct)))
          end
      | _ => Panic (lit "not yet implemented: more media types than expected")
      end
  end.

(** [names.iter().position(|x| x == a)] (method.rs:2240-2247). *)
Fixpoint position (names : list str) (a : str) : option N :=
  match names with
  | [] => None
  | x :: r => if str_eqb x a then Some 0 else option_map N.succ (position r a)
  end.

(** method.rs:2228-2290, the comparison of [sort_params]. *)
Definition cmp_params (names : list str) (a b : op_param) : outcome comparison :=
  match p_kind a, p_kind b with
  | KPath, KPath =>
      match position names (p_api_name a) with
      | None => Panic (p_api_name a ++ lit " missing from path")
      | Some i =>
          match position names (p_api_name b) with
          | None => Panic (p_api_name b ++ lit " missing from path")
          | Some j => Ok (i ?= j)
          end
      end
  | KPath, KQuery _ => Ok Lt
  | KPath, KBody _ => Ok Lt
  | KPath, KHeader _ => Ok Lt
  | KQuery _, KBody _ => Ok Lt
  | KQuery _, KQuery _ => Ok (str_cmp (p_api_name a) (p_api_name b))
  | KQuery _, KPath => Ok Gt
  | KQuery _, KHeader _ => Ok Lt
  | KBody _, KPath => Ok Gt
  | KBody _, KQuery _ => Ok Gt
  | KBody _, KHeader _ => Ok Gt
  | KBody _, KBody _ => Panic (lit "should only be one body")
  | KHeader _, KHeader _ => Ok (str_cmp (p_api_name a) (p_api_name b))
  | KHeader _, _ => Ok Gt
  end.

(** core::slice::sort, insertion into the sorted prefix (given last element
    first): the new element moves left while it is less than its neighbour (method.rs:2227). *)
Fixpoint insert_tail (names : list str) (x : op_param) (rprefix : list op_param)
  : outcome (list op_param) :=
  match rprefix with
  | [] => Ok [x]
  | y :: r =>
      do c <- cmp_params names x y;
      match c with
      | Lt => do t <- insert_tail names x r; Ok (y :: t)
      | _ => Ok (x :: y :: r)
      end
  end.

(** method.rs:2226-2291, [sort_params]: [sort_by] is modelled by the insertion
    sort the standard library uses for short slices. *)
Fixpoint sort_params_from (names : list str) (rprefix : list op_param) (l : list op_param)
  : outcome (list op_param) :=
  match l with
  | [] => Ok (rev rprefix)
  | x :: r => do p <- insert_tail names x rprefix; sort_params_from names p r
  end.
(** method.rs:2226-2291, [sort_params]. *)
Definition sort_params (l : list op_param) (names : list str) : outcome (list op_param) :=
  sort_params_from names [] l.

(** method.rs:436-440. *)
Definition status_of (s : status_code) : resp_status :=
  match s with ScCode c => SCode c | ScRange r => SRange r end.

(** method.rs:424-444, the documented responses, default first. *)
Definition documented (op : operation) : list (resp_status * ref_or response_doc) :=
  match op_default op with Some r => [(SDefault, r)] | None => [] end
  ++ map (fun sr => (status_of (fst sr), snd sr)) (op_responses op).

(** method.rs:458-460, the JSON media type of a response. *)
Definition is_json_name (x : str) : bool :=
  str_eqb x (lit "application/json") || starts_with (lit "application/json;") x.

(** method.rs:445-504, one response. *)
Definition process_response (operation_id : str) (websocket : bool) (comps : option components)
    (v : resp_status * ref_or response_doc) : outcome op_response :=
  do doc <- item co_responses comps (snd v);
  do typ <-
    match find (fun xm => is_json_name (fst xm)) (rd_content doc) with
    | Some (_, mt) =>
        if negb (mt_encoding_empty mt) then Panic (lit "assertion failed: mt.encoding.is_empty()")
        else
          match mt_schema mt with
          | Some sch =>
              do t <- ts_add ts sch (pascal (operation_id ++ lit "-response")); Ok (RType t)
          | None => Panic (lit "not yet implemented: media type encoding, no schema")
          end
    | None =>
        Ok (if websocket then RUpgrade
            else match rd_content doc with [] => RNone | _ => RRaw end)
    end;
  Ok (OpResponse (fst v) typ).

(** method.rs:483-491: a documented status that covers success. *)
Definition covers_success (s : resp_status) : bool :=
  match s with
  | SDefault => true
  | SCode c => (200 <=? c) && (c <=? 299)
  | SRange r => r =? 2
  end.

(** method.rs:421-526, the responses of the operation. *)
Definition process_responses (operation_id : str) (websocket : bool) (comps : option components)
    (op : operation) : outcome (list op_response) :=
  do rs <- mapM (process_response operation_id websocket comps) (documented op);
  let success := existsb (fun r => covers_success (o_status r)) rs in
  Ok (rs ++ (if success then [] else [OpResponse (SRange 2) RRaw])
         ++ (if websocket then [OpResponse (SCode 101) RUpgrade] else [])).

(** method.rs:1308-1315: the [required] list of the extension value, empty if
    it has another shape (a struct is also read from a one-element array). *)
Definition json_strings (j : json) : option (list str) :=
  match j with
  | JArr l => fold_right (fun x acc => match x, acc with
                                       | JStr s, Some r => Some (s :: r)
                                       | _, _ => None
                                       end) (Some []) l
  | _ => None
  end.
(** method.rs:1308-1315. *)
Definition first_page_params_of (v : json) : list str :=
  let field := match v with
               | JObj fs => assoc (lit "required") fs
               | JArr [x] => Some x
               | _ => None
               end in
  match field with
  | Some x => match json_strings x with Some l => l | None => [] end
  | None => []
  end.

(** method.rs:1208-1323, [dropshot_pagination_data]. *)
Definition is_page_param (p : op_param) : bool :=
  match p_kind p with
  | KQuery false => str_eqb (p_api_name p) (lit "page_token") || str_eqb (p_api_name p) (lit "limit")
  | _ => false
  end.
(** method.rs:1208-1323, [dropshot_pagination_data]. *)
Definition dropshot_pagination_data (extensions : list (str * json)) (ps : list op_param)
    (rs : list op_response) : option pagination :=
  match assoc (lit "x-dropshot-pagination") extensions with
  | None => None
  | Some value =>
      if negb (Nat.eqb (List.length (filter is_page_param ps)) 2) then None
      else if negb (forallb (fun p => match p_kind p with KQuery r => negb r | _ => true end) ps)
      then None
      else if existsb (fun p => match p_typ p with PRawBody => true | _ => false end) ps then None
      else
        match flat_map (fun r => match o_status r, o_typ r with
                                 | SCode c, RType t => if (200 <=? c) && (c <=? 299) then [t] else []
                                 | SRange n, RType t => if n =? 2 then [t] else []
                                 | _, _ => []
                                 end) rs with
        | [success] =>
            match ts_details ts success with
            | Some (TdStruct props) =>
                let properties := bt_inserts props [] in
                if negb (Nat.eqb (List.length properties) 2) then None
                else
                  match assoc (lit "next_page") properties with
                  | None => None
                  | Some np =>
                      match ts_details ts np with
                      | Some (TdOption o) =>
                          match ts_details ts o with
                          | Some TdString =>
                              match assoc (lit "items") properties with
                              | None => None
                              | Some it =>
                                  match ts_details ts it with
                                  | Some (TdVec i) =>
                                      Some (Pagination i (first_page_params_of value))
                                  | _ => None
                                  end
                              end
                          | _ => None
                          end
                      | _ => None
                      end
                  end
            | _ => None
            end
        | _ => None
        end
  end.

(** [Option::filter(|s| !s.is_empty())] (method.rs:542-543). *)
Definition non_empty (s : option str) : option str :=
  match s with Some [] => None | o => o end.

(** method.rs:286-549, [process_operation]. *)
Definition process_operation (op : operation) (comps : option components) (path method : str)
    (path_parameters : list (ref_or parameter)) : outcome op_method :=
  match op_id op with
  | None => Panic (lit "called `Option::unwrap()` on a `None` value")
  | Some operation_id =>
      do m0 <- parameter_map path_parameters comps;
      do ops <- items co_parameters (op_parameters op) comps;
      let combined := bt_inserts (map param_entry ops) m0 in
      do params <- mapM (process_param operation_id) (map snd combined);
      let websocket :=
        match assoc (lit "x-dropshot-websocket") (op_extensions op) with Some _ => true | None => false end in
      do body <- get_body_param operation_id (op_request_body op) comps;
      let params := params ++ match body with Some b => [b] | None => [] end in
      do tmp <- parse path;
      do params <- sort_params params (names tmp);
      do responses <- process_responses operation_id websocket comps op;
      let paginated := dropshot_pagination_data (op_extensions op) params responses in
      if websocket && match paginated with Some _ => true | None => false end
      then Err (InvalidExtension (lit "conflicting extensions"))
      else
        do m <- http_method_of method;
        Ok (OpMethod (snake operation_id) (op_tags op) m tmp (non_empty (op_summary op))
              (non_empty (op_description op)) params responses paginated websocket)
  end.
End Op.

(** Model of the generation of a whole client: progenitor-impl/src/lib.rs:308-625 and 656-702, and of
    the parts of progenitor-impl/src/method.rs that render methods and tags (551-761, 1790-1838,
    1863-2014, 2143-2224). *)
From Verif Require Import Base OasModel TemplateModel MethodModel OpModel RunModel BuilderModel FutureModel
  StreamModel SanitizeModel.
Local Open Scope N_scope.

(** ** The document *)

(** openapiv3::PathItem, the parts that are read (lib.rs:326-328). *)
Record path_item := PathItem {
  pi_get : option operation;
  pi_put : option operation;
  pi_post : option operation;
  pi_delete : option operation;
  pi_options : option operation;
  pi_head : option operation;
  pi_patch : option operation;
  pi_trace : option operation;
  pi_parameters : list (ref_or parameter) }.

(** openapiv3::PathItem::iter (lib.rs:327, 681). *)
Definition path_item_iter (i : path_item) : list (str * operation) :=
  flat_map (fun vo => match snd vo with Some o => [(fst vo, o)] | None => [] end)
    [(lit "get", pi_get i); (lit "put", pi_put i); (lit "post", pi_post i);
     (lit "delete", pi_delete i); (lit "options", pi_options i); (lit "head", pi_head i);
     (lit "patch", pi_patch i); (lit "trace", pi_trace i)].

(** openapiv3::Tag and openapiv3::OpenAPI, the parts that are read (lib.rs:308-407, 669-702; method.rs:1968-1971); [paths] is an IndexMap, so its
    keys are different and in document order. *)
Record tag_doc := TagDoc { tg_name : str; tg_description : option str }.
(** openapiv3::OpenAPI, as read at lib.rs:308-407. *)
Record openapi := OpenApi {
  oa_openapi : str;
  oa_title : str;
  oa_description : option str;
  oa_terms_of_service : option str;
  oa_version : str;
  oa_paths : list (str * ref_or path_item);
  oa_components : option components;
  oa_tags : list tag_doc }.

(** lib.rs:58-77, the settings that matter here (InterfaceStyle 85-92, TagStyle 100-107). *)
Inductive interface_style := Positional | Builder.
(** lib.rs:100-107. *)
Inductive tag_style := Merged | Separate.
(** lib.rs:58-77. *)
Record settings := Settings {
  se_interface : interface_style;
  se_tag : tag_style;
  se_inner : bool;        (* inner_type.is_some() *)
  se_hooks : hooks }.

(** ** What is generated *)

(** method.rs:559-593, the type of a parameter of a positional method. *)
Inductive sig_type := SigType (t : type_id) | SigOption (t : type_id) | SigB | SigString.

(** The items of the impl blocks: an async method (method.rs:614-625), a stream method (690-752), and
    a method that returns a builder (1889-1897). *)
Inductive impl_item :=
| ImMethod (name doc : str) (params : list (str * sig_type)) (generic : bool) (code : sig_body)
| ImStream (name doc : str) (params : list (str * sig_type)) (generic : bool)
    (callee : str) (first step : list arg_expr)
| ImBuilder (name doc struct : str).

(** The name of a method (method.rs:556, 631, 1864). *)
Definition im_name (i : impl_item) : str :=
  match i with ImMethod n _ _ _ _ => n | ImStream n _ _ _ _ _ _ => n | ImBuilder n _ _ => n end.

(** An extension trait and its implementation (method.rs:1976-1986). *)
Record trait_code := TraitCode {
  tc_name : str;
  tc_doc : option str;
  tc_methods : list impl_item;
  tc_impl : list impl_item }.

(** A struct of the builder module (method.rs:1840-1860). *)
Record struct_code := StructCode {
  sc_name : str;
  sc_doc : str;
  sc_send_doc : str;
  sc_stream_doc : option str;
  sc_code : builder_code }.

(** The operation code (lib.rs:336-359): the impl block of the client, if any, the traits, the builder
    module, and the names re-exported by the prelude. *)
Record operation_code := OperationCode {
  oc_impl : list impl_item;
  oc_traits : list trait_code;
  oc_builders : list struct_code;
  oc_prelude : list str }.

(** The file (lib.rs:413-499): documentation of the client, the methods every client has, the version
    string, the operation code; and the flags 633-643. *)
Record generated_code := GeneratedCode {
  ge_doc : str;
  ge_fixed : list str;
  ge_version : str;
  ge_code : operation_code;
  ge_futures : bool;
  ge_websockets : bool }.

Section Generate.
(** The tables behind [sanitize] and [str::trim]; typify's [add_ref_types] and what it knows about
    types; [to_ascii_uppercase] is modelled below. *)
Variable U : unicode.
Variable add_ref_types : list (str * ref_or schema) -> outcome type_space.
Variable types : type_id -> option type_info.

(** ** Validation *)

(** [str::trim] (lib.rs:658). *)
Fixpoint trim_start (s : str) : str :=
  match s with
  | c :: r => if whitespace U c then trim_start r else s
  | [] => []
  end.
(** lib.rs:658. *)
Definition trim (s : str) : str := rev (trim_start (rev (trim_start s))).

(** lib.rs:656-666. *)
Definition validate_openapi_spec_version (v : str) : outcome unit :=
  if starts_with (lit "3.0.") (trim v) then Ok tt
  else Err (UnexpectedFormat (lit "invalid version: " ++ v)).

(** lib.rs:681-699, the operations of one path; [seen] is the set [opids]. *)
Fixpoint validate_operations (path : str) (ops : list (str * operation)) (seen : list str)
  : outcome (list str) :=
  match ops with
  | [] => Ok seen
  | (_, o) :: r =>
      match op_id o with
      | Some oid =>
          if mem oid seen then Err (UnexpectedFormat (lit "duplicate operation ID: " ++ oid))
          else validate_operations path r (oid :: seen)
      | None => Err (UnexpectedFormat (lit "path " ++ path ++ lit " is missing operation ID"))
      end
  end.

(** lib.rs:673-700. *)
Fixpoint validate_paths (paths : list (str * ref_or path_item)) (seen : list str)
  : outcome (list str) :=
  match paths with
  | [] => Ok seen
  | (path, Ref _) :: _ =>
      Err (UnexpectedFormat (lit "path " ++ path ++ lit " uses reference, unsupported"))
  | (path, Item i) :: r =>
      do seen <- validate_operations path (path_item_iter i) seen; validate_paths r seen
  end.

(** lib.rs:669-702. *)
Definition validate_openapi (d : openapi) : outcome unit :=
  do _ <- validate_openapi_spec_version (oa_openapi d);
  do _ <- validate_paths (oa_paths d) [];
  Ok tt.

(** ** Documentation *)

(** [str::to_ascii_uppercase] (method.rs:2157, 2196). *)
Definition ascii_upper (c : char) : char :=
  if (ch "a" <=? c) && (c <=? ch "z") then c - 32 else c.
(** method.rs:2157, 2196, 1646, 1707. *)
Definition to_ascii_uppercase (s : str) : str := map ascii_upper s.

(** [str::trim_end_matches(['.', ','])] (method.rs:2147, 2186). *)
Fixpoint drop_dots (s : str) : str :=
  match s with
  | c :: r => if (c =? ch ".") || (c =? ch ",") then drop_dots r else s
  | [] => []
  end.
(** method.rs:2147, 2186. *)
Definition trim_end_dots (s : str) : str := rev (drop_dots (rev s)).

(** method.rs:2170-2175 and 2214-2219: one line per parameter. *)
Definition argument_line (p : op_param) : str :=
  lit "- `" ++ p_name p ++ lit "`"
  ++ match p_description p with Some d => lit ": " ++ d | None => [] end ++ [10].

(** method.rs:2161-2177 and 2200-2221. *)
Definition argument_lines (ps : list op_param) : str :=
  if existsb (fun p => match p_description p with Some _ => true | None => false end) ps
  then lit "Arguments:" ++ [10] ++ flat_map argument_line ps
  else [].

(** method.rs:2157, 2196: the verb of the request in upper case. *)
Definition verb (m : op_method) : str := to_ascii_uppercase (http_method_str (m_method m)).

(** method.rs:2143-2180, [make_doc_comment]. *)
Definition make_doc_comment (m : op_method) : str :=
  match m_summary m with Some s => trim_end_dots s ++ [10; 10] | None => [] end
  ++ match m_description m with Some s => s ++ [10; 10] | None => [] end
  ++ lit "Sends a `" ++ verb m ++ lit "` request to `" ++ to_string (m_path m) ++ lit "`" ++ [10; 10]
  ++ argument_lines (m_params m).

(** method.rs:2182-2224, [make_stream_doc_comment]. *)
Definition make_stream_doc_comment (m : op_method) : str :=
  match m_summary m with Some s => trim_end_dots s ++ lit " as a Stream" ++ [10; 10] | None => [] end
  ++ match m_description m with Some s => s ++ [10; 10] | None => [] end
  ++ lit "Sends repeated `" ++ verb m ++ lit "` requests to `" ++ to_string (m_path m)
  ++ lit "` until there are no more results." ++ [10; 10]
  ++ argument_lines (filter (fun p => negb (str_eqb (p_api_name p) (lit "page_token"))) (m_params m)).

(** ** Positional methods *)

(** method.rs:562-592. *)
Definition sig_type_of (p : op_param) : outcome sig_type :=
  match p_typ p, is_optional (p_kind p) with
  | PType t, o =>
      match types t with
      | Some _ => Ok (if o then SigOption t else SigType t)
      | None => Panic (lit "called `Result::unwrap()` on an `Err` value")
      end
  | PRawBody, false =>
      match p_kind p with
      | KBody OctetStream => Ok SigB
      | KBody (Text _) => Ok SigString
      | _ => Panic (lit "internal error: entered unreachable code")
      end
  | PRawBody, true => Panic (lit "internal error: entered unreachable code")
  end.

(** method.rs:595-598. *)
Definition raw_body_param (p : op_param) : bool :=
  match p_typ p, p_kind p with PRawBody, KBody OctetStream => true | _, _ => false end.

(** method.rs:551-761, [positional_method]. *)
Definition positional_method (h : hooks) (m : op_method) : outcome (list impl_item) :=
  let ps := m_params m in
  do tys <- mapM sig_type_of ps;
  let params := combine (map p_name ps) tys in
  let generic := existsb raw_body_param ps in
  do sb <- method_sig_body h m;
  let method_impl := ImMethod (m_operation_id m) (make_doc_comment m) params generic sb in
  match m_paginated m with
  | None => Ok [method_impl]
  | Some pg =>
      match types (pg_item pg) with
      | None => Panic (lit "called `Result::unwrap()` on an `Err` value")
      | Some _ =>
          Ok [method_impl;
              ImStream (m_operation_id m ++ lit "_stream") (make_stream_doc_comment m)
                (filter (fun pt => negb (str_eqb (fst pt) (lit "page_token"))) params) generic
                (m_operation_id m) (first_params ps) (step_params ps)]
      end
  end.

(** ** Builders *)

(** method.rs:1863-1897, [builder_helper]; the name of the struct as in 1406. *)
Definition struct_name (m : op_method) : str := sanitize U (m_operation_id m) Pascal.
(** method.rs:1868-1887. *)
Definition builder_doc (m : op_method) : str :=
  make_doc_comment m ++ lit "```ignore" ++ [10]
  ++ lit "let response = client." ++ m_operation_id m ++ lit "()"
  ++ flat_map (fun p => [10] ++ lit "    ." ++ p_name p ++ lit "(" ++ p_name p ++ lit ")") (m_params m)
  ++ [10] ++ lit "    .send()" ++ [10] ++ lit "    .await;" ++ [10] ++ lit "```".
(** method.rs:1863-1897. *)
Definition builder_helper (m : op_method) : impl_item :=
  ImBuilder (m_operation_id m) (builder_doc m) (struct_name m).

(** method.rs:1802, 1817, 1829 and 1972: the name of the trait of a tag. *)
Definition trait_name (tag : str) : str := lit "Client" ++ sanitize U tag Pascal ++ lit "Ext".

(** method.rs:1797 and 1805. *)
Definition link_doc (ty : str) : str :=
  lit "Builder for [`" ++ ty ++ lit "`]" ++ [10; 10] ++ lit "[`" ++ ty ++ lit "`]: super::" ++ ty.

(** [[String]::join] (method.rs:1822, 1835, 1873). *)
Fixpoint join_str (sep : str) (l : list str) : str :=
  match l with
  | [] => []
  | [x] => x
  | x :: r => x ++ sep ++ join_str sep r
  end.

(** method.rs:1794-1838. *)
Definition struct_doc (style : tag_style) (m : op_method) : str :=
  match style, m_tags m with
  | Merged, _ | Separate, [] => link_doc (lit "Client::" ++ m_operation_id m)
  | Separate, [tag] => link_doc (trait_name tag ++ lit "::" ++ m_operation_id m)
  | Separate, tags =>
      lit "Builder for `" ++ m_operation_id m ++ lit "` operation" ++ [10; 10] ++ lit "See "
      ++ join_str (lit ", ")
           (map (fun tag => lit "[`" ++ trait_name tag ++ lit "::" ++ m_operation_id m ++ lit "`]") tags)
      ++ [10; 10]
      ++ join_str [10]
           (map (fun tag => let ty := trait_name tag ++ lit "::" ++ m_operation_id m in
                            lit "[`" ++ ty ++ lit "`]: super::" ++ ty) tags)
  end.

(** method.rs:1400-1861, [builder_struct], with the documentation (1644-1648, 1705-1709). *)
Definition struct_of (h : hooks) (style : tag_style) (m : op_method) : outcome struct_code :=
  do c <- builder_struct types h m;
  Ok (StructCode (struct_name m) (struct_doc style m)
        (lit "Sends a `" ++ verb m ++ lit "` request to `" ++ to_string (m_path m) ++ lit "`")
        (match m_paginated m with
         | Some _ => Some (lit "Streams `" ++ verb m ++ lit "` requests to `" ++ to_string (m_path m) ++ lit "`")
         | None => None
         end) c).

(** ** Tags *)

(** [ext.entry(tag).or_insert_with(Vec::new).push(x)] on a BTreeMap (method.rs:1950-1952). *)
Fixpoint ext_push {A} (k : str) (x : A) (m : list (str * list A)) : list (str * list A) :=
  match m with
  | [] => [(k, [x])]
  | (k', l) :: r =>
      match str_cmp k k' with
      | Lt => (k, [x]) :: m
      | Eq => (k', l ++ [x]) :: r
      | Gt => (k', l) :: ext_push k x r
      end
  end.

(** method.rs:1927-1955, one method: [base] and [ext]. *)
Definition tag_step (acc : list impl_item * list (str * list impl_item)) (m : op_method)
  : list impl_item * list (str * list impl_item) :=
  let '(base, ext) := acc in
  let b := builder_helper m in
  match m_tags m with
  | [] => (base ++ [b], ext)
  | tags => (base, fold_left (fun ext tag => ext_push tag b ext) tags ext)
  end.

(** method.rs:1919-2001, [builder_tags]: the impl block of the client (absent if empty) and the
    traits.  The signature in the trait and the implementation come from the same helper. *)
Definition builder_tags (methods : list op_method) (tag_info : list (str * tag_doc))
  : list impl_item * list trait_code :=
  let '(base, ext) := fold_left tag_step methods ([], []) in
  (base,
   map (fun kv => TraitCode (trait_name (fst kv))
                    (match assoc (fst kv) tag_info with Some t => tg_description t | None => None end)
                    (snd kv) (snd kv)) ext).

(** ** The whole client *)

(** lib.rs:504-532. *)
Definition generate_tokens_positional_merged (s : settings) (ms : list op_method) : outcome operation_code :=
  do items <- mapM (positional_method (se_hooks s)) ms;
  Ok (OperationCode (concat items) [] [] [lit "Client"]).

(** lib.rs:534-577. *)
Definition generate_tokens_builder_merged (s : settings) (ms : list op_method) : outcome operation_code :=
  do structs <- mapM (struct_of (se_hooks s) Merged) ms;
  Ok (OperationCode (map builder_helper ms) [] structs [lit "Client"]).

(** lib.rs:579-625. *)
Definition generate_tokens_builder_separate (s : settings) (ms : list op_method)
    (tag_info : list (str * tag_doc)) : outcome operation_code :=
  do structs <- mapM (struct_of (se_hooks s) Separate) ms;
  let '(base, traits) := builder_tags ms tag_info in
  Ok (OperationCode base traits structs (lit "Client" :: map tc_name traits)).

(** lib.rs:321-334, the operations of one path. *)
Definition process_path (ts : type_space) (comps : option components) (p : str * ref_or path_item)
  : outcome (list op_method) :=
  match snd p with
  | Ref _ => Panic (lit "called `Option::unwrap()` on a `None` value")
  | Item i =>
      mapM (fun vo => process_operation (fun x => sanitize U x Snake) (fun x => sanitize U x Pascal) ts
                        (snd vo) comps (fst p) (fst vo) (pi_parameters i)) (path_item_iter i)
  end.

(** lib.rs:390-405. *)
Definition client_docstring (d : openapi) : str :=
  lit "Client for " ++ oa_title d
  ++ match oa_description d with Some s => [10; 10] ++ s | None => [] end
  ++ match oa_terms_of_service d with Some s => [10; 10] ++ s | None => [] end
  ++ [10; 10] ++ lit "Version: " ++ oa_version d.

(** lib.rs:435-496, the methods of every client; [inner] is 365-372. *)
Definition fixed_methods (s : settings) : list str :=
  [lit "new"; lit "new_with_client"; lit "baseurl"; lit "client"; lit "api_version"]
  ++ (if se_inner s then [lit "inner"] else []).

(** lib.rs:308-502, [generate_tokens].  The flags are those of a new generator after the run: set in
    method.rs:409 for a websocket operation, in 629 and 1681 for a paginated one. *)
Definition generate_tokens (s : settings) (d : openapi) : outcome generated_code :=
  do _ <- validate_openapi d;
  do ts <- add_ref_types (match oa_components d with Some c => co_schemas c | None => [] end);
  do groups <- mapM (process_path ts (oa_components d)) (oa_paths d);
  let ms := concat groups in
  do code <-
    match se_interface s, se_tag s with
    | Positional, Merged => generate_tokens_positional_merged s ms
    | Positional, Separate =>
        Panic (lit "not implemented: positional arguments with separate tags are currently unsupported")
    | Builder, Merged => generate_tokens_builder_merged s ms
    | Builder, Separate =>
        generate_tokens_builder_separate s ms
          (bt_inserts (map (fun t => (tg_name t, t)) (oa_tags d)) [])
    end;
  Ok (GeneratedCode (client_docstring d) (fixed_methods s) (oa_version d) code
        (existsb (fun m => match m_paginated m with Some _ => true | None => false end) ms)
        (existsb m_websocket ms)).
End Generate.

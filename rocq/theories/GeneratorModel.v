(** A [Generator] as an object with a state: the type space of typify, which grows with every type that is asked
    for, and the two flags.  The other models of the generator see typify as a function ([type_space] in OpModel.v);
    here the calls of typify are made one after the other. *)
From Verif Require Import Base OasModel TemplateModel MethodModel OpModel BuilderModel ToSchemaModel SanitizeModel
  GenerateModel CliModel MockModel CargoModel.

(** typify::TypeSpace: [add_ref_types] (lib.rs:319, cli.rs:37, httpmock.rs:43), [add_type_with_name]
    (method.rs:321, 347, 384, 469, 2126-2128), [get_type] and what the generator asks of a type (method.rs:349; 565-575,
    1426 and the like, as in BuilderModel.v; cli.rs:272, 396 and the like, as in CliModel.v). *)
Record typify_machine (S : Type) := TypifyMachine {
  tm_refs : S -> list (str * jschema) -> outcome unit * S;
  tm_add : S -> jschema -> str -> outcome type_id * S;
  tm_details : S -> type_id -> option type_details;
  tm_types : S -> type_id -> option type_info;
  tm_cli_types : S -> type_id -> option cli_type }.
Arguments TypifyMachine {S}.
Arguments tm_refs {S}.
Arguments tm_add {S}.
Arguments tm_details {S}.
Arguments tm_types {S}.
Arguments tm_cli_types {S}.

(** lib.rs:51-56, without the settings. *)
Record generator (S : Type) := Generator {
  gr_space : S;
  gr_futures : bool;
  gr_websockets : bool }.
Arguments Generator {S}.
Arguments gr_space {S}.
Arguments gr_futures {S}.
Arguments gr_websockets {S}.

Section Generator.
Context {S : Type}.
Variable U : unicode.
Variable tm : typify_machine S.

(** lib.rs:299-304. *)
Definition new_generator (space : S) : generator S := Generator space false false.

(** A function with [&mut self] that returns a [Result] (e.g. method.rs:285-292): what it has done to the generator
    stays done if it returns an error. *)
Definition run (A : Type) : Type := generator S -> outcome A * generator S.

(** Without the generator (method.rs:296). *)
Definition pure {A} (x : outcome A) : run A := fun g => (x, g).

(** The operator [?] (method.rs:296). *)
Definition rbind {A B} (x : run A) (f : A -> run B) : run B := fun g =>
  match x g with
  | (Ok a, g') => f a g'
  | (Err e, g') => (Err e, g')
  | (Panic m, g') => (Panic m, g')
  end.

(** [collect::<Result<Vec<_>>>] of a mapped iterator: it stops at the first error (method.rs:404-405, lib.rs:334). *)
Section MapR.
Context {A B : Type} (f : A -> run B).
(** method.rs:404-405, lib.rs:334. *)
Fixpoint mapR (l : list A) : run (list B) :=
  match l with
  | [] => pure (Ok [])
  | a :: r => rbind (f a) (fun b => rbind (mapR r) (fun bs => pure (Ok (b :: bs))))
  end.
End MapR.

(** [to_schema] and [add_type_with_name] (method.rs:315-321, 337-347, 374-384, 464-469, 2126-2128). *)
Definition ask (sch : ref_or schema) (name : str) : run type_id :=
  rbind (pure (to_schema sch)) (fun j g =>
    let '(t, s) := tm_add tm (gr_space g) j name in (t, Generator s (gr_futures g) (gr_websockets g))).

(** method.rs:306-404, one parameter; [process_param] of OpModel.v. *)
Definition param_r (operation_id : str) (p : parameter) : run op_param :=
  let type_name d := sanitize U (operation_id ++ lit "-" ++ pd_name d) Pascal in
  let snake x := sanitize U x Snake in
  match p with
  | ParPath d PsSimple =>
      if negb (pd_required d) then pure (Panic (lit "assertion failed: parameter_data.required"))
      else
        rbind (pure (param_schema d)) (fun s =>
        rbind (ask s (type_name d)) (fun t =>
        pure (Ok (OpParam (snake (pd_name d)) (pd_name d) (pd_description d) (PType t) KPath))))
  | ParQuery d QsForm =>
      rbind (pure (param_schema d)) (fun s =>
      rbind (ask s (type_name d)) (fun t => fun g =>
      match tm_details tm (gr_space g) t with
      | None => (Panic (lit "called `Result::unwrap()` on an `Err` value"), g)
      | Some (TdOption i) => (Ok (OpParam (snake (pd_name d)) (pd_name d) (pd_description d) (PType i) (KQuery false)), g)
      | Some _ => (Ok (OpParam (snake (pd_name d)) (pd_name d) (pd_description d) (PType t) (KQuery (pd_required d))), g)
      end))
  | ParHeader d =>
      rbind (pure (param_schema d)) (fun s =>
      rbind (ask s (type_name d)) (fun t =>
      pure (Ok (OpParam (snake (pd_name d)) (pd_name d) (pd_description d) (PType t) (KHeader (pd_required d))))))
  | ParPath _ _ => pure (Err (UnexpectedFormat (lit "unsupported style of path parameter")))
  | ParQuery _ _ => pure (Err (UnexpectedFormat (lit "unsupported style of query parameter")))
  | ParCookie _ => pure (Err (UnexpectedFormat (lit "cookie parameters are not supported")))
  end.

(** method.rs:2016-2140; [get_body_param] of OpModel.v. *)
Definition body_r (operation_id : str) (body : option (ref_or request_body)) (comps : option components)
  : run (option op_param) :=
  match body with
  | None => pure (Ok None)
  | Some b =>
      rbind (pure (item co_request_bodies comps b)) (fun b =>
      match rb_content b with
      | [] => pure (Ok None)
      | [(content_str, media)] =>
          match mt_schema media with
          | None => pure (Err (UnexpectedFormat (lit "No schema specified for request body")))
          | Some sch =>
              rbind (pure (body_content_type_of content_str)) (fun ct =>
              rbind
                match ct with
                | OctetStream =>
                    pure (do s <- item co_schemas comps sch;
                          if plain_string is_binary_format s then Ok PRawBody
                          else Err (UnexpectedFormat (lit "invalid schema for application/octet-stream")))
                | Text _ =>
                    pure (do s <- item co_schemas comps sch;
                          if plain_string is_empty_format s then Ok PRawBody
                          else Err (UnexpectedFormat (lit "invalid schema for " ++ body_content_type_str ct)))
                | Json | FormUrlencoded =>
                    if negb (mt_encoding_empty media) then pure (Panic (lit "not yet implemented: media type encoding not empty"))
                    else rbind (ask sch (sanitize U (operation_id ++ lit "-body") Pascal)) (fun t => pure (Ok (PType t)))
                end (fun typ =>
              pure (Ok (Some (OpParam (lit "body") (lit "body") (rb_description b) typ (KBody ct))))))
          end
      | _ => pure (Panic (lit "not yet implemented: more media types than expected"))
      end)
  end.

(** method.rs:445-504, one response; [process_response] of OpModel.v. *)
Definition response_r (operation_id : str) (websocket : bool) (comps : option components)
    (v : resp_status * ref_or response_doc) : run op_response :=
  rbind (pure (item co_responses comps (snd v))) (fun doc =>
  rbind
    match find (fun xm => is_json_name (fst xm)) (rd_content doc) with
    | Some (_, mt) =>
        if negb (mt_encoding_empty mt) then pure (Panic (lit "assertion failed: mt.encoding.is_empty()"))
        else
          match mt_schema mt with
          | Some sch => rbind (ask sch (sanitize U (operation_id ++ lit "-response") Pascal)) (fun t => pure (Ok (RType t)))
          | None => pure (Panic (lit "not yet implemented: media type encoding, no schema"))
          end
    | None =>
        pure (Ok (if websocket then RUpgrade else match rd_content doc with [] => RNone | _ => RRaw end))
    end (fun typ =>
  pure (Ok (OpResponse (fst v) typ)))).

(** method.rs:421-526; [process_responses] of OpModel.v. *)
Definition responses_r (operation_id : str) (websocket : bool) (comps : option components) (op : operation)
  : run (list op_response) :=
  rbind (mapR (response_r operation_id websocket comps) (documented op)) (fun rs =>
  let success := existsb (fun r => covers_success (o_status r)) rs in
  pure (Ok (rs ++ (if success then [] else [OpResponse (SRange 2) RRaw])
               ++ (if websocket then [OpResponse (SCode 101) RUpgrade] else [])))).

(** method.rs:407-410. *)
Definition note_websocket (websocket : bool) : run unit := fun g =>
  (Ok tt, if websocket then Generator (gr_space g) (gr_futures g) true else g).

(** method.rs:286-549; [process_operation] of OpModel.v. *)
Definition operation_r (op : operation) (comps : option components) (path method : str)
    (path_parameters : list (ref_or parameter)) : run op_method :=
  match op_id op with
  | None => pure (Panic (lit "called `Option::unwrap()` on a `None` value"))
  | Some operation_id =>
      rbind (pure (parameter_map path_parameters comps)) (fun m0 =>
      rbind (pure (items co_parameters (op_parameters op) comps)) (fun ops =>
      let combined := bt_inserts (map param_entry ops) m0 in
      rbind (mapR (param_r operation_id) (map snd combined)) (fun params =>
      let websocket :=
        match assoc (lit "x-dropshot-websocket") (op_extensions op) with Some _ => true | None => false end in
      rbind (note_websocket websocket) (fun _ =>
      rbind (body_r operation_id (op_request_body op) comps) (fun body =>
      let params := params ++ match body with Some b => [b] | None => [] end in
      rbind (pure (parse path)) (fun tmp =>
      rbind (pure (sort_params params (names tmp))) (fun params =>
      rbind (responses_r operation_id websocket comps op) (fun responses => fun g =>
      let paginated :=
        dropshot_pagination_data (TypeSpace (fun _ _ => Panic []) (tm_details tm (gr_space g)))
          (op_extensions op) params responses in
      if websocket && match paginated with Some _ => true | None => false end
      then (Err (InvalidExtension (lit "conflicting extensions")), g)
      else
        (do m <- http_method_of method;
         Ok (OpMethod (sanitize U operation_id Snake) (op_tags op) m tmp (non_empty (op_summary op))
               (non_empty (op_description op)) params responses paginated websocket), g)))))))))
  end.

(** lib.rs:321-334, cli.rs:39-52, httpmock.rs:45-58: the operations of one path. *)
Definition path_r (comps : option components) (p : str * ref_or path_item) : run (list op_method) :=
  match snd p with
  | Ref _ => pure (Panic (lit "called `Option::unwrap()` on a `None` value"))
  | Item i =>
      mapR (fun vo => operation_r (snd vo) comps (fst p) (fst vo) (pi_parameters i)) (path_item_iter i)
  end.

(** lib.rs:311-319, cli.rs:29-37, httpmock.rs:35-43: the components are converted and added. *)
Definition refs_r (schemas : list (str * ref_or schema)) : run unit :=
  rbind (pure (mapM (fun nr : str * ref_or schema => do j <- to_schema (snd nr); Ok (fst nr, j)) schemas)) (fun js g =>
    let '(x, s) := tm_refs tm (gr_space g) js in (x, Generator s (gr_futures g) (gr_websockets g))).

(** lib.rs:309-334, cli.rs:27-52, httpmock.rs:33-58: the beginning of all three generators. *)
Definition methods_r (d : openapi) : run (list op_method) :=
  rbind (pure (validate_openapi U d)) (fun _ =>
  rbind (refs_r (match oa_components d with Some c => co_schemas c | None => [] end)) (fun _ =>
  rbind (mapR (path_r (oa_components d)) (oa_paths d)) (fun groups =>
  pure (Ok (concat groups))))).

(** The code of one method (method.rs:551, 1400); a paginated one needs futures (method.rs:627-629, 1679-1681).
    Where the flag is set nothing but a panic can follow. *)
Definition render_r {A} (code : (type_id -> option type_info) -> op_method -> outcome A) (m : op_method) : run A := fun g =>
  match code (tm_types tm (gr_space g)) m with
  | Ok c => (Ok c, match m_paginated m with Some _ => Generator (gr_space g) true (gr_websockets g) | None => g end)
  | Err e => (Err e, g)
  | Panic p => (Panic p, g)
  end.

(** lib.rs:336-359 with 504-625. *)
Definition code_r (s : settings) (d : openapi) (ms : list op_method) : run operation_code :=
  match se_interface s, se_tag s with
  | Positional, Merged =>
      rbind (mapR (render_r (fun types => positional_method types (se_hooks s))) ms) (fun items =>
      pure (Ok (OperationCode (concat items) [] [] [lit "Client"])))
  | Positional, Separate =>
      pure (Panic (lit "not implemented: positional arguments with separate tags are currently unsupported"))
  | Builder, Merged =>
      rbind (mapR (render_r (fun types => struct_of U types (se_hooks s) Merged)) ms) (fun structs =>
      pure (Ok (OperationCode (map (builder_helper U) ms) [] structs [lit "Client"])))
  | Builder, Separate =>
      rbind (mapR (render_r (fun types => struct_of U types (se_hooks s) Separate)) ms) (fun structs =>
      let '(base, traits) := builder_tags U ms (bt_inserts (map (fun t => (tg_name t, t)) (oa_tags d)) []) in
      pure (Ok (OperationCode base traits structs (lit "Client" :: map tc_name traits))))
  end.

(** lib.rs:308-502, [generate_tokens]; the flags are those of [self] afterwards (lib.rs:634-642). *)
Definition generate_tokens_r (s : settings) (d : openapi) : run generated_code :=
  rbind (methods_r d) (fun ms =>
  rbind (code_r s d ms) (fun code g =>
  (Ok (GeneratedCode (client_docstring d) (fixed_methods s) (oa_version d) code (gr_futures g) (gr_websockets g)), g))).

(** cli.rs:26-168, [cli]: the commands are made from the type space as it is after the operations. *)
Definition cli_r (parse_path : str -> bool) (d : openapi) (crate_name : str) : run cli_code :=
  rbind (methods_r d) (fun ms g =>
  (do methods <- mapM (cli_method U (tm_cli_types tm (gr_space g))) ms;
   let cli_fns := map (fun m => lit "cli_" ++ sanitize U (m_operation_id m) Snake) ms in
   let execute_fns := map (fun m => lit "execute_" ++ sanitize U (m_operation_id m) Snake) ms in
   let cli_variants := map (fun m => sanitize U (m_operation_id m) Pascal) ms in
   if parse_path crate_name then
     Ok (CliCode crate_name methods (combine cli_variants cli_fns) (combine cli_variants execute_fns) cli_variants)
   else Panic (lit "called `Result::unwrap()` on an `Err` value"), g)).

(** httpmock.rs:32-127, [httpmock]. *)
Definition httpmock_r (is_path : str -> bool) (d : openapi) (crate_path : str) : run mock_code :=
  rbind (methods_r d) (fun ms g =>
  (do ops <- mapM (httpmock_method U (tm_types tm (gr_space g))) ms;
   if is_path crate_path
   then Ok (MockCode crate_path (combine (map m_operation_id ms) ops))
   else Panic (crate_path ++ lit " is not a valid identifier"), g)).

(** The functions of a [Generator] (lib.rs:308, cli.rs:26, httpmock.rs:32), and the calls of one. *)
Inductive call :=
| CallGenerate (d : openapi)
| CallCli (d : openapi) (crate_name : str)
| CallMock (d : openapi) (crate_path : str).
(** What a call returns (lib.rs:308, cli.rs:26, httpmock.rs:32). *)
Inductive answer :=
| AnsClient (c : generated_code)
| AnsCli (c : cli_code)
| AnsMock (c : mock_code).

(** lib.rs:308, cli.rs:26, httpmock.rs:32. *)
Definition call_r (is_path : str -> bool) (s : settings) (c : call) : run answer :=
  match c with
  | CallGenerate d => rbind (generate_tokens_r s d) (fun x => pure (Ok (AnsClient x)))
  | CallCli d n => rbind (cli_r is_path d n) (fun x => pure (Ok (AnsCli x)))
  | CallMock d n => rbind (httpmock_r is_path d n) (fun x => pure (Ok (AnsMock x)))
  end.

(** One generator, used for one thing after the other (as in tests/test_output.rs:88-110): an error leaves the
    generator as it is by then, a panic ends everything. *)
Fixpoint calls_r (is_path : str -> bool) (s : settings) (cs : list call) (g : generator S)
  : list (outcome answer) * generator S :=
  match cs with
  | [] => ([], g)
  | c :: r =>
      match call_r is_path s c g with
      | (Panic p, g') => ([Panic p], g')
      | (x, g') => let '(xs, g'') := calls_r is_path s r g' in (x :: xs, g'')
      end
  end.
End Generator.

(** Model of the generated command line interface: progenitor-impl/src/cli.rs. *)
From Verif Require Import Base OasModel TemplateModel ClientModel MethodModel OpModel RunModel BuilderModel
  FutureModel StreamModel SanitizeModel GenerateModel.
Local Open Scope N_scope.

(** typify::TypeStructPropInfo (destructured in cli.rs:528-533). *)
Record prop_info := PropInfo {
  pr_name : str;
  pr_description : option str;
  pr_required : bool;
  pr_type : type_id }.

(** typify::TypeDetails as far as cli.rs inspects it (444-456, 546, 632-642): variants carry whether
    they are simple. *)
Inductive cli_details :=
| CdEnum (variants : list (str * bool))
| CdStruct (props : list prop_info)
| CdOption (t : type_id)
| CdOther.

(** What cli.rs asks a typify::Type: [ident] (411, 576, 625), [has_impl(FromStr)] (559), [details]. *)
Record cli_type := CliType { ct_ident : str; ct_from_str : bool; ct_details : cli_details }.

(** cli.rs:608-612, [Volitionality]. *)
Inductive volitionality := VoOptional | VoRequired | VoRequiredIfNoBody.

(** cli.rs:632-667 and 475-486: the value parser of an argument: one of the texts of the simple variants of
    an enum, whatever clap picks for the type, or a flag. *)
Inductive value_parser := VpEnum (ty : str) (variants : list str) | VpType (ty : str) | VpFlag.

(** A [::clap::Arg] (cli.rs:677-683, 472-486); its id and its long name are the same text. *)
Record clap_arg := ClapArg {
  cl_id : str;
  cl_parser : value_parser;
  cl_vol : volitionality;
  cl_help : option str }.

(** cli.rs:413-421 and 577-589: [if let Some(value) = matches.get_one::<ty>(id)], then
    [request.fn(value.clone())] or [request.body_map(|body| body.fn(value.clone()))]. *)
Inductive consumer := CoParam (ty id fn : str) | CoProp (ty id fn : str).

(** cli.rs:686-693, [CliArg] (of one argument). *)
Record cli_arg := CliArg { ca_parser : clap_arg; ca_consumer : consumer }.

(** cli.rs:695-701, [CliBodyArg]. *)
Inductive body_arg := BaNone | BaRequired | BaOptional.

(** cli.rs:686-693, [CliArg] (of the whole command, 490-524): the arguments in order, the statements in
    order, and the type read by the last statement (499-515) if there is one. *)
Record cli_args := CliArgs {
  cg_parsers : list clap_arg;
  cg_consumers : list consumer;
  cg_json : option str }.

(** cli.rs:211-256: what is done with the result of a one-shot call. *)
Inductive success_output := SoItem | SoNoItem | SoTodo.
(** cli.rs:238-256. *)
Inductive error_output := EoError | EoTodo.

(** cli.rs:208-324. *)
Inductive output :=
| OutOneShot (s : success_output) (e : error_output)
| OutListing (item_type : str) (e : error_output).

(** cli.rs:18-22, [CliOperation]: the function that makes the command (190-198), the one that executes it
    (326-338), and the overridable one of the trait (344-352). *)
Record cli_operation := CliOperation {
  co_cli_fn : str;
  co_about : option str;
  co_long_about : option str;
  co_execute_fn : str;
  co_op_name : str;
  co_struct : str;
  co_args : cli_args;
  co_output : output }.

(** cli.rs:82-165: the file. *)
Record cli_code := CliCode {
  cc_crate : str;
  cc_operations : list cli_operation;
  cc_commands : list (str * str);    (* get_command: variant and function *)
  cc_executes : list (str * str);    (* execute: variant and function *)
  cc_variants : list str }.          (* CliCommand *)

Section Generate.
Variable U : unicode.
(** [self.type_space.get_type(t)]. *)
Variable types : type_id -> option cli_type.

(** heck 0.5.0 src/kebab.rs [ToKebabCase for str]; called from cli.rs:398 and 561. *)
Definition to_kebab_case (s : str) : str := join (lit "-") (map (lowercase_word U) (words U s)).

(** [.unwrap()] on [get_type] (cli.rs:272, 396, 410, 441, 500, 535, 547). *)
Definition unwrap_type (t : type_id) : outcome cli_type :=
  match types t with
  | Some ct => Ok ct
  | None => Panic (lit "called `Result::unwrap()` on an `Err` value")
  end.

(** cli.rs:632-656: all variants simple. *)
Definition simple_variants (d : cli_details) : option (list str) :=
  match d with
  | CdEnum vs => if forallb (fun v => snd v) vs then Some (map fst vs) else None
  | _ => None
  end.

(** cli.rs:614-684, [clap_arg]. *)
Definition make_clap_arg (name : str) (vol : volitionality) (description : option str) (ct : cli_type) : clap_arg :=
  ClapArg name
    (match simple_variants (ct_details ct) with
     | Some vs => VpEnum (ct_ident ct) vs
     | None => VpType (ct_ident ct)
     end) vol description.

(** cli.rs:710-712, [has_arg]. *)
Definition has_arg (args : list (str * cli_arg)) (name : str) : bool :=
  match assoc name args with Some _ => true | None => false end.

(** cli.rs:370-377; [None] for a body. *)
Definition innately_required (k : param_kind) : option bool :=
  match k with
  | KBody _ => None
  | KPath => Some true
  | KQuery r => Some r
  | KHeader r => Some r
  end.

(** cli.rs:364-367 and 384-385. *)
Definition first_page_required (m : op_method) (api_name : str) : bool :=
  match m_paginated m with
  | Some pg => mem api_name (pg_first_page_params pg)
  | None => false
  end.
(** cli.rs:208 and 364-367. *)
Definition is_paginated (m : op_method) : bool :=
  match m_paginated m with Some _ => true | None => false end.

(** cli.rs:369-424, one parameter. *)
Definition param_arg (m : op_method) (args : list (str * cli_arg)) (p : op_param)
  : outcome (list (str * cli_arg)) :=
  match innately_required (p_kind p) with
  | None => Ok args
  | Some req =>
      if is_paginated m && str_eqb (p_name p) (lit "page_token") then Ok args
      else
        let vol := if req || first_page_required m (p_api_name p) then VoRequired else VoOptional in
        match p_typ p with
        | PRawBody => Panic (lit "internal error: entered unreachable code: query and path parameters must be typed")
        | PType t =>
            do ct <- unwrap_type t;
            let name := to_kebab_case (p_name p) in
            if has_arg args name then Panic (lit "assertion failed: !args.has_arg(&arg_name)")
            else
              Ok (bt_insert name
                    (CliArg (make_clap_arg name vol (p_description p) ct)
                       (CoParam (ct_ident ct) name (sanitize U (p_name p) Snake))) args)
        end
  end.
(** cli.rs:369-424, the loop. *)
Fixpoint param_args (m : op_method) (args : list (str * cli_arg)) (ps : list op_param)
  : outcome (list (str * cli_arg)) :=
  match ps with
  | [] => Ok args
  | p :: r => do args <- param_arg m args p; param_args m args r
  end.

(** cli.rs:717-720 and 722-725. *)
Definition body_present (b : body_arg) : outcome body_arg :=
  match b with
  | BaNone => Ok BaOptional
  | _ => Panic (lit "assertion `left == right` failed")
  end.
(** cli.rs:722-725. *)
Definition body_required (b : body_arg) : outcome body_arg :=
  match b with
  | BaNone => Panic (lit "assertion failed: self.body == CliBodyArg::Optional || self.body == CliBodyArg::Required")
  | _ => Ok BaRequired
  end.

(** cli.rs:535-557: the type of a property, or the type inside if it is an option. *)
Definition prop_value_type (t : type_id) : outcome cli_type :=
  do ct <- unwrap_type t;
  match ct_details ct with
  | CdOption i => unwrap_type i
  | _ => Ok ct
  end.

(** cli.rs:527-606, [cli_method_body_arg]. *)
Definition cli_method_body_arg (st : list (str * cli_arg) * body_arg) (pr : prop_info)
  : outcome (list (str * cli_arg) * body_arg) :=
  let '(args, body) := st in
  do ct <- prop_value_type (pr_type pr);
  let name := to_kebab_case (pr_name pr) in
  if ct_from_str ct && negb (has_arg args name) then
    let vol := if pr_required pr then VoRequiredIfNoBody else VoOptional in
    Ok (bt_insert name
          (CliArg (make_clap_arg name vol (pr_description pr) ct)
             (CoProp (ct_ident ct) name (sanitize U (pr_name pr) Snake))) args, body)
  else if pr_required pr then do body <- body_required body; Ok (args, body)
  else Ok (args, body).
(** cli.rs:446-448. *)
Fixpoint body_args (st : list (str * cli_arg) * body_arg) (prs : list prop_info)
  : outcome (list (str * cli_arg) * body_arg) :=
  match prs with
  | [] => Ok st
  | pr :: r => do st <- cli_method_body_arg st pr; body_args st r
  end.

(** cli.rs:426-437. *)
Definition body_type_id (m : op_method) : option type_id :=
  match find (fun p => is_body_kind (p_kind p)) (m_params m) with
  | Some p => match p_typ p with PRawBody => None | PType t => Some t end
  | None => None
  end.

(** cli.rs:462-488. *)
Definition json_body_args (b : body_arg) : list clap_arg :=
  match b with
  | BaNone => []
  | _ =>
      [ClapArg (lit "json-body") (VpType (lit "::std::path::PathBuf"))
         (match b with BaRequired => VoRequired | _ => VoOptional end)
         (Some (lit "Path to a file that contains the full json body."));
       ClapArg (lit "json-body-template") VpFlag VoOptional (Some (lit "XXX"))]
  end.

(** cli.rs:361-525, [cli_method_args]. *)
Definition cli_method_args (m : op_method) : outcome cli_args :=
  do args <- param_args m [] (m_params m);
  do (args, body) <-
    match body_type_id m with
    | None => Ok (args, BaNone)
    | Some t =>
        do body <- body_present BaNone;
        do ct <- unwrap_type t;
        match ct_details ct with
        | CdStruct prs => body_args (args, body) prs
        | _ => do body <- body_required body; Ok (args, body)
        end
    end;
  do json <-
    match body_type_id m with
    | None => Ok None
    | Some t => do ct <- unwrap_type t; Ok (Some (ct_ident ct))
    end;
  Ok (CliArgs (map (fun ka => ca_parser (snd ka)) args ++ json_body_args body)
        (map (fun ka => ca_consumer (snd ka)) args) json).

(** cli.rs:211-256 and 270-296. *)
Definition success_output_of (k : resp_kind) : success_output :=
  match k with RType _ => SoItem | RNone => SoNoItem | RRaw | RUpgrade => SoTodo end.
(** cli.rs:238-256. *)
Definition error_output_of (k : resp_kind) : error_output :=
  match k with RType _ | RNone => EoError | RRaw | RUpgrade => EoTodo end.

(** cli.rs:170-359, [cli_method]. *)
Definition cli_method (m : op_method) : outcome cli_operation :=
  do args <- cli_method_args m;
  do (_, success_kind) <- extract_responses m is_success_or_default;
  do (_, error_kind) <- extract_responses m is_error_or_default;
  do out <-
    match m_paginated m with
    | None => Ok (OutOneShot (success_output_of success_kind) (error_output_of error_kind))
    | Some _ =>
        match success_kind with
        | RType t => do ct <- unwrap_type t; Ok (OutListing (ct_ident ct) (error_output_of error_kind))
        | RNone => Ok (OutListing (lit "()") (error_output_of error_kind))
        | RRaw | RUpgrade => Panic (lit "not yet implemented")
        end
    end;
  Ok (CliOperation (lit "cli_" ++ m_operation_id m) (m_summary m) (m_description m)
        (lit "execute_" ++ m_operation_id m) (m_operation_id m) (sanitize U (m_operation_id m) Pascal)
        args out).

(** [syn::parse_str(crate_name)] succeeds (77-80). *)
Variable parse_path : str -> bool.
(** typify's [add_ref_types] (37). *)
Variable add_ref_types : list (str * ref_or schema) -> outcome type_space.

(** cli.rs:26-168, [cli]. *)
Definition cli (d : openapi) (crate_name : str) : outcome cli_code :=
  do _ <- validate_openapi U d;
  do ts <- add_ref_types (match oa_components d with Some c => co_schemas c | None => [] end);
  do groups <- mapM (process_path U ts (oa_components d)) (oa_paths d);
  let raw_methods := concat groups in
  do methods <- mapM cli_method raw_methods;
  let cli_fns := map (fun m => lit "cli_" ++ sanitize U (m_operation_id m) Snake) raw_methods in
  let execute_fns := map (fun m => lit "execute_" ++ sanitize U (m_operation_id m) Snake) raw_methods in
  let cli_variants := map (fun m => sanitize U (m_operation_id m) Pascal) raw_methods in
  if parse_path crate_name then
    Ok (CliCode crate_name methods (combine cli_variants cli_fns) (combine cli_variants execute_fns) cli_variants)
  else Panic (lit "called `Result::unwrap()` on an `Err` value").
End Generate.

(** ** Parsing a command line (clap) *)

(** The type of the values of an argument (cli.rs:614-684). *)
Definition parser_type (p : value_parser) : str :=
  match p with VpEnum ty _ => ty | VpType ty => ty | VpFlag => lit "bool" end.

(** clap::ArgMatches: the values found, by id, with their types (cli.rs:328). *)
Notation matches := (list (prod (list N) (prod (list N) value))) (only parsing).

Section Clap.
(** The value parsers themselves. *)
Variable parse_value : value_parser -> str -> option value.

(** cli.rs:490-498. *)
Definition find_arg (args : list clap_arg) (id : str) : option clap_arg :=
  find (fun a => str_eqb (cl_id a) id) args.
(** cli.rs:669-675. *)
Definition given_ids {A} (l : list (str * A)) (id : str) : bool :=
  match assoc id l with Some _ => true | None => false end.

(** The occurrences [--id text] on the command line: each of a known argument, at most once
    (clap's [ArgAction::Set], used at cli.rs:472-486 and 677-683), and with a legal value. *)
Fixpoint parse_given (args : list clap_arg) (given : list (str * str)) : option matches :=
  match given with
  | [] => Some []
  | (id, text) :: r =>
      match find_arg args id, parse_given args r with
      | Some a, Some ms =>
          if given_ids r id then None
          else match parse_value (cl_parser a) text with
               | Some v => Some ((id, (parser_type (cl_parser a), v)) :: ms)
               | None => None
               end
      | _, _ => None
      end
  end.

(** [required(b)] and [required_unless_present("json-body")] (cli.rs:669-675, 477). *)
Definition satisfied (ms : matches) (a : clap_arg) : bool :=
  match cl_vol a with
  | VoOptional => true
  | VoRequired => given_ids ms (cl_id a)
  | VoRequiredIfNoBody => given_ids ms (cl_id a) || given_ids ms (lit "json-body")
  end.

(** [Command::try_get_matches] of the generated command (cli.rs:326-329). *)
Definition clap_parse (args : list clap_arg) (given : list (str * str)) : option matches :=
  match parse_given args given with
  | Some ms => if forallb (satisfied ms) args then Some ms else None
  | None => None
  end.
End Clap.

(** clap [ArgMatches::get_one::<ty>(id)]: panics if the value has another type (types are compared
    by the text that names them); called from cli.rs:307, 415, 504 and 579. *)
Inductive got := GotNone | GotSome (v : value) | GotPanic.
(** clap [ArgMatches::get_one], called from cli.rs:307, 415, 504, 579. *)
Definition get_one (ms : matches) (ty id : str) : got :=
  match assoc id ms with
  | None => GotNone
  | Some (ty', v) => if str_eqb ty ty' then GotSome v else GotPanic
  end.

(** ** Executing a command *)

(** Calls of the methods of [CliConfig] (cli.rs:125-145). *)
Inductive callback (V E : Type) :=
| CbSuccessItem (rv : rvalue V)
| CbSuccessNoItem (rv : rvalue V)
| CbError (e : E)
| CbListStart
| CbListItem (v : V)
| CbListEndSuccess
| CbListEndError (e : E).
Arguments CbSuccessItem {V E}.
Arguments CbSuccessNoItem {V E}.
Arguments CbError {V E}.
Arguments CbListStart {V E}.
Arguments CbListItem {V E}.
Arguments CbListEndSuccess {V E}.
Arguments CbListEndError {V E}.

(** The [anyhow::Error] returned: that of the override function (cli.rs:334), or the client's. *)
Inductive cli_error (E : Type) := CeOverride (msg : str) | CeClient (e : E).
Arguments CeOverride {E}.
Arguments CeClient {E}.

(** How an execution ends (cli.rs:211-338). *)
Inductive cli_final (E : Type) :=
| CfReturned (r : result unit (cli_error E))
| CfPanicked
| CfDoesNotCompile
| CfFuel.
Arguments CfReturned {E}.
Arguments CfPanicked {E}.
Arguments CfDoesNotCompile {E}.
Arguments CfFuel {E}.

(** futures-util stream/stream/take.rs [Take::poll_next] (cli.rs:304-308). *)
Definition take_stream {S X W} (p : poller S X W) : poller (S * N) X W :=
  fun fuel s w =>
    if snd s =? 0 then PReady None s w
    else
      match p fuel (fst s) w with
      | PReady (Some x) s' w' => PReady (Some x) (s', N.pred (snd s)) w'
      | PReady None s' w' => PReady None (s', 0) w'
      | PPanic w' => PPanic w'
      | PFuel => PFuel
      end.

(** cli.rs:310-321, the loop; [try_next] (futures-util stream/try_stream/try_next.rs) is one poll.
    [fuel] bounds the number of rounds. *)
Fixpoint list_loop {S V E W} (p : poller S (result V E) W) (eo : error_output) (poll_fuel fuel : nat) (s : S) (w : W)
  : cli_final E * list (callback V E) * W :=
  match fuel with
  | O => (CfFuel, [], w)
  | Datatypes.S n =>
      match p poll_fuel s w with
      | PReady (Some (RErr e)) _ w' =>
          match eo with
          | EoError => (CfReturned (RErr (CeClient e)), [CbListEndError e], w')
          | EoTodo => (CfPanicked, [], w')
          end
      | PReady None _ w' => (CfReturned (ROk tt), [CbListEndSuccess], w')
      | PReady (Some (ROk v)) s' w' =>
          let '(f, cbs, w'') := list_loop p eo poll_fuel n s' w' in (f, CbListItem v :: cbs, w'')
      | PPanic w' => (CfPanicked, [], w')
      | PFuel => (CfFuel, [], w)
      end
  end.

(** [usize::MAX] (cli.rs:308), on a 64-bit machine. *)
Definition usize_max : N := 18446744073709551615.

Section Execute.
(** typify's builder types, as in BuilderModel.v, and their setters. *)
Variable B : Type.
Variable b_default : type_id -> B.
Variable b_from : type_id -> value -> B.
Variable b_try_from : type_id -> B -> result value str.
Variable b_set : str -> value -> B -> B.
(** [serde_json::from_str::<ty>(&std::fs::read_to_string(path).unwrap()).unwrap()] (506-511); [None]
    is a panic. *)
Variable read_json : str -> value -> option value.
(** [NonZeroU32::get] (308). *)
Variable nonzero : value -> N.
(** The override function of the configuration (334), on the history of calls that made the
    builder. *)
Variable override : matches -> list (setter_call B) -> result (list (setter_call B)) str.

(** cli.rs:413-421 and 577-589, one statement; [None] is a panic. *)
Definition consume (ms : matches) (c : consumer) : option (list (setter_call B)) :=
  match c with
  | CoParam ty id fn =>
      match get_one ms ty id with
      | GotSome v => Some [CallSet fn (ROk v)]
      | GotNone => Some []
      | GotPanic => None
      end
  | CoProp ty id fn =>
      match get_one ms ty id with
      | GotSome v => Some [CallBodyMap (b_set fn v)]
      | GotNone => Some []
      | GotPanic => None
      end
  end.
(** cli.rs:517-522. *)
Fixpoint consume_all (ms : matches) (cs : list consumer) : option (list (setter_call B)) :=
  match cs with
  | [] => Some []
  | c :: r =>
      match consume ms c, consume_all ms r with
      | Some a, Some b => Some (a ++ b)
      | _, _ => None
      end
  end.
(** cli.rs:499-515. *)
Definition consume_json (ms : matches) (json : option str) : option (list (setter_call B)) :=
  match json with
  | None => Some []
  | Some ty =>
      match get_one ms (lit "::std::path::PathBuf") (lit "json-body") with
      | GotSome path =>
          match read_json ty path with
          | Some v => Some [CallSet (lit "body") (ROk v)]
          | None => None
          end
      | GotNone => Some []
      | GotPanic => None
      end
  end.
(** cli.rs:330-331 and 517-522: the calls on the new builder. *)
Definition consumed (ms : matches) (a : cli_args) : option (list (setter_call B)) :=
  match consume_all ms (cg_consumers a), consume_json ms (cg_json a) with
  | Some x, Some y => Some (x ++ y)
  | _, _ => None
  end.

Variable V : Type.
Variable page_items : V -> list V.
Variable page_next : V -> option value.
Variable ctx : context.
Variable from_slice : type_id -> list N -> result V jerr.
Variable W : Type.
Variable ops : world_ops W.
(** The errors of the client (progenitor_client.rs:224-252). *)
Notation E := (cerror (inner V)).

(** cli.rs:258-265. *)
Definition one_shot (c : builder_code) (so : success_output) (eo : error_output)
    (st : list (str * field B)) (w : W) : cli_final E * list (callback (inner V) E) * W :=
  let '(f, _, w') := send B b_try_from V ctx from_slice W ops c st w in
  match f with
  | Returned (ROk rv) =>
      match so with
      | SoItem => (CfReturned (ROk tt), [CbSuccessItem rv], w')
      | SoNoItem => (CfReturned (ROk tt), [CbSuccessNoItem rv], w')
      | SoTodo => (CfPanicked, [], w')
      end
  | Returned (RErr e) =>
      match eo with
      | EoError => (CfReturned (RErr (CeClient e)), [CbError e], w')
      | EoTodo => (CfPanicked, [], w')
      end
  | Panicked _ => (CfPanicked, [], w')
  | DoesNotCompile => (CfDoesNotCompile, [], w')
  end.

(** cli.rs:306-308. *)
Definition limit_of (ms : matches) : option N :=
  match get_one ms (lit "::std::num::NonZeroU32") (lit "limit") with
  | GotNone => Some usize_max
  | GotSome v => Some (nonzero v)
  | GotPanic => None
  end.

(** The values passed to the callbacks of a listing are items, those of a one-shot call are contents
    of responses (cli.rs:310-321). *)
Definition item_callback (cb : callback V E) : callback (inner V) E :=
  match cb with
  | CbSuccessItem rv => CbSuccessItem (RValue (IVal (rv_inner rv)) (rv_status rv) (rv_headers rv))
  | CbSuccessNoItem rv => CbSuccessNoItem (RValue (IVal (rv_inner rv)) (rv_status rv) (rv_headers rv))
  | CbError e => CbError e
  | CbListStart => CbListStart
  | CbListItem v => CbListItem (IVal v)
  | CbListEndSuccess => CbListEndSuccess
  | CbListEndError e => CbListEndError e
  end.

(** cli.rs:297-322. *)
Definition listing (c : builder_code) (eo : error_output) (ms : matches) (st : list (str * field B))
    (poll_fuel fuel : nat) (w : W) : cli_final E * list (callback (inner V) E) * W :=
  match bc_stream c with
  | None => (CfDoesNotCompile, [], w)
  | Some resets =>
      match limit_of ms with
      | None => (CfPanicked, [CbListStart], w)
      | Some n =>
          let '(f, cbs, w') :=
            list_loop (take_stream (builder_stream V page_items page_next ctx from_slice W ops B b_try_from c resets st))
              eo poll_fuel fuel (FlatFirst, n) w in
          (f, CbListStart :: map item_callback cbs, w')
      end
  end.

(** cli.rs:326-338, the function [execute_op] of the operation whose builder is [c]. *)
Definition execute (o : cli_operation) (c : builder_code) (ms : matches) (poll_fuel fuel : nat) (w : W)
  : cli_final E * list (callback (inner V) E) * W :=
  match consumed ms (co_args o) with
  | None => (CfPanicked, [], w)
  | Some calls =>
      match override ms calls with
      | RErr msg => (CfReturned (RErr (CeOverride msg)), [], w)
      | ROk calls =>
          match build B b_default b_from (bc_fields c) calls with
          | None => (CfDoesNotCompile, [], w)
          | Some st =>
              match co_output o with
              | OutOneShot so eo => one_shot c so eo st w
              | OutListing _ eo => listing c eo ms st poll_fuel fuel w
              end
          end
      end
  end.
End Execute.

(** Properties C48 to C51 and C71 to C73: the command line interface. *)
From Verif Require Import Base Utf8 SerdeModel OasModel TemplateModel HeaderModel ClientModel MethodModel OpModel RunModel RequestSpec
  BuilderModel BuilderSpec FutureModel StreamModel StreamSpec SanitizeModel SanitizeSpec UnicodeProofs
  GenerateModel GenerateSpec ExampleData ExampleBuilder ExamplePages ExampleGenerate CliModel CliSpec CliProofs CliList CliCor CliEnd CliExact ExampleCli.
From Coq Require Import Permutation Sorted.
Local Open Scope N_scope.

(** ** C48 *)

(** The arguments of a command are those of the specification, followed by those for the body as a
    whole. *)
Theorem C48_arguments : forall types m a, cli_method_args unicode15 types m = Ok a ->
  exists own rest args json, cg_parsers a = args ++ json /\ arguments_of unicode15 types m own rest args
    /\ json_arguments types m rest json.
Proof. exact (fun types m a H => outline_arguments unicode15 types cases15 unicode15_dash m a (cli_method_args_ok unicode15 types cases15 unicode15_dash m a H)). Qed.
Print Assumptions C48_arguments.

(** PUT /items/{id} has three parameters; its body has five properties, of which [id] has the name of a
    parameter and [tags] is no scalar. *)
Example C48_ex : cli_method_args unicode15 k_ctypes x_m = Ok (co_args k_o)
  /\ map cl_id (cg_parsers (co_args k_o))
     = [lit "favourite-color"; lit "id"; lit "name"; lit "nick"; lit "q"; lit "x-trace"; lit "json-body"; lit "json-body-template"]
  /\ own_properties unicode15 k_ctypes x_m [k_name; k_color; k_nick] [k_id; k_tags].
Proof. exact (conj k_args_ok (conj (f_equal (map cl_id) k_parsers) k_own)). Qed.

(** ** C49 *)

(** [--json-body] is offered for a typed body only, and required when the body is no structure or a
    required property has no argument of its own. *)
Theorem C49_offered : forall types m a, cli_method_args unicode15 types m = Ok a ->
  exists own rest args json, cg_parsers a = args ++ json /\ own_properties unicode15 types m own rest
    /\ json_arguments types m rest json /\ Forall (fun x => exists n, cl_id x = n /\
         ((exists p, In p (m_params m) /\ argument_name unicode15 (p_name p) n)
          \/ exists pr, In pr own /\ argument_name unicode15 (pr_name pr) n)) args.
Proof. exact json_offered. Qed.
Print Assumptions C49_offered.

(** When given, the body is what the file holds, whatever else is given. *)
Theorem C49_determines : forall types ctypes B (b_default : type_id -> B) b_from b_try_from b_set read_json parse_value m o given ms,
  accepted unicode15 types ctypes read_json parse_value m o given ->
  clap_parse parse_value (cg_parsers (co_args o)) given = Some ms ->
  forall p k t ct path v r, In p (m_params m) -> p_kind p = KBody k -> p_typ p = PType t -> ctypes t = Some ct ->
  on_line parse_value (cg_parsers (co_args o)) given (lit "json-body") (Some path) ->
  read_json (ct_ident ct) path = Some v -> file_body b_from b_try_from t ct v r ->
  exists calls, consumed B b_set read_json ms (co_args o) = Some calls
    /\ gives types b_default b_from b_try_from calls p r.
Proof.
  exact (fun types ctypes B b_default b_from b_try_from b_set read_json parse_value m o given ms H Hms =>
    file_determines cases15 unicode15_dash b_default b_from b_try_from b_set read_json parse_value H Hms).
Qed.
Print Assumptions C49_determines.

(** The file and a nickname. *)
Example C49_ex : accepted unicode15 k_types k_ctypes k_read k_parse x_m k_o k_file_line
  /\ on_line k_parse (cg_parsers (co_args k_o)) k_file_line (lit "json-body") (Some (x_value (lit "f.json")))
  /\ on_line k_parse (cg_parsers (co_args k_o)) k_file_line (lit "nick") (Some (x_value (lit "z")))
  /\ file_body k_from k_try_from 3 (k_struct k_prs) (x_value (lit "contents")) (ROk (Some (x_value (lit "*=contents;")))).
Proof.
  split; [exact k_file_accepted|]. split; [eapply k_given; vm_compute; reflexivity|]. split; [eapply k_given; vm_compute; reflexivity|].
  eapply fb_struct; reflexivity.
Qed.

(** ** C50 *)

(** The callbacks of a listing: start, the items to be listed, one end. *)
Theorem C50_listing : forall {U types ctypes B b_default b_from b_set read_json override V W h m o c ms} {calls calls' : list (setter_call B)} {st}
    b_try_from nonzero page_items page_next ctx (fs : type_id -> list N -> result V jerr) (ops : world_ops W),
  cli_method U ctypes m = Ok o -> consumed B b_set read_json ms (co_args o) = Some calls -> override ms calls = ROk calls' ->
  built types b_default b_from h m c calls' st ->
  forall n args w vs r w', m_paginated m <> None -> paginated_params (m_params m) -> line_limit nonzero ms n ->
  printable (sb_error (bc_send c)) ->
  map fst args = m_params m -> Forall (fun pv => gives types b_default b_from b_try_from calls' (fst pv) (ROk (snd pv))) args ->
  to_list page_items page_next (page_request ctx fs ops (bc_send c) args) n w vs r w' ->
  exists k, forall pf fuel, (k <= pf)%nat -> (k <= fuel)%nat ->
  execute B b_default b_from b_try_from b_set read_json nonzero override V page_items page_next ctx fs W ops o c ms pf fuel w
    = (CfReturned (returned r), listed vs r, w').
Proof. exact @listing_reported. Qed.
Print Assumptions C50_listing.

(** Whatever the server answers: if the command returns, it has reported the start, then at most as
    many items as allowed, those of the stream, and then one end, which is what it returns. *)
Theorem C50_shape : forall {U types ctypes B b_default b_from b_set read_json override V W h m o c ms} {calls calls' : list (setter_call B)} {st}
    b_try_from nonzero page_items page_next ctx (fs : type_id -> list N -> result V jerr) (ops : world_ops W),
  cli_method U ctypes m = Ok o -> consumed B b_set read_json ms (co_args o) = Some calls -> override ms calls = ROk calls' ->
  built types b_default b_from h m c calls' st ->
  forall n pf fuel w r cbs w', m_paginated m <> None -> line_limit nonzero ms n ->
  execute B b_default b_from b_try_from b_set read_json nonzero override V page_items page_next ctx fs W ops o c ms pf fuel w
    = (CfReturned r, cbs, w') ->
  exists resets vs x s1 w1, bc_stream c = Some resets /\ cbs = listed vs x /\ r = returned x /\ N.of_nat (length vs) <= n
    /\ take (builder_stream V page_items page_next ctx fs W ops B b_try_from c resets st) pf (length vs) FlatFirst w
       = Some (yields vs, s1, w1)
    /\ match x with
       | ROk tt => (N.of_nat (length vs) = n /\ w' = w1)
                   \/ exists s2, builder_stream V page_items page_next ctx fs W ops B b_try_from c resets st pf s1 w1 = PReady None s2 w'
       | RErr e => exists s2, builder_stream V page_items page_next ctx fs W ops B b_try_from c resets st pf s1 w1 = PReady (Some (RErr e)) s2 w'
       end.
Proof. exact @listing_shape. Qed.
Print Assumptions C50_shape.

(** A limit of two, and a server with three pages; and no limit, and a server that fails after two. *)
Example C50_ex : l_execute l_o l_m l_line 20 20 ([1; 2; 3], [])
    = (CfReturned (ROk tt), listed [Thing 1; Thing 2] (ROk tt), ([2; 3], [g_first]))
  /\ exists e, l_execute l_o l_m [(lit "id", lit "a/b")] 20 20 ([1; 2], [])
    = (CfReturned (RErr (CeClient e)), listed [Thing 1; Thing 2] (RErr e),
       ([], [None; Some (lit "page_token=t2"); Some (lit "page_token=t3")])).
Proof. split; [vm_compute; reflexivity|]. eexists. vm_compute. reflexivity. Qed.

(** When a listing panics: the limit on the command line is not a [NonZeroU32]; or, after some items, the stream panics
    (a hook did) or fails with an error that cannot be printed. *)
Theorem C50_panics_iff : forall {U types ctypes B b_default b_from b_set read_json override V W h m o c ms} {calls calls' : list (setter_call B)} {st}
    b_try_from nonzero page_items page_next ctx (fs : type_id -> list N -> result V jerr) (ops : world_ops W),
  cli_method U ctypes m = Ok o -> consumed B b_set read_json ms (co_args o) = Some calls -> override ms calls = ROk calls' ->
  built types b_default b_from h m c calls' st ->
  forall pf fuel w cbs w', m_paginated m <> None ->
  (execute B b_default b_from b_try_from b_set read_json nonzero override V page_items page_next ctx fs W ops o c ms pf fuel w
     = (CfPanicked, cbs, w') <->
   ((forall n, ~ line_limit nonzero ms n) /\ cbs = [CbListStart] /\ w' = w)
   \/ exists n resets vs s1 w1, line_limit nonzero ms n /\ bc_stream c = Some resets
        /\ cbs = CbListStart :: map (fun v => CbListItem (IVal v)) vs
        /\ N.of_nat (length vs) < n /\ (length vs < fuel)%nat
        /\ take (builder_stream V page_items page_next ctx fs W ops B b_try_from c resets st) pf (length vs) FlatFirst w
           = Some (yields vs, s1, w1)
        /\ (builder_stream V page_items page_next ctx fs W ops B b_try_from c resets st pf s1 w1 = PPanic w'
            \/ ~ printable (sb_error (bc_send c))
               /\ exists e s2, builder_stream V page_items page_next ctx fs W ops B b_try_from c resets st pf s1 w1
                                 = PReady (Some (RErr e)) s2 w')).
Proof. exact @listing_panics_iff. Qed.
Print Assumptions C50_panics_iff.

(** If the operation documents an error that is not JSON, the error ends the command with a panic. *)
Theorem C50_end_refuted : exists m o c given ms w w',
  m_paginated m <> None /\ cli_method unicode15 k_ctypes m = Ok o /\ builder_struct k_types x_no_hooks m = Ok c
  /\ clap_parse k_parse (cg_parsers (co_args o)) given = Some ms /\ line_limit k_nonzero ms usize_max
  /\ execute (list (str * value)) k_default k_from k_try_from k_set k_read k_nonzero k_no_override
       thing g_items g_next x_ctx g_fs (list N * list (option str)) g_ops o c ms 10 10 w
     = (CfPanicked, [CbListStart; CbListItem (IVal (Thing 1)); CbListItem (IVal (Thing 2))], w').
Proof. exact listing_panics. Qed.
Print Assumptions C50_end_refuted.

(** So does a limit that is not declared as a [NonZeroU32], at the start. *)
Theorem C50_limit_refuted : exists m o c given ms w,
  m_paginated m <> None /\ cli_method unicode15 k_ctypes m = Ok o /\ builder_struct k_types x_no_hooks m = Ok c
  /\ clap_parse k_parse (cg_parsers (co_args o)) given = Some ms
  /\ execute (list (str * value)) k_default k_from k_try_from k_set k_read k_nonzero k_no_override
       thing g_items g_next x_ctx g_fs (list N * list (option str)) g_ops o c ms 10 10 w
     = (CfPanicked, [CbListStart], w).
Proof. exact limit_panics. Qed.
Print Assumptions C50_limit_refuted.

(** ** C51 *)

(** One callback for the result, and the result is returned. *)
Theorem C51_one_call : forall {U types ctypes B b_default b_from b_set read_json override V W h m o c ms} {calls calls' : list (setter_call B)} {st}
    b_try_from nonzero page_items page_next ctx (fs : type_id -> list N -> result V jerr) (ops : world_ops W),
  cli_method U ctypes m = Ok o -> consumed B b_set read_json ms (co_args o) = Some calls -> override ms calls = ROk calls' ->
  built types b_default b_from h m c calls' st ->
  forall pf fuel w r tr w', m_paginated m = None ->
  send B b_try_from V ctx fs W ops c st w = (Returned r, tr, w') ->
  match r with ROk _ => printable (sb_success (bc_send c)) | RErr _ => printable (sb_error (bc_send c)) end ->
  exists cb, reported (sb_success (bc_send c)) (sb_error (bc_send c)) r cb
    /\ execute B b_default b_from b_try_from b_set read_json nonzero override V page_items page_next ctx fs W ops o c ms pf fuel w
       = (CfReturned (returned r), [cb], w').
Proof. exact @one_shot_reported. Qed.
Print Assumptions C51_one_call.

(** Whenever the command returns, it has called back once, for the result of the builder. *)
Theorem C51_exactly_one : forall {U types ctypes B b_default b_from b_set read_json override V W h m o c ms} {calls calls' : list (setter_call B)} {st}
    b_try_from nonzero page_items page_next ctx (fs : type_id -> list N -> result V jerr) (ops : world_ops W),
  cli_method U ctypes m = Ok o -> consumed B b_set read_json ms (co_args o) = Some calls -> override ms calls = ROk calls' ->
  built types b_default b_from h m c calls' st ->
  forall pf fuel w r cbs w', m_paginated m = None ->
  execute B b_default b_from b_try_from b_set read_json nonzero override V page_items page_next ctx fs W ops o c ms pf fuel w
    = (CfReturned r, cbs, w') ->
  exists x cb tr, send B b_try_from V ctx fs W ops c st w = (Returned x, tr, w') /\ r = returned x /\ cbs = [cb]
    /\ reported (sb_success (bc_send c)) (sb_error (bc_send c)) x cb.
Proof. exact @one_shot_shape. Qed.
Print Assumptions C51_exactly_one.

Example C51_ex : (exists rv, k_execute k_o x_m k_line (x_ops false false (x_resp 200)) = (CfReturned (ROk tt), [CbSuccessItem rv], 1%nat))
  /\ exists e, k_execute k_o x_m k_line (x_ops false false (x_resp 404)) = (CfReturned (RErr (CeClient e)), [CbError e], 1%nat).
Proof. split; eexists; vm_compute; reflexivity. Qed.

(** When it panics: when the answer cannot be printed (or sending panics, as a hook can), and then without a callback. *)
Theorem C51_panics_iff : forall {U types ctypes B b_default b_from b_set read_json override V W h m o c ms} {calls calls' : list (setter_call B)} {st}
    b_try_from nonzero page_items page_next ctx (fs : type_id -> list N -> result V jerr) (ops : world_ops W),
  cli_method U ctypes m = Ok o -> consumed B b_set read_json ms (co_args o) = Some calls -> override ms calls = ROk calls' ->
  built types b_default b_from h m c calls' st ->
  forall pf fuel w cbs w', m_paginated m = None ->
  (execute B b_default b_from b_try_from b_set read_json nonzero override V page_items page_next ctx fs W ops o c ms pf fuel w
     = (CfPanicked, cbs, w') <->
   cbs = [] /\ exists tr, (exists msg, send B b_try_from V ctx fs W ops c st w = (Panicked msg, tr, w'))
     \/ exists r, send B b_try_from V ctx fs W ops c st w = (Returned r, tr, w')
          /\ match r with ROk _ => ~ printable (sb_success (bc_send c)) | RErr _ => ~ printable (sb_error (bc_send c)) end).
Proof. exact @one_shot_panics. Qed.
Print Assumptions C51_panics_iff.

(** An operation that answers with bytes: the command panics after the answer, without a callback. *)
Theorem C51_raw_refuted : exists m o c given ms,
  m_paginated m = None /\ cli_method unicode15 k_ctypes m = Ok o /\ builder_struct k_types x_no_hooks m = Ok c
  /\ clap_parse k_parse (cg_parsers (co_args o)) given = Some ms
  /\ execute (list (str * value)) k_default k_from k_try_from k_set k_read k_nonzero k_no_override
       (N * list N) (fun _ => []) (fun _ => None) x_ctx x_fs nat (x_ops false false (x_resp 200)) o c ms 0 0 O
     = (CfPanicked, [], 1%nat).
Proof. exact raw_panics. Qed.
Print Assumptions C51_raw_refuted.

(** An override that refuses: the command returns an error without a callback. *)
Theorem C51_override_refuted : exists m o c given ms msg,
  m_paginated m = None /\ cli_method unicode15 k_ctypes m = Ok o /\ builder_struct k_types x_no_hooks m = Ok c
  /\ clap_parse k_parse (cg_parsers (co_args o)) given = Some ms
  /\ execute (list (str * value)) k_default k_from k_try_from k_set k_read k_nonzero k_refuse
       (N * list N) (fun _ => []) (fun _ => None) x_ctx x_fs nat (x_ops false false (x_resp 200)) o c ms 0 0 O
     = (CfReturned (RErr (CeOverride msg)), [], O).
Proof. exact override_silent. Qed.
Print Assumptions C51_override_refuted.

(** ** C71 *)

(** When a command can be generated. *)
Theorem C71_generates : forall types m, (exists a, cli_method_args unicode15 types m = Ok a) <-> generates unicode15 types m.
Proof. exact (fun types => args_iff unicode15 types cases15 unicode15_dash). Qed.
Print Assumptions C71_generates.

(** Parameters with different names have arguments with different names, so that it can for every
    method with known types whose builder compiles. *)
Theorem C71_no_clash : forall types m,
  Forall (fun p => p_name p = sanitize unicode15 (p_api_name p) Snake
    /\ forall c, In c (p_api_name p) -> c <> 304 /\ (uppercase unicode15 c = true -> to_lower unicode15 c <> [c])) (m_params m) ->
  NoDup (map p_name (m_params m)) ->
  (forall p, In p (m_params m) -> has_argument m p -> exists t ct, p_typ p = PType t /\ types t = Some ct) ->
  (forall t, body_of m (Some (PType t)) -> exists ct, types t = Some ct
     /\ forall prs, ct_details ct = CdStruct prs -> Forall (fun pr => exists ct', value_type types (pr_type pr) ct') prs) ->
  exists a, cli_method_args unicode15 types m = Ok a.
Proof. exact commands_generated. Qed.
Print Assumptions C71_no_clash.

Example C71_ex : Forall (fun p => p_name p = sanitize unicode15 (p_api_name p) Snake
    /\ forall c, In c (p_api_name p) -> c <> 304 /\ (uppercase unicode15 c = true -> to_lower unicode15 c <> [c])) (m_params x_m)
  /\ cli_method_args unicode15 k_ctypes x_m = Ok (co_args k_o)
  /\ cli_method_args unicode15 k_ctypes (k_pair (lit "a_b") (lit "a_b")) = Panic (lit "assertion failed: !args.has_arg(&arg_name)").
Proof. exact (conj k_settled (conj k_args_ok k_pair_panics)). Qed.

(** The arguments of a command are distinct exactly if, where there is a typed body, no parameter with an argument and no
    scalar property of the body has the name of one of the two arguments for the body as a whole. *)
Theorem C71_distinct_iff : forall types m a, cli_method_args unicode15 types m = Ok a ->
  (NoDup (map cl_id (cg_parsers a)) <->
   forall t n, body_of m (Some (PType t)) -> n = lit "json-body" \/ n = lit "json-body-template" ->
     (forall p, In p (m_params m) -> has_argument m p -> ~ argument_name unicode15 (p_name p) n)
     /\ forall prs pr, body_properties types m prs -> In pr prs -> scalar types pr -> ~ argument_name unicode15 (pr_name pr) n).
Proof. exact (fun types => distinct_iff unicode15 types cases15 unicode15_dash). Qed.
Print Assumptions C71_distinct_iff.

Example C71_distinct_ex : cli_method_args unicode15 k_ctypes x_m = Ok (co_args k_o)
  /\ NoDup (map cl_id (cg_parsers (co_args k_o)))
  /\ body_properties k_ctypes x_m k_prs /\ length k_prs = 5%nat.
Proof.
  split; [exact k_args_ok|]. split; [|split; [exact k_props|reflexivity]]. rewrite k_parsers. cbn [map cl_id].
  repeat (constructor; [vm_compute; intuition discriminate|]). constructor.
Qed.

(** But a property of the body called [json_body] takes the name of the argument for the whole body. *)
Theorem C71_distinct_refuted : exists types m a, cli_method_args unicode15 types m = Ok a /\ builder_ok k_types m
  /\ ~ NoDup (map cl_id (cg_parsers a)).
Proof. exact ids_clash. Qed.
Print Assumptions C71_distinct_refuted.

(** ** C72 *)

(** A command line is parsed exactly if it is acceptable. *)
Theorem C72_parsed : forall parse_value args given, NoDup (map cl_id args) ->
  ((exists ms, clap_parse parse_value args given = Some ms) <-> acceptable_line parse_value args given).
Proof. exact CliRun.clap_parse_iff. Qed.
Print Assumptions C72_parsed.

(** What it gives to a parameter is what the builder gives. *)
Theorem C72_reaches : forall types ctypes B (b_default : type_id -> B) b_from b_try_from b_set read_json parse_value m o given ms,
  accepted unicode15 types ctypes read_json parse_value m o given ->
  clap_parse parse_value (cg_parsers (co_args o)) given = Some ms ->
  exists calls, consumed B b_set read_json ms (co_args o) = Some calls
  /\ Forall (legal_call types m) calls
  /\ forall p v, In p (m_params m) ->
     line_gives unicode15 ctypes b_default b_from b_try_from b_set read_json parse_value m (cg_parsers (co_args o)) given p v ->
     gives types b_default b_from b_try_from calls p (ROk v).
Proof.
  exact (fun types ctypes B b_default b_from b_try_from b_set read_json parse_value m o given ms H Hms =>
    line_calls cases15 unicode15_dash b_default b_from b_try_from b_set read_json parse_value H Hms).
Qed.
Print Assumptions C72_reaches.

(** So a command does what the positional method does with these arguments, and calls back once ... *)
Theorem C72_one_shot : forall types ctypes B (b_default : type_id -> B) b_from b_try_from b_set read_json parse_value m o given
    V W nonzero page_items page_next ctx (fs : type_id -> list N -> result V jerr) (ops : world_ops W) h c,
  accepted unicode15 types ctypes read_json parse_value m o given -> builder_struct types h m = Ok c ->
  forall args sb w r tr w', m_paginated m = None ->
  map fst args = m_params m ->
  Forall (fun pv => line_gives unicode15 ctypes b_default b_from b_try_from b_set read_json parse_value m (cg_parsers (co_args o)) given (fst pv) (snd pv)) args ->
  method_sig_body h m = Ok sb -> run V ctx fs W ops sb (variables args) w = (Returned r, tr, w') ->
  match r with ROk _ => printable (sb_success sb) | RErr _ => printable (sb_error sb) end ->
  exists ms cb, clap_parse parse_value (cg_parsers (co_args o)) given = Some ms
    /\ reported (sb_success sb) (sb_error sb) r cb
    /\ forall pf fuel,
       execute B b_default b_from b_try_from b_set read_json nonzero (fun _ cs => ROk cs) V page_items page_next ctx fs W ops o c ms pf fuel w
       = (CfReturned (returned r), [cb], w').
Proof.
  exact (fun types ctypes B b_default b_from b_try_from b_set read_json parse_value m o given V W nonzero page_items page_next ctx fs ops h c H Hg =>
    end_one_shot cases15 unicode15_dash b_default b_from b_try_from b_set read_json parse_value H nonzero page_items page_next ctx fs ops Hg).
Qed.
Print Assumptions C72_one_shot.

(** ... or lists what is to be listed. *)
Theorem C72_listing : forall types ctypes B (b_default : type_id -> B) b_from b_try_from b_set read_json parse_value m o given
    V W nonzero page_items page_next ctx (fs : type_id -> list N -> result V jerr) (ops : world_ops W) h c,
  accepted unicode15 types ctypes read_json parse_value m o given -> builder_struct types h m = Ok c ->
  forall args sb n w vs r w', m_paginated m <> None -> paginated_params (m_params m) ->
  limit_on_line parse_value nonzero (cg_parsers (co_args o)) given n ->
  map fst args = m_params m ->
  Forall (fun pv => line_gives unicode15 ctypes b_default b_from b_try_from b_set read_json parse_value m (cg_parsers (co_args o)) given (fst pv) (snd pv)) args ->
  method_sig_body h m = Ok sb -> printable (sb_error sb) ->
  to_list page_items page_next (page_request ctx fs ops sb args) n w vs r w' ->
  exists ms k, clap_parse parse_value (cg_parsers (co_args o)) given = Some ms
    /\ forall pf fuel, (k <= pf)%nat -> (k <= fuel)%nat ->
       execute B b_default b_from b_try_from b_set read_json nonzero (fun _ cs => ROk cs) V page_items page_next ctx fs W ops o c ms pf fuel w
       = (CfReturned (returned r), listed vs r, w').
Proof.
  exact (fun types ctypes B b_default b_from b_try_from b_set read_json parse_value m o given V W nonzero page_items page_next ctx fs ops h c H Hg =>
    end_listing cases15 unicode15_dash b_default b_from b_try_from b_set read_json parse_value H nonzero page_items page_next ctx fs ops Hg).
Qed.
Print Assumptions C72_listing.

(** The name and the colour of the thing become its body. *)
Example C72_ex : accepted unicode15 k_types k_ctypes k_read k_parse x_m k_o k_line
  /\ builder_struct k_types x_no_hooks x_m = Ok (k_bc_of x_m)
  /\ Forall (fun pv => k_line_gives x_m k_o k_line (fst pv) (snd pv)) k_args
  /\ Forall (fun pv => k_line_gives x_m k_o k_file_line (fst pv) (snd pv)) k_file_args
  /\ snd (nth 3 k_args (x_body, None)) = Some (x_value (lit "favourite_color=red;name=n;")).
Proof. exact (conj k_accepted (conj k_bc_ok (conj k_gives (conj k_file_gives eq_refl)))). Qed.
Example C72_listing_ex : accepted unicode15 k_types k_ctypes k_read k_parse l_m l_o l_line
  /\ builder_struct k_types x_no_hooks l_m = Ok (k_bc_of l_m)
  /\ paginated_params (m_params l_m)
  /\ Forall (fun pv => k_line_gives l_m l_o l_line (fst pv) (snd pv)) l_args
  /\ limit_on_line k_parse k_nonzero (cg_parsers (co_args l_o)) l_line 2
  /\ to_list g_items g_next (page_request x_ctx g_fs g_ops g_sb l_args) 2 ([1; 2; 3], [])
       [Thing 1; Thing 2] (ROk tt) ([2; 3], [g_first]).
Proof. exact (conj l_accepted (conj l_bc_ok (conj l_paginated_params (conj l_gives (conj l_limited l_to_list))))). Qed.

(** A body of bytes or text cannot be given: the request is refused whatever the command line. *)
Theorem C72_raw_body : forall types ctypes B (b_default : type_id -> B) b_from b_try_from b_set read_json parse_value m o given
    V W nonzero page_items page_next ctx (fs : type_id -> list N -> result V jerr) (ops : world_ops W) h c,
  accepted unicode15 types ctypes read_json parse_value m o given -> builder_struct types h m = Ok c ->
  forall p k sb w, m_paginated m = None -> In p (m_params m) -> p_kind p = KBody k -> p_typ p = PRawBody ->
  (forall q, In q (m_params m) -> q <> p -> exists v,
     line_gives unicode15 ctypes b_default b_from b_try_from b_set read_json parse_value m (cg_parsers (co_args o)) given q v) ->
  method_sig_body h m = Ok sb -> printable (sb_error sb) ->
  exists ms, clap_parse parse_value (cg_parsers (co_args o)) given = Some ms
    /\ forall pf fuel,
       execute B b_default b_from b_try_from b_set read_json nonzero (fun _ cs => ROk cs) V page_items page_next ctx fs W ops o c ms pf fuel w
       = (CfReturned (RErr (CeClient (InvalidRequest (lit "body was not initialized")))),
          [CbError (InvalidRequest (lit "body was not initialized"))], w).
Proof.
  exact (fun types ctypes B b_default b_from b_try_from b_set read_json parse_value m o given V W nonzero page_items page_next ctx fs ops h c H Hg =>
    end_raw cases15 unicode15_dash b_default b_from b_try_from b_set read_json parse_value H nonzero page_items page_next ctx fs ops Hg).
Qed.
Print Assumptions C72_raw_body.

Example C72_raw_body_ex : accepted unicode15 k_types k_ctypes k_read k_parse r_m r_o [(lit "id", lit "a")]
  /\ builder_struct k_types x_no_hooks r_m = Ok (k_bc_of r_m)
  /\ k_line_gives r_m r_o [(lit "id", lit "a")] x_id (Some (x_value (lit "a")))
  /\ m_params r_m = [x_id; r_body].
Proof. exact (conj r_accepted (conj r_bc_ok (conj r_gives eq_refl))). Qed.

(** ** C73 *)

(** One command and one way to execute it per operation of the document, in its order. *)
Theorem C73_commands : forall U types parse_path add_ref_types d crate code l,
  cli U types parse_path add_ref_types d crate = Ok code -> operations_in_order d l ->
  exists ts, Forall2 (fun e o => exists m, processed U ts d e m /\ cli_method U types m = Ok o
      /\ co_cli_fn o = lit "cli_" ++ method_name U e /\ co_execute_fn o = lit "execute_" ++ method_name U e
      /\ co_op_name o = method_name U e /\ co_struct o = builder_name U e
      /\ co_about o = m_summary m /\ co_long_about o = m_description m)
    l (cc_operations code)
  /\ cc_crate code = crate
  /\ cc_variants code = map (builder_name U) l
  /\ cc_commands code = map (fun e => (builder_name U e, lit "cli_" ++ sanitize U (method_name U e) Snake)) l
  /\ cc_executes code = map (fun e => (builder_name U e, lit "execute_" ++ sanitize U (method_name U e) Snake)) l.
Proof. exact file_commands. Qed.
Print Assumptions C73_commands.

(** Every variant of [CliCommand] is dispatched to the functions of its operation. *)
Theorem C73_dispatch : forall types parse_path add_ref_types d crate code l,
  cli unicode15 types parse_path add_ref_types d crate = Ok code -> operations_in_order d l ->
  (forall e x c, In e l -> op_id (do_op e) = Some x -> In c x ->
     c <> 304 /\ (uppercase unicode15 c = true -> to_lower unicode15 c <> [c])) ->
  cc_commands code = map (fun o => (co_struct o, co_cli_fn o)) (cc_operations code)
  /\ cc_executes code = map (fun o => (co_struct o, co_execute_fn o)) (cc_operations code)
  /\ cc_variants code = map co_struct (cc_operations code).
Proof. exact dispatch15. Qed.
Print Assumptions C73_dispatch.

(** They are dispatched to exactly if the names of all methods stay as they are when made identifiers again. *)
Theorem C73_dispatch_iff : forall U types parse_path add_ref_types d crate code l,
  cli U types parse_path add_ref_types d crate = Ok code -> operations_in_order d l ->
  (cc_commands code = map (fun o => (co_struct o, co_cli_fn o)) (cc_operations code)
   /\ cc_executes code = map (fun o => (co_struct o, co_execute_fn o)) (cc_operations code)
   <-> forall e, In e l -> sanitize U (method_name U e) Snake = method_name U e).
Proof. exact dispatch_iff. Qed.
Print Assumptions C73_dispatch_iff.

Example C73_ex : cli unicode15 y_ctypes (fun _ => true) (fun _ => Ok x_ts) (y_doc (lit "ping")) (lit "sdk") = Ok (k_file (lit "ping"))
  /\ operations_in_order (y_doc (lit "ping")) (y_ops (lit "ping"))
  /\ (forall e x c, In e (y_ops (lit "ping")) -> op_id (do_op e) = Some x -> In c x ->
        c <> 304 /\ (uppercase unicode15 c = true -> to_lower unicode15 c <> [c]))
  /\ cc_commands (k_file (lit "ping"))
     = [(lit "GetItem", lit "cli_get_item"); (lit "PutItem", lit "cli_put_item"); (lit "Ping", lit "cli_ping")].
Proof. exact (conj (k_file_ok _ (or_introl eq_refl)) (conj (k_doc_ops _) (conj k_file_settled (proj2 k_file_names)))). Qed.

(** Without the condition on names, a command can be dispatched to a function that is not there. *)
Theorem C73_dispatch_refuted : exists d code v f,
  cli unicode15 y_ctypes (fun _ => true) (fun _ => Ok x_ts) d (lit "sdk") = Ok code
  /\ In (v, f) (cc_commands code) /\ ~ In f (map co_cli_fn (cc_operations code)).
Proof. exact dispatch_lost. Qed.
Print Assumptions C73_dispatch_refuted.

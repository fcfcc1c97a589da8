(** Property C84: the generated command line interfaces compile under exactly these conditions. *)
From Verif Require Import Base OasModel ClientModel TemplateModel TemplateSpec SanitizeModel MethodModel OpModel RunModel BuilderModel StreamModel
  GenerateModel BuilderSpec GenerateSpec ValidateProofs CliModel CliSpec CliCompileSpec CliCor CompileSpec CompileItemSpec CompileCor NameCor
  CliCompileProofs CliCompileCor ExampleData ExampleGenerate ExampleCompile ExampleCli ExampleCliCompile.
Local Open Scope N_scope.

(** The compiler accepts a command if and only if its operation is sound for commands, ... *)
Theorem C84_command : forall (has : str -> cli_trait -> Prop) sets ctypes types ts op comps path method pp h m sb c o,
  has (lit "::std::path::PathBuf") TcStored -> has (lit "::std::path::PathBuf") TcParsed ->
  process_operation (snake unicode15) (pascal unicode15) ts op comps path method pp = Ok m ->
  method_sig_body h m = Ok sb -> builder_struct types h m = Ok c -> builder_ok types m -> cli_method unicode15 ctypes m = Ok o ->
  operation_compiles has sets ctypes ts o c <-> sound_command has sets ctypes unicode15 types m sb.
Proof.
  intros has sets ctypes types ts op comps path method pp h m sb c o H1 H2.
  exact (command_iff has sets ctypes types unicode15 cases15 unicode15_dash (conj H1 H2)).
Qed.
Print Assumptions C84_command.

Example C84_command_ex :
  process_operation (snake unicode15) (pascal unicode15) x_ts x_op x_comps (show x_pieces) (lit "put") [] = Ok x_m
  /\ method_sig_body x_no_hooks x_m = Ok (x_sb x_no_hooks) /\ builder_struct k_types x_no_hooks x_m = Ok (k_bc_of x_m)
  /\ builder_ok k_types x_m /\ cli_method unicode15 k_ctypes x_m = Ok k_o
  /\ sound_command h_has h_sets k_ctypes unicode15 k_types x_m (x_sb x_no_hooks).
Proof. exact (conj h_processed (conj h_sb (conj k_bc_ok (conj k_builder_ok (conj k_o_ok h_sound))))). Qed.

(** ... and the commands of a document, for a client that compiles, if and only if all of its operations are, and the
    methods of the client that make their builders are found. *)
Theorem C84_cli : forall (has : str -> cli_trait -> Prop) sets ctypes hasr types parse_path add_ref_types s d crate g k ts l ms,
  has (lit "::std::path::PathBuf") TcStored -> has (lit "::std::path::PathBuf") TcParsed ->
  generate_tokens unicode15 add_ref_types types s d = Ok g ->
  cli unicode15 ctypes parse_path add_ref_types d crate = Ok k -> operations_in_order d l ->
  add_ref_types (match oa_components d with Some c => co_schemas c | None => [] end) = Ok ts ->
  Forall2 (processed unicode15 ts d) l ms ->
  se_interface s = Builder -> file_ok hasr ts g ->
  cli_compiles has sets ctypes ts k g <-> sound_cli has sets ctypes unicode15 types s ms.
Proof. exact cor_cli. Qed.
Print Assumptions C84_cli.

Example C84_cli_ex :
  generate_tokens unicode15 (fun _ => Ok x_ts) y_types (y_set Builder Separate) (h_doc (lit "ping") [lit "a"])
    = Ok (h_gen Separate (lit "ping") [lit "a"])
  /\ cli unicode15 k_ctypes (fun _ => true) (fun _ => Ok x_ts) (h_doc (lit "ping") [lit "a"]) (lit "sdk") = Ok (h_cli (lit "ping") [lit "a"])
  /\ operations_in_order (h_doc (lit "ping") [lit "a"]) (h_ops (lit "ping") [lit "a"])
  /\ Forall2 (processed unicode15 x_ts (h_doc (lit "ping") [lit "a"])) (h_ops (lit "ping") [lit "a"]) [h_m (lit "ping") [lit "a"]]
  /\ file_ok v_has x_ts (h_gen Separate (lit "ping") [lit "a"])
  /\ sound_cli h_has h_sets k_ctypes unicode15 y_types (y_set Builder Separate) [h_m (lit "ping") [lit "a"]].
Proof.
  destruct (proj1 (Forall_forall _ _) h_each _ h_ping) as (H1 & H2 & H3 & _).
  exact (conj H1 (conj H2 (conj (doc_ops_in_order _) (conj H3 (conj (h_compiles _ h_ping) h_sound_cli))))).
Qed.

(** No execution of a command that compiles is stuck, whatever the line, the server and the override function do. *)
Theorem C84_runs : forall has sets ctypes hasr ts o c, operation_compiles has sets ctypes ts o c -> builder_code_ok hasr ts c ->
  forall B b_default b_from b_try_from b_set read_json nonzero override V page_items page_next ctx from_slice W (ops : world_ops W),
  (forall q w r w', w_execute ops q w = (ROk r, w') -> r_status r < 65536) ->
  (forall ms cs cs', override ms cs = ROk cs' -> Forall (offered c) cs -> Forall (offered c) cs') ->
  forall ms pf fuel w,
  fst (fst (execute B b_default b_from b_try_from b_set read_json nonzero override V page_items page_next ctx from_slice W ops o c ms pf fuel w))
  <> CfDoesNotCompile.
Proof. exact execute_runs. Qed.
Print Assumptions C84_runs.

Example C84_runs_ex : operation_compiles h_has h_sets k_ctypes x_ts k_o (k_bc_of x_m) /\ builder_code_ok v_has x_ts (k_bc_of x_m)
  /\ (forall q w r w', w_execute (x_ops false false (x_resp 200)) q w = (ROk r, w') -> r_status r < 65536)
  /\ (forall ms cs cs', k_no_override ms cs = ROk cs' -> Forall (offered (k_bc_of x_m)) cs -> Forall (offered (k_bc_of x_m)) cs').
Proof. exact (conj h_command_ok (conj h_code_ok (conj v_statuses (fun ms cs cs' E H => eq_ind _ _ H _ (f_equal (fun r => match r with ROk x => x | RErr _ => cs end) E))))). Qed.

(** Documents with a client that compiles and a command line interface that does not: an operation called [into]; one
    with a name that changes when made an identifier again; with separate tags, a tagged one called [baseurl] or
    [clone], and one with two tags. *)
Theorem C84_rejects : forall (has : str -> cli_trait -> Prop) sets, has (lit "::std::path::PathBuf") TcStored -> has (lit "::std::path::PathBuf") TcParsed ->
  forall t id tags, In (t, id, tags)
    [(Merged, lit "into", []); (Merged, [304], []); (Separate, lit "baseurl", [lit "a"]); (Separate, lit "clone", [lit "a"]);
     (Separate, lit "ping", [lit "a"; lit "b"])] ->
  exists g k, generate_tokens unicode15 (fun _ => Ok x_ts) y_types (y_set Builder t) (h_doc id tags) = Ok g
    /\ file_ok v_has x_ts g
    /\ cli unicode15 k_ctypes (fun _ => true) (fun _ => Ok x_ts) (h_doc id tags) (lit "sdk") = Ok k
    /\ ~ cli_compiles has sets k_ctypes x_ts k g.
Proof. exact h_rejects. Qed.
Print Assumptions C84_rejects.

(** So does an operation with a parameter whose type cannot be parsed. *)
Theorem C84_parameter : forall has sets, ~ has (lit "types::Thing") TcParsed ->
  exists m o c, process_operation (snake unicode15) (pascal unicode15) x_ts h_filter x_comps (show v_no) (lit "get") [] = Ok m
    /\ cli_method unicode15 k_ctypes m = Ok o /\ builder_struct y_types x_no_hooks m = Ok c
    /\ builder_code_ok v_has x_ts c /\ ~ operation_compiles has sets k_ctypes x_ts o c.
Proof. exact h_f_fails. Qed.
Print Assumptions C84_parameter.

(** Property C95: when a call panics. *)
From Verif Require Import Base OasModel HeaderModel ClientModel TemplateModel TemplateSpec SanitizeModel MethodModel OpModel RunModel BuilderModel
  GenerateModel RequestSpec BuilderSpec DocSpec GenerateSpec ValidateProofs CompileSpec CompileItemSpec EndSpec ConstructModel PanicSpec PanicCor
  ExampleData ExampleBuilder ExampleGenerate ExampleCompile ExampleEnd ExamplePanic.
Local Open Scope N_scope.

Section Client.
Context {has : type_id -> rust_trait -> Prop} {add_ref_types : list (str * ref_or schema) -> outcome type_space}
  {types : type_id -> option type_info} {s : settings} {d : openapi} {g : generated_code} {ts : type_space} {l : list doc_op}.
Notation schemas := (match oa_components d with Some c => co_schemas c | None => [] end).
Notation code := (code_of unicode15 ts d (se_hooks s)).
Notation decided := (decided_call unicode15 ts d (se_hooks s)).

(** The positional style: every call of every method panics for the stated reasons, or does what the document says. *)
Theorem C95_positional :
  generate_tokens unicode15 add_ref_types types s d = Ok g -> operations_in_order d l -> add_ref_types schemas = Ok ts ->
  file_ok has ts g -> se_interface s = Positional ->
  Forall2 (fun e i => exists m ps sb doc tys generic,
    i = ImMethod (method_name unicode15 e) doc (combine (map p_name (m_params m)) tys) generic sb
    /\ length tys = length (m_params m) /\ code e m ps sb
    /\ forall C I (c : client_value C I) parse_url query_error json_error key V fs W (ops : world_ops W) args w,
       arguments_for (m_params m) args ->
       let ctx := context_of g c parse_url query_error json_error key in
       decided e m ps sb ctx fs ops args w (run V ctx fs W ops sb (variables args) w))
  l (own_methods (ge_code g)).
Proof. intros H1 H2 H3 H4. exact (panic_positional H1 H2 H3 H4). Qed.

(** The builder style: so does [send], once the setters have given every parameter a value. *)
Theorem C95_builder :
  generate_tokens unicode15 add_ref_types types s d = Ok g -> operations_in_order d l -> add_ref_types schemas = Ok ts ->
  file_ok has ts g -> se_interface s = Builder ->
  Forall2 (fun e sc => exists m ps, sc_name sc = builder_name unicode15 e
    /\ code e m ps (bc_send (sc_code sc)) /\ builder_struct types (se_hooks s) m = Ok (sc_code sc)
    /\ forall B (b_default : type_id -> B) b_from b_try_from cs st args, Forall (offered (sc_code sc)) cs ->
       build B b_default b_from (bc_fields (sc_code sc)) cs = Some st -> map fst args = m_params m ->
       Forall (fun pv => gives types b_default b_from b_try_from cs (fst pv) (ROk (snd pv))) args ->
       forall C I (c : client_value C I) parse_url query_error json_error key V fs W (ops : world_ops W) w,
       let ctx := context_of g c parse_url query_error json_error key in
       decided e m ps (bc_send (sc_code sc)) ctx fs ops args w (send B b_try_from V ctx fs W ops (sc_code sc) st w))
  l (oc_builders (ge_code g)).
Proof. intros H1 H2 H3 H4. exact (panic_builder H1 H2 H3 H4). Qed.

(** No call of a client succeeds if the version of the document cannot stand in a header. *)
Theorem C95_version_positional :
  generate_tokens unicode15 add_ref_types types s d = Ok g -> operations_in_order d l -> add_ref_types schemas = Ok ts ->
  file_ok has ts g -> ~ printable (oa_version d) -> se_interface s = Positional ->
  Forall (fun i => exists m sb doc tys generic name,
    i = ImMethod name doc (combine (map p_name (m_params m)) tys) generic sb /\ length tys = length (m_params m)
    /\ forall C I (c : client_value C I) parse_url query_error json_error key V fs W (ops : world_ops W) args w,
       arguments_for (m_params m) args ->
       run V (context_of g c parse_url query_error json_error key) fs W ops sb (variables args) w
       = (Panicked (lit "invalid header value"), [], w))
  (own_methods (ge_code g)).
Proof. intros H1 H2 H3 H4. exact (version_positional H1 H2 H3 H4). Qed.

Theorem C95_version_builder :
  generate_tokens unicode15 add_ref_types types s d = Ok g -> operations_in_order d l -> add_ref_types schemas = Ok ts ->
  file_ok has ts g -> ~ printable (oa_version d) -> se_interface s = Builder ->
  Forall (fun sc => exists m, builder_struct types (se_hooks s) m = Ok (sc_code sc)
    /\ forall B (b_default : type_id -> B) b_from b_try_from cs st args, Forall (offered (sc_code sc)) cs ->
       build B b_default b_from (bc_fields (sc_code sc)) cs = Some st -> map fst args = m_params m ->
       Forall (fun pv => gives types b_default b_from b_try_from cs (fst pv) (ROk (snd pv))) args ->
       forall C I (c : client_value C I) parse_url query_error json_error key V fs W (ops : world_ops W) w,
       send B b_try_from V (context_of g c parse_url query_error json_error key) fs W ops (sc_code sc) st w
       = (Panicked (lit "invalid header value"), [], w))
  (oc_builders (ge_code g)).
Proof. intros H1 H2 H3 H4. exact (version_builder H1 H2 H3 H4). Qed.
End Client.
Print Assumptions C95_positional.
Print Assumptions C95_builder.
Print Assumptions C95_version_positional.
Print Assumptions C95_version_builder.

(** [Client::new]: the base URL as given, connections and requests that end after fifteen seconds (nothing of the sort on
    wasm32); it panics if reqwest cannot make a client. *)
Theorem C95_new {C I} (build : list client_option -> result C str) (wasm : bool) (base : str) (inner : option I) :
  (forall k, build (if wasm then [] else [ConnectTimeout 15; Timeout 15]) = ROk k ->
     exists c, new_client build wasm base inner = Ok c /\ c = new_with_client base k inner
       /\ get_baseurl c = base /\ get_client c = k /\ get_inner c = inner)
  /\ (forall e, build (if wasm then [] else [ConnectTimeout 15; Timeout 15]) = RErr e ->
     new_client build wasm base inner = Panic (lit "called `Result::unwrap()` on an `Err` value: " ++ e)).
Proof. exact (new_cases build wasm base inner). Qed.
Print Assumptions C95_new.

(** Clients that compile: one has a header whose name has a space in it, the other a version with a letter outside of ASCII. *)
Example C95_ex : forall i,
  (generate_tokens unicode15 (fun _ => Ok x_ts) y_types (y_set i Merged) (p_doc (lit "1.0") p_space) = Ok (p_gen i (lit "1.0") p_space)
   /\ file_ok v_has x_ts (p_gen i (lit "1.0") p_space))
  /\ (generate_tokens unicode15 (fun _ => Ok x_ts) y_types (y_set i Merged) (p_doc p_accent p_dash) = Ok (p_gen i p_accent p_dash)
   /\ file_ok v_has x_ts (p_gen i p_accent p_dash)
   /\ ~ printable p_accent)
  /\ (forall v n, operations_in_order (p_doc v n) (p_ops v n)).
Proof.
  intro i. exact (conj (conj (proj1 (p_generates i)) (proj1 (p_file i))) (conj (conj (proj2 (p_generates i)) (conj (proj2 (p_file i)) (proj2 p_printable)))
    (fun v n => doc_ops_in_order (p_doc v n)))).
Qed.

(** Calls with the header, without it, and with a value that cannot be sent: the first panics, nothing being sent; the second
    sends the request; the third returns an error. *)
Example C95_calls_ex :
  (panics (lit "1.0") (p_args p_space (Some (lit "t1"))) (lit "static str is invalid name")
   /\ (forall msg, ~ panics (lit "1.0") (p_args p_space None) msg) /\ (forall msg, ~ panics (lit "1.0") (p_args p_space (Some [10])) msg)
   /\ panics p_accent (p_args p_dash None) (lit "invalid header value"))
  /\ (forall n v, arguments_for (m_params (p_m n)) (p_args n v))
  /\ p_seen (p_run Positional (lit "1.0") p_space (Some (lit "t1"))) = (Some (lit "static str is invalid name"), false)
  /\ p_seen (p_run Positional (lit "1.0") p_space None) = (None, true)
  /\ p_seen (p_run Positional (lit "1.0") p_space (Some [10])) = (None, false)
  /\ p_seen (p_run Positional p_accent p_dash None) = (Some (lit "invalid header value"), false).
Proof. exact (conj p_panics (conj p_arguments p_runs)). Qed.

Example C95_new_ex : new_client p_build false (lit "https://x") None = Ok p_client
  /\ new_client (I := bool) p_build true (lit "https://x") None = Panic (lit "called `Result::unwrap()` on an `Err` value: no").
Proof. exact p_new. Qed.

(** C90: why no mock and no command line interface is generated. *)
From Verif Require Import Base OasModel MethodModel OpModel BuilderModel SanitizeModel UnicodeProofs GenerateModel ResponseSpec DocSpec
  GenerateSpec SupportSpec SupportProofs MockModel CliModel MockSpec CliSpec CliCor FailSpec FailProofs ToolFailSpec ToolFailProofs
  ExampleData ExampleBuilder ExampleGenerate ExampleSupport ExampleMock ExampleCli ExampleFail ExampleToolFail.

(** Every error and every panic of [httpmock] has one of the listed reasons and says its text, ... *)
Theorem C90_mock_explained : forall add_ref_types types is_path d crate,
  match httpmock unicode15 add_ref_types types is_path d crate with
  | Ok _ => True
  | Err e => read_error unicode15 add_ref_types d e
  | Panic m => mock_panic unicode15 add_ref_types d types is_path crate m
  end.
Proof. exact (fun a t p d c => mock_explained unicode15 a d valid15 t p c). Qed.
Print Assumptions C90_mock_explained.

Example C90_mock_explained_ex : Forall (fun '(types, d, crate, msg) => u_mock types d crate = Panic msg
    /\ forall o, in_document d o -> ordinary (do_op o)) u_mocks
  /\ length u_mocks = 5%nat
  /\ u_mock y_types (v_doc (lit "/w") v_cookie) (lit "sdk") = Err (UnexpectedFormat (lit "cookie parameters are not supported")).
Proof. exact (conj u_mocks_all (conj eq_refl (proj1 u_cookie))). Qed.

(** ... and each of them makes it fail. *)
Theorem C90_mock_unless : forall add_ref_types types is_path d crate,
  (forall o, in_document d o -> ordinary (do_op o)) ->
  ((exists k, httpmock unicode15 add_ref_types types is_path d crate = Ok k) <->
   (forall e, ~ read_error unicode15 add_ref_types d e) /\ forall m, ~ mock_panic unicode15 add_ref_types d types is_path crate m).
Proof. exact (fun a t p d c => mocked_unless unicode15 a d valid15 t p c). Qed.
Print Assumptions C90_mock_unless.

Example C90_mock_unless_ex : (forall o, in_document (y_doc (lit "ping")) o -> ordinary (do_op o))
  /\ exists k, httpmock unicode15 (fun _ => Ok x_ts) y_types u_path (y_doc (lit "ping")) (lit "sdk") = Ok k.
Proof. exact (conj y_ordinary u_mock_ok). Qed.

(** A document with a client has a mock exactly if the name of the crate is a path, every status of an answer has a name, and
    the types of the answers are known. *)
Theorem C90_client_mocked : forall add_ref_types types s d g is_path crate,
  (forall ts, add_ref_types (component_schemas d) = Ok ts -> elements_known ts types) ->
  (forall o, in_document d o -> ordinary (do_op o)) ->
  generate_tokens unicode15 add_ref_types types s d = Ok g ->
  ((exists k, httpmock unicode15 add_ref_types types is_path d crate = Ok k) <->
   is_path crate = true
   /\ forall ts o, add_ref_types (component_schemas d) = Ok ts -> in_document d o ->
      (forall key r, doc_entry (do_op o) key r -> mockable_status key)
      /\ forall table key t, response_table (pascal unicode15) ts (oa_components d) (do_op o) (is_websocket (do_op o)) table ->
           In (key, RType t) table -> types t <> None).
Proof. exact (fun a t s d g p c He Ho Hg => client_mocked unicode15 a t s d g valid15 He Ho Hg p c). Qed.
Print Assumptions C90_client_mocked.

Example C90_client_mocked_ex : elements_known x_ts y_types
  /\ (forall o, in_document s_499 o -> ordinary (do_op o))
  /\ generate_tokens unicode15 (fun _ => Ok x_ts) y_types (y_set Builder Merged) s_499 = Ok (s_gen s_499)
  /\ httpmock unicode15 (fun _ => Ok x_ts) y_types (fun _ => true) s_499 (lit "sdk")
     = Panic (lit "called `Option::unwrap()` on a `None` value").
Proof. exact (conj u_elements (conj u_499_ordinary (conj s_499_client s_499_mock))). Qed.

(** Every error and every panic of [cli] has one of the listed reasons and says its text, ... *)
Theorem C90_cli_explained : forall add_ref_types types is_path d crate,
  (forall o, in_document d o -> codes_valid (do_op o)) ->
  match cli unicode15 types is_path add_ref_types d crate with
  | Ok _ => True
  | Err e => read_error unicode15 add_ref_types d e
  | Panic m => cli_panic unicode15 add_ref_types d types is_path crate m
  end.
Proof. exact (fun a t p d c => cli_explained unicode15 a d valid15 t p c cases15 unicode15_dash). Qed.
Print Assumptions C90_cli_explained.

Example C90_cli_explained_ex : Forall (fun '(types, d, crate, msg) => u_cli types d crate = Panic msg
    /\ forall o, in_document d o -> ordinary (do_op o)) u_clis
  /\ length u_clis = 7%nat
  /\ u_cli y_ctypes (v_doc (lit "/w") v_cookie) (lit "sdk") = Err (UnexpectedFormat (lit "cookie parameters are not supported")).
Proof. exact (conj u_clis_all (conj eq_refl (proj2 u_cookie))). Qed.

(** ... and each of them makes it fail. *)
Theorem C90_cli_unless : forall add_ref_types types is_path d crate,
  (forall o, in_document d o -> ordinary (do_op o)) ->
  ((exists k, cli unicode15 types is_path add_ref_types d crate = Ok k) <->
   (forall e, ~ read_error unicode15 add_ref_types d e) /\ forall m, ~ cli_panic unicode15 add_ref_types d types is_path crate m).
Proof. exact (fun a t p d c => cli_unless unicode15 a d valid15 t p c cases15 unicode15_dash). Qed.
Print Assumptions C90_cli_unless.

Example C90_cli_unless_ex : (forall o, in_document (y_doc (lit "ping")) o -> ordinary (do_op o))
  /\ exists k, cli unicode15 y_ctypes u_path (fun _ => Ok x_ts) (y_doc (lit "ping")) (lit "sdk") = Ok k.
Proof. exact (conj y_ordinary u_cli_ok). Qed.

(** A document with a client has a command line interface exactly if the name of the crate is a path and no operation has an
    obstacle. *)
Theorem C90_client_commanded : forall add_ref_types types ctypes s d g is_path crate,
  (forall ts, add_ref_types (component_schemas d) = Ok ts -> elements_known ts types) ->
  (forall o, in_document d o -> ordinary (do_op o)) ->
  generate_tokens unicode15 add_ref_types types s d = Ok g ->
  ((exists k, cli unicode15 ctypes is_path add_ref_types d crate = Ok k) <->
   is_path crate = true
   /\ forall ts o m, add_ref_types (component_schemas d) = Ok ts -> in_document d o -> processed unicode15 ts d o m ->
      forall t, ~ cli_obstacle unicode15 d ctypes ts o m t).
Proof. exact (fun a t ct s d g p c He Ho Hg => client_commanded unicode15 a t s d g valid15 He Ho Hg cases15 unicode15_dash ct p c). Qed.
Print Assumptions C90_client_commanded.

Example C90_client_commanded_ex : elements_known x_ts y_types
  /\ (forall o, in_document u_pair o -> ordinary (do_op o))
  /\ (exists g, generate_tokens unicode15 (fun _ => Ok x_ts) y_types (y_set Positional Merged) u_pair = Ok g)
  /\ u_cli y_ctypes u_pair (lit "sdk") = Panic (lit "assertion failed: !args.has_arg(&arg_name)").
Proof. exact (conj u_elements (conj u_pair_ordinary (conj (ex_intro _ _ u_pair_client) u_pair_cli))). Qed.

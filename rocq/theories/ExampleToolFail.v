(** Documents for which no mock, or no command line interface, is generated. *)
From Verif Require Import Base OasModel TemplateModel MethodModel OpModel RunModel BuilderModel SanitizeModel UnicodeProofs
  GenerateModel ResponseSpec DocSpec GenerateSpec ValidateProofs SupportSpec SupportProofs MockModel CliModel MockSpec CliSpec
  FailSpec FailProofs ToolFailSpec ToolFailProofs ExampleData ExampleBuilder ExampleGenerate ExampleSupport ExampleFail
  ExampleMock ExampleCli.
Local Open Scope N_scope.

Definition u_path (crate : str) : bool := forallb (fun c => negb (c =? ch "-")) crate.
Definition u_mock (types : type_id -> option type_info) (d : openapi) (crate : str) : outcome mock_code :=
  httpmock unicode15 (fun _ => Ok x_ts) types u_path d crate.
Definition u_cli (types : type_id -> option cli_type) (d : openapi) (crate : str) : outcome cli_code :=
  cli unicode15 types u_path (fun _ => Ok x_ts) d crate.
Definition u_query (n : str) : ref_or parameter := Item (ParQuery (x_param n true) QsForm).
Definition u_header (n : str) : ref_or parameter := Item (ParHeader (x_param n true)).
Definition u_no_types (t : type_id) : option type_info := None.
Definition u_no_ctypes (t : type_id) : option cli_type := None.
Definition u_one_ctype (t : type_id) : option cli_type := if t =? 3 then Some (k_struct [k_name]) else None.
Definition u_body := w_body [(w_json, MediaType (Some (Item x_object)) true)].
Definition u_doc (params : list (ref_or parameter)) (body : option (ref_or request_body)) : openapi := w_doc (lit "/w") params body w_ok [].
Definition u_answers (rs : list (status_code * ref_or response_doc)) : openapi := w_doc (lit "/w") [] None rs [].

(** Types, document, name of the crate, and message. *)
Definition u_mocks : list ((type_id -> option type_info) * openapi * str * str) :=
  [ (* a status without name *)
    (y_types, s_499, lit "sdk", lit "called `Option::unwrap()` on a `None` value");
    (* types that are not known *)
    (u_no_types, u_doc [u_query (lit "q")] None, lit "sdk", lit "called `Result::unwrap()` on an `Err` value");
    (u_no_types, u_answers [(ScCode 200, Item (x_json (Item x_string)))], lit "sdk", lit "called `Result::unwrap()` on an `Err` value");
    (* the name of a crate that is no path *)
    (y_types, u_doc [] None, lit "my-sdk", lit "my-sdk is not a valid identifier");
    (* a document that cannot be read *)
    (y_types, v_doc (lit "/w/{a}") v_optional, lit "sdk", lit "assertion failed: parameter_data.required")].
Definition u_clis : list ((type_id -> option cli_type) * openapi * str * str) :=
  [ (* types of a parameter, a body and a property that are not known *)
    (u_no_ctypes, u_doc [u_query (lit "q")] None, lit "sdk", lit "called `Result::unwrap()` on an `Err` value");
    (u_no_ctypes, u_doc [] u_body, lit "sdk", lit "called `Result::unwrap()` on an `Err` value");
    (u_one_ctype, u_doc [] u_body, lit "sdk", lit "called `Result::unwrap()` on an `Err` value");
    (* two parameters with the same argument *)
    (y_ctypes, u_doc [u_query (lit "a_b"); u_header (lit "a-b")] None, lit "sdk", lit "assertion failed: !args.has_arg(&arg_name)");
    (* two types of success *)
    (y_ctypes, u_answers [(ScCode 200, Item (x_json (Item x_string))); (ScCode 201, Item (x_json (Item x_object)))], lit "sdk",
     lit "assertion failed: response_types.len() <= 1");
    (* the name of a crate that is no path *)
    (y_ctypes, u_doc [] None, lit "my-sdk", lit "called `Result::unwrap()` on an `Err` value");
    (* a document that cannot be read *)
    (y_ctypes, v_doc (lit "/w/{a}") v_optional, lit "sdk", lit "assertion failed: parameter_data.required")].

Lemma u_mocks_all : Forall (fun '(types, d, crate, msg) => u_mock types d crate = Panic msg
  /\ forall o, in_document d o -> ordinary (do_op o)) u_mocks.
Proof.
  unfold u_mocks, u_mock. repeat (apply Forall_cons; [split; [vm_compute; reflexivity|apply ordinary_doc; vm_compute; reflexivity]|]). apply Forall_nil.
Qed.
Lemma u_clis_all : Forall (fun '(types, d, crate, msg) => u_cli types d crate = Panic msg
  /\ forall o, in_document d o -> ordinary (do_op o)) u_clis.
Proof.
  unfold u_clis, u_cli. repeat (apply Forall_cons; [split; [vm_compute; reflexivity|apply ordinary_doc; vm_compute; reflexivity]|]). apply Forall_nil.
Qed.
Lemma u_cookie : u_mock y_types (v_doc (lit "/w") v_cookie) (lit "sdk") = Err (UnexpectedFormat (lit "cookie parameters are not supported"))
  /\ u_cli y_ctypes (v_doc (lit "/w") v_cookie) (lit "sdk") = Err (UnexpectedFormat (lit "cookie parameters are not supported")).
Proof. split; vm_compute; reflexivity. Qed.

(** The document of C60 has both. *)
Lemma u_mock_ok : exists k, u_mock y_types (y_doc (lit "ping")) (lit "sdk") = Ok k.
Proof.
  enough (H : exists k, k = u_mock y_types (y_doc (lit "ping")) (lit "sdk") /\ match k with Ok _ => true | _ => false end = true).
  { destruct H as ([k|e|m] & E & H); [eauto|discriminate|discriminate]. }
  eexists. split; [reflexivity|]. vm_compute. reflexivity.
Qed.
Lemma u_cli_ok : exists k, u_cli y_ctypes (y_doc (lit "ping")) (lit "sdk") = Ok k.
Proof.
  enough (H : exists k, k = u_cli y_ctypes (y_doc (lit "ping")) (lit "sdk") /\ match k with Ok _ => true | _ => false end = true).
  { destruct H as ([k|e|m] & E & H); [eauto|discriminate|discriminate]. }
  eexists. split; [reflexivity|]. vm_compute. reflexivity.
Qed.

(** Clients without a mock and without a command line interface. *)
Lemma u_elements : elements_known x_ts y_types.
Proof. intros t i _. discriminate. Qed.
Definition u_pair : openapi := u_doc [u_query (lit "a_b"); u_header (lit "a-b")] None.
Lemma u_499_ordinary e : in_document s_499 e -> ordinary (do_op e).
Proof. apply ordinary_doc. vm_compute. reflexivity. Qed.
Lemma u_pair_ordinary e : in_document u_pair e -> ordinary (do_op e).
Proof. apply ordinary_doc. vm_compute. reflexivity. Qed.
Lemma u_pair_client : generate_tokens unicode15 (fun _ => Ok x_ts) y_types (y_set Positional Merged) u_pair
  = Ok (match generate_tokens unicode15 (fun _ => Ok x_ts) y_types (y_set Positional Merged) u_pair with Ok g => g | _ => y_empty end).
Proof. apply is_ok. vm_compute. reflexivity. Qed.
Lemma u_pair_cli : u_cli y_ctypes u_pair (lit "sdk") = Panic (lit "assertion failed: !args.has_arg(&arg_name)").
Proof. vm_compute. reflexivity. Qed.

(** C99: documents that say the same in different words. *)
From Verif Require Import Base OasModel MethodModel OpModel BuilderModel SanitizeModel UnicodeProofs GenerateModel MockModel CliModel
  AlikeSpec AlikeProofs ExampleData ExampleBuilder ExampleGenerate ExampleMock ExampleCli ExampleLocal ExampleFail ExampleToolFail ExampleAlike.

(** Two documents whose operations have the same parameters that count, the same body and the same answers, be it through references
    or in place, through the path or the operation, in whatever order, have the same client, the same error, or both none because
    of a panic; ... *)
Theorem C99_client : forall add_ref_types types s d d', document_alike d d' ->
  same_outcome (generate_tokens unicode15 add_ref_types types s d) (generate_tokens unicode15 add_ref_types types s d').
Proof. exact (fun a t s d d' H => same_client unicode15 d d' H a t s). Qed.
Print Assumptions C99_client.

Example C99_client_ex : document_alike a_short a_long /\ a_short <> a_long
  /\ exists g, l_gen Builder a_short = Ok g /\ map sc_name (oc_builders (ge_code g)) = [lit "GetA"].
Proof. exact (conj a_alike (conj (proj1 (proj2 a_differ)) a_client)). Qed.

(** ... so have they for mocks ... *)
Theorem C99_mock : forall add_ref_types types is_path crate d d', document_alike d d' ->
  same_outcome (httpmock unicode15 add_ref_types types is_path d crate) (httpmock unicode15 add_ref_types types is_path d' crate).
Proof. exact (fun a t p c d d' H => same_mock unicode15 d d' H a t p c). Qed.
Print Assumptions C99_mock.

Example C99_mock_ex : document_alike a_short a_long /\ exists k, u_mock y_types a_short (lit "sdk") = Ok k.
Proof. exact (conj a_alike a_mock). Qed.

(** ... and for command line interfaces. *)
Theorem C99_cli : forall add_ref_types types is_path crate d d', document_alike d d' ->
  same_outcome (cli unicode15 types is_path add_ref_types d crate) (cli unicode15 types is_path add_ref_types d' crate).
Proof. exact (fun a t p c d d' H => same_cli unicode15 d d' H a t p c). Qed.
Print Assumptions C99_cli.

Example C99_cli_ex : document_alike a_short a_long /\ exists k, u_cli y_ctypes a_short (lit "sdk") = Ok k.
Proof. exact (conj a_alike a_cli). Qed.

(** In particular references to parameters, bodies and answers may be replaced by what they lead to. *)
Theorem C99_written_out : forall d d', document_written d d' -> document_alike d d'.
Proof. exact written_document. Qed.
Print Assumptions C99_written_out.

Example C99_written_ex : document_written a_short a_out /\ a_short <> a_out.
Proof. exact (conj a_written (proj1 a_differ)). Qed.

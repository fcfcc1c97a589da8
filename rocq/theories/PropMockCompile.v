(** Property C83: the generated mocks compile under exactly these conditions. *)
From Verif Require Import Base OasModel TemplateModel TemplateSpec SanitizeModel MethodModel OpModel BuilderModel
  GenerateModel GenerateSpec ValidateProofs MockModel CompileSpec MockCompileSpec MockCompileProofs
  ExampleData ExampleGenerate ExampleCompile ExampleMock ExampleMockCompile.
Local Open Scope N_scope.

(** The compiler accepts the mock of an operation if and only if the operation is sound for mocks, ... *)
Theorem C83_operation : forall has by_reference types ps m o, lax ps -> parse (show ps) = Ok (m_path m) ->
  httpmock_method unicode15 types m = Ok o ->
  mock_op_ok has by_reference o <-> sound_mock has by_reference ps m.
Proof. exact mock_op_sound. Qed.
Print Assumptions C83_operation.

(** ... and the mocks of a document if and only if all of its operations are, and their wrappers have names of their own. *)
Theorem C83_mocks : forall has by_reference add_ref_types types is_path d cp k ts l ms,
  httpmock unicode15 add_ref_types types is_path d cp = Ok k -> operations_in_order d l ->
  add_ref_types (match oa_components d with Some c => co_schemas c | None => [] end) = Ok ts ->
  Forall2 (processed unicode15 ts d) l ms ->
  mock_ok has by_reference k <-> sound_mocks has by_reference unicode15 l ms.
Proof. exact cor_mock. Qed.
Print Assumptions C83_mocks.

Example C83_ex :
  httpmock unicode15 (fun _ => Ok x_ts) y_types (fun _ => true) (y_doc (lit "ping")) (lit "sdk") = Ok (s_mock (y_doc (lit "ping")))
  /\ operations_in_order (y_doc (lit "ping")) (y_ops (lit "ping"))
  /\ Forall2 (processed unicode15 x_ts (y_doc (lit "ping"))) (y_ops (lit "ping")) (w_ms (lit "ping"))
  /\ sound_mocks v_has m_ref unicode15 (y_ops (lit "ping")) (w_ms (lit "ping")).
Proof. exact (conj y_mock_ok (conj (doc_ops_in_order _) (conj w_processed m_sound))). Qed.

(** Operations with a client that compiles and a mock that does not: a response, or a body, that is a string; a query
    parameter that is an object; a placeholder that occurs twice; a path parameter without placeholder; a parameter
    called [new]. *)
Theorem C83_rejects : forall op ps,
  In (op, ps) [(m_text, v_no); (m_body, v_no); (m_filter, v_no); (m_id, m_twice); (m_id, v_no); (m_new, v_var (lit "new"))] ->
  exists m sb o, process_operation x_snake x_pascal x_ts op x_comps (show ps) (lit "get") [] = Ok m /\ lax ps
    /\ method_sig_body x_no_hooks m = Ok sb /\ method_ok v_has (scope m) sb
    /\ httpmock_method unicode15 y_types m = Ok o /\ ~ mock_op_ok v_has m_ref o.
Proof.
  intros op ps H.
  repeat (destruct H as [[= <- <-]|H];
    [first [exact m_text_fails|exact m_body_fails|exact m_filter_fails|exact m_twice_fails|exact m_none_fails|exact m_new_fails]|]).
  easy.
Qed.
Print Assumptions C83_rejects.

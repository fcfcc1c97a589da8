(** C97: mocks and requests of different operations. *)
From Verif Require Import Base Utf8 SerdeModel OasModel HeaderModel ClientModel TemplateModel TemplateSpec MethodModel
  OpModel RunModel BuilderModel RequestSpec DocSpec SanitizeModel GenerateModel MockModel MockSpec MockApartSpec MockApart
  ExampleData ExampleGenerate ExampleMock ExampleApart.
Local Open Scope N_scope.

(** A mock of an operation, however restricted, does not match the requests of operations with another HTTP method, or whose template
    has another number of segments or another constant somewhere.  Missing: templates with characters that mean something in regular
    expressions, see below. *)
Theorem C97_apart_partial : forall V W (e : episode V W), happens e -> forall q, first_request (e_trace e) q ->
  url_kept (e_client e) (e_path e) (e_args e) -> proper_texts (e_args e) ->
  forall U types m o ps, httpmock_method U types m = Ok o ->
  strict ps -> parse (show ps) = Ok (m_path m) -> NoDup (vars ps) -> plain_template ps ->
  m_method m <> m_method (e_method e) \/ apart ps (e_path e) ->
  forall calls es json_is r, when_calls o calls = Some es -> seen (c_base_url (e_client e)) q r -> matched json_is es r = false.
Proof. exact mock_elsewhere. Qed.
Print Assumptions C97_apart_partial.

Example C97_apart_ex :
  happens (x_ep x_no_hooks (x_ops false false (x_resp 200)) x_args_mock)
  /\ first_request (e_trace (x_ep x_no_hooks (x_ops false false (x_resp 200)) x_args_mock)) (x_request x_args_mock)
  /\ url_kept x_ctx x_pieces x_args_mock /\ proper_texts x_args_mock
  /\ httpmock_method unicode15 y_types k_m = Ok (k_mock k_m) /\ strict k_pieces /\ NoDup (vars k_pieces) /\ plain_template k_pieces
  /\ apart k_pieces x_pieces /\ apart k_pieces w_pieces'.
Proof.
  exact (conj (x_happens _ _ _ x_callable_mock) (conj x_first_mock (conj (x_kept _) (conj x_proper
    (conj k_ok (conj k_strict (conj k_vars (conj k_plain (conj ap_apart ap_apart_const))))))))).
Qed.

(** For templates whose segments are constants or placeholders: exactly.  Two mocks match a common request if and only if they have the
    same method and templates that are not apart. *)
Theorem C97_overlap : forall U types m m' o o' ps ps', httpmock_method U types m = Ok o -> httpmock_method U types m' = Ok o' ->
  strict ps -> parse (show ps) = Ok (m_path m) -> NoDup (vars ps) -> plain_template ps -> whole_segments ps ->
  strict ps' -> parse (show ps') = Ok (m_path m') -> NoDup (vars ps') -> plain_template ps' -> whole_segments ps' ->
  exists es es', when_calls o [] = Some es /\ when_calls o' [] = Some es'
  /\ forall json_is, (exists r, matched json_is es r = true /\ matched json_is es' r = true)
     <-> m_method m = m_method m' /\ ~ apart ps ps'.
Proof. exact mocks_overlap. Qed.
Print Assumptions C97_overlap.

Example C97_overlap_ex :
  httpmock_method unicode15 y_types k_m = Ok (k_mock k_m) /\ httpmock_method unicode15 y_types l_m = Ok (k_mock l_m)
  /\ (strict k_pieces /\ parse (show k_pieces) = Ok (m_path k_m) /\ NoDup (vars k_pieces) /\ plain_template k_pieces /\ whole_segments k_pieces)
  /\ (strict l_pieces /\ parse (show l_pieces) = Ok (m_path l_m) /\ NoDup (vars l_pieces) /\ plain_template l_pieces /\ whole_segments l_pieces)
  /\ ~ apart k_pieces l_pieces.
Proof.
  exact (conj k_ok (conj l_ok (conj (conj k_strict (conj k_parse (conj k_vars (conj k_plain k_whole))))
    (conj (conj l_strict (conj l_parse (conj l_vars (conj l_plain l_whole)))) kl_not_apart)))).
Qed.

(** The mock of GET /v1.0 answers GET /v1x0. *)
Theorem C97_dot_refuted : exists (e : episode (N * list N) nat) q m o ps es r,
  happens e /\ first_request (e_trace e) q /\ url_kept (e_client e) (e_path e) (e_args e) /\ proper_texts (e_args e)
  /\ httpmock_method unicode15 y_types m = Ok o /\ strict ps /\ parse (show ps) = Ok (m_path m) /\ NoDup (vars ps)
  /\ apart ps (e_path e) /\ when_calls o [] = Some es /\ seen (c_base_url (e_client e)) q r
  /\ forall json_is, matched json_is es r = true.
Proof. exact dot_answers. Qed.
Print Assumptions C97_dot_refuted.

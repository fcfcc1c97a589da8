(** C86 and C87: a generator with a state. *)
From Verif Require Import Base OasModel MethodModel OpModel ToSchemaModel SchemaSpec TypesModel TypesSpec SanitizeModel
  GenerateModel GenerateSpec ValidateProofs CliModel MockModel GeneratorModel GeneratorSpec GeneratorMain
  ExampleData ExampleGenerate ExampleTypes ExampleGenerator.

(** Whatever is generated, typify gets the components, translated, in one call, and is then asked for the types that
    the operations need, one after the other in the order of the document, and for no others. *)
Theorem C86_asked : forall S U (tm : typify_machine S) is_path s c g a g' l,
  call_r U tm is_path s c g = (Ok a, g') -> operations_in_order (document_of c) l ->
  validate_openapi U (document_of c) = Ok tt
  /\ exists js s1 wss ts,
    Forall2 (fun nr nj => fst nr = fst nj /\ convertible (snd nr) /\ translated (snd nr) (snd nj)) (schemas_of (document_of c)) js
    /\ tm_refs tm (gr_space g) js = (Ok tt, s1)
    /\ Forall2 (needs U (document_of c)) l wss /\ asked tm s1 (concat wss) ts (gr_space g').
Proof. exact @call_asked. Qed.
Print Assumptions C86_asked.

Example C86_asked_ex : exists a g' l,
  call_r unicode15 m_machine (fun _ => true) (m_set Builder) (CallGenerate (t_doc t_schemas)) (new_generator []) = (Ok a, g')
  /\ operations_in_order (t_doc t_schemas) l /\ length l = 1%nat.
Proof.
  exact (ex_intro _ _ (ex_intro _ _ (ex_intro _ _
    (conj (m_one_ok (m_set Builder) (CallGenerate (t_doc t_schemas)) (new_generator []) m_one_is_ok) (conj (doc_ops_in_order (t_doc t_schemas)) eq_refl))))).
Qed.

(** If typify remembers its types, a client is the one that the function of the document makes with the type space
    as it is in the end: all that is proved of that function holds of the generator. *)
Theorem C86_client : forall S U (tm : typify_machine S) s d g c g',
  remembers tm -> generate_tokens_r U tm s d g = (Ok c, g') ->
  exists c0, generate_tokens U (add_converted (fun _ => Ok (frozen tm (gr_space g')))) (tm_types tm (gr_space g')) s d = Ok c0
    /\ ge_doc c = ge_doc c0 /\ ge_fixed c = ge_fixed c0 /\ ge_version c = ge_version c0 /\ ge_code c = ge_code c0
    /\ ge_futures c = (gr_futures g || ge_futures c0)%bool /\ ge_websockets c = (gr_websockets g || ge_websockets c0)%bool
    /\ gr_futures g' = ge_futures c /\ gr_websockets g' = ge_websockets c.
Proof. exact @client_run. Qed.
Print Assumptions C86_client.

Example C86_client_ex : exists c g', remembers m_machine
  /\ generate_tokens_r unicode15 m_machine (m_set Positional) (y_doc (lit "ping")) (Generator [] true false) = (Ok c, g').
Proof. exact (ex_intro _ _ (ex_intro _ _ (conj m_remembers m_client_ok))). Qed.

(** The same for the command line interface ... *)
Theorem C86_cli : forall S U (tm : typify_machine S) is_path d n g c g',
  remembers tm -> cli_r U tm is_path d n g = (Ok c, g') ->
  cli U (tm_cli_types tm (gr_space g')) is_path (add_converted (fun _ => Ok (frozen tm (gr_space g')))) d n = Ok c
  /\ gr_futures g' = gr_futures g.
Proof. exact @cli_same. Qed.
Print Assumptions C86_cli.

Example C86_cli_ex : exists c g', remembers m_machine
  /\ cli_r unicode15 m_machine (fun _ => true) (y_doc (lit "ping")) (lit "sdk") (new_generator []) = (Ok c, g').
Proof. exact (ex_intro _ _ (ex_intro _ _ (conj m_remembers m_cli_ok))). Qed.

(** ... and for the mock server. *)
Theorem C86_mock : forall S U (tm : typify_machine S) is_path d n g c g',
  remembers tm -> httpmock_r U tm is_path d n g = (Ok c, g') ->
  httpmock U (add_converted (fun _ => Ok (frozen tm (gr_space g')))) (tm_types tm (gr_space g')) is_path d n = Ok c
  /\ gr_futures g' = gr_futures g.
Proof. exact @mock_same. Qed.
Print Assumptions C86_mock.

Example C86_mock_ex : exists c g', remembers m_machine
  /\ httpmock_r unicode15 m_machine (fun _ => true) (t_doc t_schemas) (lit "sdk") (new_generator []) = (Ok c, g').
Proof. exact (ex_intro _ _ (ex_intro _ _ (conj m_remembers m_mock_ok))). Qed.

(** The name of a type does not tell which schema it is for: a parameter called [body] and the body, and all the
    answers in JSON, ask for types of one name. *)
Theorem C86_names_refuted : exists d e ws n n' s1 s2 s3 s4,
  (exists c g', generate_tokens_r unicode15 m_machine (m_set Builder) d (new_generator []) = (Ok c, g'))
  /\ in_document d e /\ needs unicode15 d e ws
  /\ ws = [(n, s1); (n, s2); (n', s3); (n', s4)] /\ s1 <> s2 /\ s3 <> s4.
Proof. exact c_shared. Qed.
Print Assumptions C86_names_refuted.

(** Of a generator used for several things: after calls that all succeed, the flags are set if they were set before,
    if one of the clients has a stream, or if one of the documents has a websocket. *)
Theorem C87_flags : forall S U (tm : typify_machine S) is_path s cs answers g g',
  remembers tm -> calls_r U tm is_path s cs g = (map Ok answers, g') ->
  (gr_futures g' = true <-> gr_futures g = true \/ exists x, In (AnsClient x) answers /\ streams (ge_code x))
  /\ (gr_websockets g' = true <-> gr_websockets g = true \/ exists c, In c cs /\ has_websockets (document_of c)).
Proof. exact calls_flagged. Qed.
Print Assumptions C87_flags.

Example C87_flags_ex : remembers m_machine
  /\ calls_r unicode15 m_machine (fun _ => true) (m_set Builder) m_calls (new_generator []) = (map Ok m_answers, m_last)
  /\ map m_kind m_answers = [0; 1; 2; 0]%N.
Proof. exact (conj m_remembers (conj m_run_ok m_kinds)). Qed.

(** No call takes a flag back, whatever it returns. *)
Theorem C87_flags_stay : forall S U (tm : typify_machine S) is_path s cs g,
  (gr_futures g = true -> gr_futures (snd (calls_r U tm is_path s cs g)) = true)
  /\ (gr_websockets g = true -> gr_websockets (snd (calls_r U tm is_path s cs g)) = true).
Proof. exact @flags_stay. Qed.
Print Assumptions C87_flags_stay.

Example C87_flags_stay_ex : gr_futures m_last = true /\ gr_websockets m_last = true.
Proof. exact m_flags. Qed.

(** So the flags of a used generator need not be those of the last client. *)
Theorem C87_flags_refuted : exists cs before last d g',
  calls_r unicode15 m_machine (fun _ => true) (m_set Builder) (cs ++ [CallGenerate d]) (new_generator [])
    = (map Ok (before ++ [AnsClient last]), g')
  /\ gr_futures g' = true /\ ~ streams (ge_code last) /\ gr_websockets g' = true /\ ~ has_websockets d.
Proof. exact m_sticky. Qed.
Print Assumptions C87_flags_refuted.

(** Exact conditions for C02, C08 and C68. *)
From Verif Require Import Base OasModel TemplateModel TemplateSpec MethodModel OpModel BuilderModel SanitizeModel UnicodeProofs
  SerdeModel QuerySpec MockModel ExactProofs ExampleData ExampleGenerate ExampleMock.
Local Open Scope N_scope.

(** C02: the URL expression of a path that is accepted compiles if and only if there are no stray braces and every placeholder
    has a parameter. *)
Theorem C02_compiles_iff : forall ps p rename, lax ps -> parse (show ps) = Ok p ->
  ((exists u, compile p rename = Ok u /\ forall enc base env, exists url, eval_url enc base env u = Some url) <->
   strict ps /\ forall n, In n (vars ps) -> In n (map fst rename)).
Proof. exact url_compiles_iff. Qed.
Print Assumptions C02_compiles_iff.

Example C02_compiles_ex :
  lax [PLit (ch "/"); PVar (lit "a"); PLit (ch "}")]
  /\ parse (show [PLit (ch "/"); PVar (lit "a"); PLit (ch "}")]) = Ok [CConst (lit "/"); CParam (lit "a"); CConst (lit "}")]
  /\ ~ strict [PLit (ch "/"); PVar (lit "a"); PLit (ch "}")].
Proof.
  split; [|split; [reflexivity|]].
  - split; [eexists; reflexivity|]. cbn [lax_from]. unfold name_ok. repeat split; try discriminate; intros [H|[]]; discriminate H.
  - intros (_ & H). apply Forall_inv_tail, Forall_inv_tail, Forall_inv in H. now destruct H.
Qed.

(** C08: a scalar in newtype structs is one pair if and only if there are none of them around it; otherwise it is refused. *)
Theorem C08_wrapped : forall name v t ws, scalar_text v t ->
  query_param name (fold_right VNewtypeStruct v ws) = match ws with [] => Some [(name, t)] | _ => None end.
Proof. exact wrapped_scalar. Qed.
Print Assumptions C08_wrapped.

Example C08_wrapped_ex : scalar_text (VInt 5) (lit "5")
  /\ query_param (lit "n") (fold_right VNewtypeStruct (VInt 5) []) = Some [(lit "n", lit "5")]
  /\ query_param (lit "n") (fold_right VNewtypeStruct (VInt 5) [lit "A"; lit "B"]) = None.
Proof. split; [exact (st_int 5)|]. split; reflexivity. Qed.

(** C68: the response methods of a mock have different names if and only if the operation is not a websocket that
    documents 101; ... *)
Theorem C68_response_names_iff : forall snake pascal ts op comps path method pp m types o,
  process_operation snake pascal ts op comps path method pp = Ok m ->
  httpmock_method unicode15 types m = Ok o ->
  NoDup (map fst (documented op)) ->
  (NoDup (lit "new" :: lit "into_inner" :: map tm_name (mo_then_methods o)) <->
   ~ (m_websocket m = true /\ In (SCode 101) (map fst (documented op)))).
Proof. exact then_names_iff. Qed.
Print Assumptions C68_response_names_iff.

(** ... those for the request if and only if those of the parameters are, and none is called as those every wrapper has. *)
Theorem C68_request_names_iff : forall types m o, httpmock_method unicode15 types m = Ok o ->
  (NoDup (lit "new" :: lit "into_inner" :: map wm_name (mo_when_methods o)) <->
   NoDup (map p_name (m_params m)) /\ forall p, In p (m_params m) -> p_name p <> lit "new" /\ p_name p <> lit "into_inner").
Proof. exact when_names_iff. Qed.
Print Assumptions C68_request_names_iff.

Example C68_names_ex :
  process_operation x_snake x_pascal x_ts x_op x_comps (show x_pieces) (lit "put") [] = Ok x_m
  /\ httpmock_method unicode15 y_types x_m = Ok (k_mock x_m)
  /\ map fst (documented x_op) = [SDefault; SCode 200; SCode 404] /\ m_websocket x_m = false
  /\ NoDup (map fst (documented x_op)).
Proof.
  refine (conj eq_refl (conj x_mock_ok (conj eq_refl (conj eq_refl _)))).
  change (map fst (documented x_op)) with [SDefault; SCode 200; SCode 404].
  repeat constructor; cbn; intuition discriminate.
Qed.

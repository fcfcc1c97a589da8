(** Property C43: variables introduced by generated methods. *)
From Verif Require Import Base SerdeModel OasModel TemplateModel HeaderModel ClientModel MethodModel OpModel RunModel RequestSpec NameSpec NameProofs EpisodeKinds
  ExampleData.
Local Open Scope N_scope.

(** Every variable of the body except [header_map] is none of the parameters. *)
Theorem C43_fresh_partial : forall h m sb x, method_sig_body h m = Ok sb -> In x (declared sb) ->
  x = lit "header_map" \/ ~ In x (map p_name (m_params m)).
Proof. exact declared_fresh. Qed.
Print Assumptions C43_fresh_partial.

(** So all are fresh exactly if no parameter is called [header_map]. *)
Theorem C43_fresh_iff : forall h m sb, method_sig_body h m = Ok sb ->
  ((forall x, In x (declared sb) -> ~ In x (map p_name (m_params m))) <-> ~ In (lit "header_map") (map p_name (m_params m))).
Proof. exact declared_fresh_iff. Qed.
Print Assumptions C43_fresh_iff.

Theorem C43_distinct : forall h m sb, method_sig_body h m = Ok sb -> NoDup (declared sb).
Proof. exact declared_distinct. Qed.
Print Assumptions C43_distinct.

(** The search ends with the first candidate that is not taken. *)
Theorem C43_first_free : forall name ids,
  exists k, unique_ident_from name ids = underscores k name /\
    ~ In (underscores k name) ids /\ forall j, (j < k)%nat -> In (underscores j name) ids.
Proof. exact unique_ident_spec. Qed.
Print Assumptions C43_first_free.

(** [header_map] captures: a query parameter of that name is shadowed and the
    generated code is ill-typed. *)
Theorem C43_header_map_refuted : exists op m sb p v,
  process_operation x_snake x_pascal x_ts op x_comps (lit "/h") (lit "get") [] = Ok m /\
  method_sig_body x_no_hooks m = Ok sb /\
  m_params m = [p] /\ In (p_name p) (declared sb) /\
  fst (fst (run (N * list N) x_ctx x_fs nat (x_ops false false (x_resp 200)) sb (variables [(p, Some v)]) O)) = DoesNotCompile.
Proof.
  exists (Operation (Some (lit "o")) [] None None [Item (ParQuery (x_param (lit "header-map") true) QsForm)] None None
            [(ScCode 204, Item (ResponseDoc []))] []).
  eexists _, _, _, (x_value (lit "v")). split; [vm_compute; reflexivity|]. split; [vm_compute; reflexivity|].
  split; [reflexivity|]. split; [|vm_compute; reflexivity]. right. left. reflexivity.
Qed.
Print Assumptions C43_header_map_refuted.

(** A parameter called [url]: the variable becomes [_url]. *)
Example C43_ex :
  let p n := OpParam n n None (PType 2) (KQuery true) in
  let m := OpMethod (lit "o") [] Get [CConst (lit "/")] None None [p (lit "url"); p (lit "_url"); p (lit "result")]
             [OpResponse (SCode 204) RNone] None false in
  exists sb, method_sig_body x_no_hooks m = Ok sb /\
    declared sb = [lit "__url"; lit "header_map"; lit "request"; lit "_result"; lit "response"].
Proof. eexists. split; vm_compute; reflexivity. Qed.

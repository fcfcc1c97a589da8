(** Properties C36-C37: the parameters of a generated method. *)
From Verif Require Import Base OasModel TemplateModel TemplateSpec MethodModel OpModel RefSpec RefProofs ParamSpec ParamProofs
  OpCor ExampleData.
Local Open Scope N_scope.

(** ** C36 *)

(** Path parameters in template order, query and header parameters by name,
    then the body; strictly, so nothing occurs twice. *)
Theorem C36_order : forall snake pascal ts op comps ps method pp m,
  strict ps -> process_operation snake pascal ts op comps (show ps) method pp = Ok m ->
  StronglySorted (precedes (vars ps)) (m_params m).
Proof. exact params_in_order. Qed.
Print Assumptions C36_order.

Theorem C36_order_strict : forall names a, ~ precedes names a a.
Proof. exact precedes_irrefl. Qed.
Print Assumptions C36_order_strict.

(** Nothing is lost: the parameters other than the body stand one to one for
    the documented parameters that count. *)
Theorem C36_complete : forall snake pascal ts op comps path method pp m pi ops,
  process_operation snake pascal ts op comps path method pp = Ok m ->
  Forall2 (resolves co_parameters comps) pp pi ->
  Forall2 (resolves co_parameters comps) (op_parameters op) ops ->
  exists ps qs, NoDup (map param_name ps) /\ (forall p, In p ps <-> effective pi ops p) /\
    Forall2 (stands_for snake) ps qs /\
    Permutation (filter (fun q => negb (is_body q)) (m_params m)) qs.
Proof. exact effective_params. Qed.
Print Assumptions C36_complete.

Theorem C36_document_order_irrelevant : forall snake pascal ts op comps path method pp m pi ops l' pp',
  process_operation snake pascal ts op comps path method pp = Ok m ->
  Forall2 (resolves co_parameters comps) pp pi ->
  Forall2 (resolves co_parameters comps) (op_parameters op) ops ->
  NoDup (map param_name pi) -> NoDup (map param_name ops) ->
  Permutation (op_parameters op) l' -> Permutation pp pp' ->
  process_operation snake pascal ts (with_parameters op l') comps path method pp' = Ok m.
Proof. exact order_independent. Qed.
Print Assumptions C36_document_order_irrelevant.

Example C36_ex :
  process_operation x_snake x_pascal x_ts x_op x_comps (show x_pieces) (lit "put") [] = Ok x_m /\
  vars x_pieces = [lit "id"] /\ m_params x_m = [x_id; x_q; x_trace; x_body] /\
  Forall2 (resolves co_parameters x_comps) (op_parameters x_op)
    [ParQuery (x_param (lit "q") false) QsForm; ParHeader (x_param (lit "X-Trace") false);
     ParPath (x_param (lit "id") true) PsSimple] /\
  process_operation x_snake x_pascal x_ts (with_parameters x_op (rev (op_parameters x_op))) x_comps (show x_pieces) (lit "put") []
  = Ok x_m.
Proof.
  split; [reflexivity|]. split; [reflexivity|]. split; [reflexivity|]. split; [|reflexivity].
  repeat constructor; apply item_ok_iff; reflexivity.
Qed.
Example C36_strict_ex : precedes [lit "id"] x_id x_q /\ precedes [] x_q x_trace.
Proof. split; left; reflexivity. Qed.

(** ** C37 *)

(** When no two parameters share a name but not a location, a parameter is
    identified by name and location. *)
Theorem C37_override_partial : forall snake pascal ts op comps path method pp m pi ops,
  process_operation snake pascal ts op comps path method pp = Ok m ->
  Forall2 (resolves co_parameters comps) pp pi ->
  Forall2 (resolves co_parameters comps) (op_parameters op) ops ->
  (forall a b, In a (pi ++ ops) -> In b (pi ++ ops) -> param_name a = param_name b -> location a = location b) ->
  exists ps qs, NoDup (map param_name ps) /\ (forall p, In p ps <-> effective_by_location pi ops p) /\
    Forall2 (stands_for snake) ps qs /\
    Permutation (filter (fun q => negb (is_body q)) (m_params m)) qs.
Proof. exact effective_params_location. Qed.
Print Assumptions C37_override_partial.

(** The condition is exact: every parameter that counts is there if and only if no two that count share a name ... *)
Theorem C37_override_iff : forall snake pascal ts op comps path method pp m pi ops,
  process_operation snake pascal ts op comps path method pp = Ok m ->
  Forall2 (resolves co_parameters comps) pp pi ->
  Forall2 (resolves co_parameters comps) (op_parameters op) ops ->
  ((forall p, effective_by_location pi ops p -> exists q, In q (m_params m) /\ stands_for snake p q) <->
   (forall a b, effective_by_location pi ops a -> effective_by_location pi ops b ->
      param_name a = param_name b -> location a = location b)).
Proof. exact location_iff. Qed.
Print Assumptions C37_override_iff.

(** ... and there is never a parameter that does not count. *)
Theorem C37_no_others : forall snake pascal ts op comps path method pp m pi ops,
  process_operation snake pascal ts op comps path method pp = Ok m ->
  Forall2 (resolves co_parameters comps) pp pi ->
  Forall2 (resolves co_parameters comps) (op_parameters op) ops ->
  forall q, In q (m_params m) -> is_body q = false -> exists p, effective_by_location pi ops p /\ stands_for snake p q.
Proof. exact location_sound. Qed.
Print Assumptions C37_no_others.

(** Otherwise a parameter is lost: a query parameter [id] of the path item
    next to a path parameter [id] of the operation. *)
Theorem C37_same_name_refuted : exists op pp m pi ops p,
  process_operation x_snake x_pascal x_ts op x_comps (show x_pieces) (lit "get") pp = Ok m /\
  Forall2 (resolves co_parameters x_comps) pp pi /\
  Forall2 (resolves co_parameters x_comps) (op_parameters op) ops /\
  effective_by_location pi ops p /\ location p = 0 /\
  ~ (exists q, In q (m_params m) /\ stands_for x_snake p q).
Proof.
  set (p := ParQuery (x_param (lit "id") false) QsForm).
  set (o := ParPath (x_param (lit "id") true) PsSimple).
  exists (Operation (Some (lit "o")) [] None None [Item o] None None [(ScCode 204, Item (ResponseDoc []))] []),
    [Item p]. eexists. exists [p], [o], p.
  split; [vm_compute; reflexivity|]. split; [repeat constructor|]. split; [repeat constructor|].
  split.
  - right. split.
    + exists [], []. split; [reflexivity|]. intro H. inversion H.
    + intro H. inversion H as [? ? [_ Hl]|? ? Hl]; [discriminate|inversion Hl].
  - split; [reflexivity|]. intros (q & [<-|[]] & _ & _ & _ & r & Hk & _). discriminate.
Qed.
Print Assumptions C37_same_name_refuted.

(** The operation's [id] wins over the path item's. *)
Example C37_ex :
  let old := ParPath (ParamData (lit "id") (Some (lit "old")) true (Some (Item x_string)) None) PsSimple in
  exists m, process_operation x_snake x_pascal x_ts x_op x_comps (show x_pieces) (lit "put") [Item old] = Ok m /\
  m_params m = m_params x_m /\ ~ effective_by_location [old] [ParPath (x_param (lit "id") true) PsSimple] old /\
  location old = location (ParPath (x_param (lit "id") true) PsSimple).
Proof.
  eexists. split; [vm_compute; reflexivity|]. split; [reflexivity|]. split; [|reflexivity].
  intros [(pre & post & H & _)|(_ & H)].
  - destruct pre as [|? [|]]; discriminate.
  - apply H. left. split; reflexivity.
Qed.

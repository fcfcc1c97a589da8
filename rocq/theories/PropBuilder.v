(** Properties C27 to C30: the builder interface. *)
From Verif Require Import Base SerdeModel OasModel TemplateModel HeaderModel ClientModel MethodModel OpModel RunModel RequestSpec NameSpec
  BuilderModel BuilderSpec BuilderCor BuilderSend ExampleData ExampleBuilder.
Local Open Scope N_scope.

(** ** C27 *)

(** Every history of calls is possible. *)
Theorem C27_histories : forall {B} types (b_default : type_id -> B) b_from h m c cs,
  builder_struct types h m = Ok c -> builder_ok types m -> Forall (legal_call types m) cs ->
  exists st, built types b_default b_from h m c cs st.
Proof. exact @cor_total. Qed.
Print Assumptions C27_histories.

(** A field holds what the history gives to its parameter: the outcome of the
    last call of its setter, or the initial state. *)
Theorem C27_last_write_wins : forall {B types b_default b_from h m c} {cs : list (setter_call B)} {st} b_try_from,
  built types b_default b_from h m c cs st -> forall p, In p (m_params m) -> (forall t, ~ nested types p t) ->
  (exists r, gives types b_default b_from b_try_from cs p r) /\
  forall r, gives types b_default b_from b_try_from cs p r ->
    exists x, assoc (p_name p) st = Some x /\ holds x r.
Proof. exact @cor_plain. Qed.
Print Assumptions C27_last_write_wins.

(** The other calls do not matter. *)
Theorem C27_independent : forall {B types b_default b_from h m c} {cs : list (setter_call B)} {st},
  built types b_default b_from h m c cs st -> forall cs' st' r p,
  built types b_default b_from h m c cs' st' -> In p (m_params m) ->
  own types p cs r -> own types p cs' r ->
  assoc (p_name p) st = assoc (p_name p) st' /\ assoc (p_name p) st <> None.
Proof. exact @cor_independent. Qed.
Print Assumptions C27_independent.

(** [q] was set, then its setter failed: the failure stays. *)
Example C27_ex : gives x_types x_default x_from x_try_from x_calls x_q
    (RErr (lit "conversion to `String` for q failed")) /\
  assoc (lit "q") (x_state x_calls) = Some (FOpt (RErr (lit "conversion to `String` for q failed"))).
Proof.
  split; [|vm_compute; reflexivity].
  apply (gi_unconvertible x_types x_default x_from x_try_from x_calls x_q (lit "no") (lit "String")).
  - apply x_plain. cbn. auto.
  - apply (la_last (lit "q") [set (lit "id") (lit "a/b"); set (lit "q") (lit "z")] (RErr (lit "no"))).
    intros conv Hi. repeat (destruct Hi as [Hi|Hi]; [discriminate|]). easy.
  - eapply (tt_typed x_types x_q 2 (TypeInfo (lit "String") false)); reflexivity.
Qed.
Example C27_independent_ex : assoc (lit "id") (x_state x_calls) = assoc (lit "id") (x_state x_calls_good).
Proof.
  refine (proj1 (C27_independent x_calls_built x_calls_good (x_state x_calls_good) [set (lit "id") (lit "a/b")] x_id x_calls_good_built _ _ _)).
  - cbn. auto.
  - repeat first [apply ow_nil
      | apply ow_skip; [cbn [concerns]; first [discriminate | intros (t & Ht); revert Ht; apply x_plain; cbn; auto]|]
      | apply ow_keep; [reflexivity|]].
  - repeat first [apply ow_nil
      | apply ow_skip; [cbn [concerns]; first [discriminate | intros (t & Ht); revert Ht; apply x_plain; cbn; auto]|]
      | apply ow_keep; [reflexivity|]].
Qed.

(** ** C28 *)

(** The first parameter with nothing usable fails the call; no event happens
    and the world stays as it is. *)
Theorem C28_refused : forall {B types b_default b_from h m c} {cs : list (setter_call B)} {st} b_try_from,
  built types b_default b_from h m c cs st -> forall {V W ctx fs} {ops : world_ops W} pre p post msg w,
  m_params m = pre ++ p :: post ->
  Forall (fun q => exists o, gives types b_default b_from b_try_from cs q (ROk o)) pre ->
  gives types b_default b_from b_try_from cs p (RErr msg) ->
  send B b_try_from V ctx fs W ops c st w = (Returned (RErr (InvalidRequest msg)), [], w).
Proof. exact @cor_refused. Qed.
Print Assumptions C28_refused.

(** Otherwise the operation runs with the values given. *)
Theorem C28_runs : forall {B types b_default b_from h m c} {cs : list (setter_call B)} {st} b_try_from,
  built types b_default b_from h m c cs st -> forall {V W ctx fs} {ops : world_ops W} args w,
  map fst args = m_params m ->
  Forall (fun pv => gives types b_default b_from b_try_from cs (fst pv) (ROk (snd pv))) args ->
  exists sb, method_sig_body h m = Ok sb /\
    send B b_try_from V ctx fs W ops c st w = run V ctx fs W ops sb (variables args) w.
Proof. exact @cor_runs. Qed.
Print Assumptions C28_runs.

(** One of the two cases applies. *)
Theorem C28_decided : forall {B types b_default b_from h m c} {cs : list (setter_call B)} {st} b_try_from,
  built types b_default b_from h m c cs st ->
  (exists args, map fst args = m_params m /\
     Forall (fun pv => gives types b_default b_from b_try_from cs (fst pv) (ROk (snd pv))) args) \/
  (exists pre p post msg, m_params m = pre ++ p :: post /\
     Forall (fun q => exists o, gives types b_default b_from b_try_from cs q (ROk o)) pre /\
     gives types b_default b_from b_try_from cs p (RErr msg)).
Proof. exact @cor_decided. Qed.
Print Assumptions C28_decided.

Example C28_refused_ex : forall w,
  send (option value) x_try_from (N * list N) x_ctx x_fs nat (x_ops false false (x_resp 200)) (x_bc x_no_hooks) (x_state x_calls) w
  = (Returned (RErr (InvalidRequest (lit "conversion to `String` for q failed"))), [], w).
Proof.
  intro w. apply (C28_refused x_try_from x_calls_built [x_id] x_q [x_trace; x_body]); [reflexivity| |apply C27_ex].
  constructor; [|constructor]. exists (Some (x_value (lit "a/b"))). apply gi_value.
  - apply x_plain. cbn. auto.
  - apply (la_last (lit "id") []). intros conv Hi. repeat (destruct Hi as [Hi|Hi]; [discriminate|]). easy.
Qed.
Example C28_runs_ex : exists r tr,
  send (option value) x_try_from (N * list N) x_ctx x_fs nat (x_ops false false (x_resp 200)) (x_bc x_no_hooks) (x_state x_calls_good) O
  = (Returned (ROk r), tr, 1%nat).
Proof. eexists _, _. vm_compute. reflexivity. Qed.

(** ** C29 *)

(** [body] replaces, [body_map] transforms, a failed [body] stays. *)
Theorem C29_body : forall {B types b_default b_from h m c} {cs : list (setter_call B)} {st},
  built types b_default b_from h m c cs st -> forall p t, In p (m_params m) -> nested types p t ->
  (exists r, body_after types b_default b_from p t cs r) /\
  forall r, body_after types b_default b_from p t cs r -> assoc (lit "body") st = Some (FBuilder r).
Proof. exact @cor_body. Qed.
Print Assumptions C29_body.

Example C29_ex : body_after x_types x_default x_from x_body 3 x_calls (ROk (Some (x_value (lit "b")))) /\
  let cs := [set (lit "body") (lit "b"); fail (lit "body") (lit "too short"); CallBodyMap (fun _ => None)] in
  body_after x_types x_default x_from x_body 3 cs (RErr (lit "conversion to `Thing` for body failed: too short")) /\
  assoc (lit "body") (x_state cs) = Some (FBuilder (RErr (lit "conversion to `Thing` for body failed: too short"))).
Proof.
  split; [|split; [|vm_compute; reflexivity]].
  - apply (ba_never x_types x_default x_from x_body 3 x_calls). intros conv Hi.
    repeat (destruct Hi as [Hi|Hi]; [discriminate|]). easy.
  - apply (ba_failed x_types x_default x_from x_body 3 [set (lit "body") (lit "b")] (lit "too short") [CallBodyMap (fun _ => None)] (lit "Thing")).
    + intros conv Hi. repeat (destruct Hi as [Hi|Hi]; [discriminate|]). easy.
    + eapply (tt_typed x_types x_body 3 (TypeInfo (lit "Thing") true)); reflexivity.
Qed.

(** ** C30 *)

(** A builder with the arguments set behaves as the positional method, given
    that converting a body to its builder and back loses nothing. *)
Theorem C30_same_behaviour : forall {B types b_default b_from h m c} {cs : list (setter_call B)} {st} b_try_from,
  built types b_default b_from h m c cs st -> forall {V W ctx fs} {ops : world_ops W} args w,
  arguments_for (m_params m) args ->
  Forall (fun pv => latest (p_name (fst pv)) cs (option_map ROk (snd pv))) args ->
  (forall g, ~ In (CallBodyMap g) cs) ->
  (forall t v, b_try_from t (b_from t v) = ROk v) ->
  forall sb, method_sig_body h m = Ok sb ->
  send B b_try_from V ctx fs W ops c st w = run V ctx fs W ops sb (variables args) w.
Proof. exact @cor_positional. Qed.
Print Assumptions C30_same_behaviour.

(** The variable for the client is neither a parameter nor a variable of the
    method body. *)
Theorem C30_client_variable : forall types h m c, builder_struct types h m = Ok c ->
  ~ In (bc_client c) (map p_name (m_params m)) /\ ~ In (bc_client c) (declared (bc_send c)).
Proof. exact cor_client. Qed.
Print Assumptions C30_client_variable.

(** Which methods get a builder. *)
Theorem C30_generated_iff : forall types h m,
  (exists c, builder_struct types h m = Ok c) <->
  (exists sb, method_sig_body h m = Ok sb) /\ Forall (acceptable types) (m_params m) /\
  (forall pg, m_paginated m = Some pg -> types (pg_item pg) <> None).
Proof. exact builder_generated_iff. Qed.
Print Assumptions C30_generated_iff.

(** Not all that have a positional method: an optional query parameter of an
    object type makes the generator panic. *)
Theorem C30_every_operation_refuted : exists op m sb msg,
  process_operation x_snake x_pascal x_ts op x_comps (lit "/h") (lit "get") [] = Ok m /\
  method_sig_body x_no_hooks m = Ok sb /\ builder_struct x_types x_no_hooks m = Panic msg.
Proof.
  exists (Operation (Some (lit "o")) [] None None
            [Item (ParQuery (ParamData (lit "filter") None false (Some (Item x_object)) None) QsForm)] None None
            [(ScCode 204, Item (ResponseDoc []))] []).
  eexists _, _, _. split; [vm_compute; reflexivity|]. split; vm_compute; reflexivity.
Qed.
Print Assumptions C30_every_operation_refuted.

Example C30_ex : exists st args sb,
  built x_types x_default x_from x_no_hooks x_m (x_bc x_no_hooks) x_calls_good st /\
  arguments_for (m_params x_m) args /\ map snd args = [Some (x_value (lit "a/b")); Some (x_value (lit "z")); Some (x_value (lit "t1")); Some (x_value (lit "b"))] /\
  method_sig_body x_no_hooks x_m = Ok sb /\
  send (option value) x_try_from (N * list N) x_ctx x_fs nat (x_ops false false (x_resp 200)) (x_bc x_no_hooks) st O
  = run (N * list N) x_ctx x_fs nat (x_ops false false (x_resp 200)) sb (variables args) O.
Proof.
  exists (x_state x_calls_good), [(x_id, Some (x_value (lit "a/b"))); (x_q, Some (x_value (lit "z")));
    (x_trace, Some (x_value (lit "t1"))); (x_body, Some (x_value (lit "b")))], (x_sb x_no_hooks).
  split; [apply x_calls_good_built|]. split; [split; [reflexivity|repeat constructor; discriminate]|].
  split; [reflexivity|]. split; [vm_compute; reflexivity|]. vm_compute. reflexivity.
Qed.

(** Builders for the methods of [ExampleData]. *)
From Verif Require Import Base SerdeModel OasModel TemplateModel HeaderModel ClientModel MethodModel OpModel RunModel RequestSpec
  BuilderModel BuilderSpec ExampleData.
Local Open Scope N_scope.

(** Type 3, the object, has a builder: an optional value. *)
Definition x_types (t : type_id) : option type_info :=
  if t =? 3 then Some (TypeInfo (lit "Thing") true)
  else if t <? 3 then Some (TypeInfo (lit "String") false) else None.
Definition x_default (t : type_id) : option value := None.
Definition x_from (t : type_id) (v : value) : option value := Some v.
Definition x_try_from (t : type_id) (b : option value) : result value str :=
  match b with Some v => ROk v | None => RErr (lit "no value supplied for name") end.

Definition x_bc (h : hooks) : builder_code :=
  match builder_struct x_types h x_m with Ok c => c | _ => BuilderCode [] [] (SigBody RNone RNone []) None true end.
Lemma x_bc_ok h : builder_struct x_types h x_m = Ok (x_bc h).
Proof. destruct h as [[] [] [] []]; vm_compute; reflexivity. Qed.

Lemma x_builder_ok : builder_ok x_types x_m.
Proof.
  split; [repeat constructor; cbn; intuition discriminate|]. intros p t i Hp Ht Hi Hb.
  repeat (destruct Hp as [<-|Hp]; [injection Ht as <-; vm_compute in Hi; injection Hi as <-; try discriminate; cbn; eauto|]). easy.
Qed.

Lemma x_nested : nested x_types x_body 3.
Proof. split; [now exists Json|]. split; [reflexivity|]. now exists (TypeInfo (lit "Thing") true). Qed.
Lemma x_plain p : In p [x_id; x_q; x_trace] -> forall t, ~ nested x_types p t.
Proof. intros Hp t ((ct & Hk) & _). repeat (destruct Hp as [<-|Hp]; [discriminate|]). easy. Qed.

Definition set (n : str) (s : str) : setter_call (option value) := CallSet n (ROk (x_value s)).
Definition fail (n : str) (e : str) : setter_call (option value) := CallSet n (RErr e).

Definition x_state (cs : list (setter_call (option value))) : list (str * field (option value)) :=
  match build (option value) x_default x_from (bc_fields (x_bc x_no_hooks)) cs with Some st => st | None => [] end.

(** All calls by names of parameters or [body_map] are there. *)
Lemma x_legal (cs : list (setter_call (option value))) : Forall (fun c => match c with CallSet n _ => In n [lit "id"; lit "q"; lit "x_trace"; lit "body"] | _ => True end) cs ->
  Forall (legal_call x_types x_m) cs.
Proof.
  intro H. eapply Forall_impl; [|exact H]. intros [n conv|g] Hn; [exact Hn|]. exists x_body, 3. split; [cbn; auto|apply x_nested].
Qed.

Lemma x_built (cs : list (setter_call (option value))) : Forall (fun c => match c with CallSet n _ => In n [lit "id"; lit "q"; lit "x_trace"; lit "body"] | _ => True end) cs ->
  build (option value) x_default x_from (bc_fields (x_bc x_no_hooks)) cs = Some (x_state cs) ->
  built x_types x_default x_from x_no_hooks x_m (x_bc x_no_hooks) cs (x_state cs).
Proof. intros H Hb. split; [apply x_bc_ok|apply x_builder_ok|now apply x_legal|exact Hb]. Qed.

(** id, q twice (the second time unconvertible), the body in two steps. *)
Definition x_calls : list (setter_call (option value)) :=
  [set (lit "id") (lit "a/b"); set (lit "q") (lit "z"); fail (lit "q") (lit "no");
   CallBodyMap (fun _ => Some (x_value (lit "b"))); CallBodyMap (fun b => b)].
Lemma x_calls_built : built x_types x_default x_from x_no_hooks x_m (x_bc x_no_hooks) x_calls (x_state x_calls).
Proof. apply x_built; [repeat (apply Forall_cons; [cbn; auto 8|]); apply Forall_nil|]. vm_compute. reflexivity. Qed.

Definition x_calls_good : list (setter_call (option value)) :=
  [set (lit "body") (lit "c"); fail (lit "q") (lit "no"); set (lit "id") (lit "a/b"); set (lit "x_trace") (lit "t1");
   set (lit "q") (lit "z"); set (lit "body") (lit "b")].
Lemma x_calls_good_built :
  built x_types x_default x_from x_no_hooks x_m (x_bc x_no_hooks) x_calls_good (x_state x_calls_good).
Proof. apply x_built; [repeat (apply Forall_cons; [cbn; auto 8|]); apply Forall_nil|]. vm_compute. reflexivity. Qed.

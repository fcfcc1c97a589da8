(** A paginated operation, its arguments, and a server with three pages. *)
From Verif Require Import Base Utf8 SerdeModel OasModel TemplateModel TemplateSpec HeaderModel ClientModel MethodModel OpModel RunModel RequestSpec
  BuilderModel BuilderSpec PageSpec FutureModel StreamModel StreamSpec ExampleData ExampleBuilder.
Local Open Scope N_scope.

(** Type 1 is a page: [items] an array of 3, [next_page] an optional string. *)
Definition g_ts : type_space :=
  TypeSpace (ts_add x_ts)
    (fun t => if t =? 1 then Some (TdStruct [(lit "next_page", 5); (lit "items", 4)])
              else if t =? 2 then Some TdString else if t =? 4 then Some (TdVec 3)
              else if t =? 5 then Some (TdOption 2) else Some TdOther).

(** GET /things/{id} *)
Definition g_op : operation := Operation
  (Some (lit "list_things")) [] None None
  [Item (ParQuery (x_param (lit "limit") false) QsForm);
   Item (ParQuery (x_param (lit "page_token") false) QsForm);
   Item (ParQuery (x_param (lit "filter") false) QsForm);
   Item (ParPath (x_param (lit "id") true) PsSimple)]
  None None
  [(ScCode 200, Item (x_json (Ref (lit "#/components/schemas/Page"))))]
  [(lit "x-dropshot-pagination", JObj [(lit "required", JArr [])])].
Definition g_pieces : list piece := map PLit (lit "/things/") ++ [PVar (lit "id")].

Definition g_m : op_method :=
  match process_operation x_snake x_pascal g_ts g_op x_comps (show g_pieces) (lit "get") [] with Ok m => m | _ => x_m end.
Lemma g_processed : process_operation x_snake x_pascal g_ts g_op x_comps (show g_pieces) (lit "get") [] = Ok g_m.
Proof. vm_compute. reflexivity. Qed.

Definition g_query (n : str) : op_param := OpParam n n None (PType 2) (KQuery false).
Lemma g_params : m_params g_m = [x_id; g_query (lit "filter"); g_query (lit "limit"); g_query (lit "page_token")].
Proof. vm_compute. reflexivity. Qed.
Lemma g_paginated : m_paginated g_m = Some (Pagination 3 []).
Proof. vm_compute. reflexivity. Qed.

Lemma g_paginated_params : paginated_params (m_params g_m).
Proof.
  rewrite g_params. split; [repeat constructor; cbn; intuition discriminate|]. split.
  - exists (g_query (lit "page_token")). cbn. auto 8.
  - split.
    + intros p Hp. repeat (destruct Hp as [<-|Hp]; [cbn; split; intro E; congruence|]). easy.
    + intros p r Hp. repeat (destruct Hp as [<-|Hp]; [cbn; congruence|]). easy.
Qed.

Definition g_sb : sig_body := body_of x_no_hooks g_m.
Lemma g_sb_ok : method_sig_body x_no_hooks g_m = Ok g_sb.
Proof. vm_compute. reflexivity. Qed.

Definition g_args : list (op_param * option value) :=
  [(x_id, Some (x_value (lit "a/b"))); (g_query (lit "filter"), Some (x_value (lit "red")));
   (g_query (lit "limit"), Some (x_value (lit "2"))); (g_query (lit "page_token"), None)].
Lemma g_call : positional_call (m_params g_m) g_args.
Proof.
  split; [apply g_paginated_params|vm_compute; reflexivity| |].
  - intros p o Hi. repeat (destruct Hi as [Hi|Hi]; [injection Hi as <- <-; first [reflexivity | discriminate]|]). easy.
  - intros p Hi _ Hx. apply Base.mem_spec in Hx.
    assert (F : forallb (fun p => negb (mem (p_name p) [lit "page"; lit "first"; lit "state"])) (m_params g_m) = true)
      by (vm_compute; reflexivity).
    rewrite forallb_forall in F. apply F in Hi. now rewrite Hx in Hi.
Qed.

(** Values are items and pages.  The body of a response is the number of the
    page, and the world holds the bodies still to come; after the last the
    server answers with status 500. *)
Inductive thing := Thing (n : N) | Page (l : list thing) (next : option value).
Definition g_items (t : thing) : list thing := match t with Page l _ => l | _ => [] end.
Definition g_next (t : thing) : option value := match t with Page _ o => o | _ => None end.
Definition g_fs (t : N) (b : list N) : result thing jerr :=
  ROk (match b with
       | [1] => Page [Thing 1; Thing 2] (Some (x_value (lit "t2")))
       | [2] => Page [] (Some (x_value (lit "t3")))
       | _ => Page [Thing 3] None
       end).
(** The world: bodies to come, queries received. *)
Notation g_world := (prod (list N) (list (option str))) (only parsing).
Definition g_answer (s : N) (b : list N) : response := Response s [] [ROk b] (RErr (RErr' [] None [])).
Definition g_ops : world_ops (list N * list (option str)) :=
  WorldOps (list N * list (option str))
    (fun _ n => n) (fun q n => (ROk q, n))
    (fun q n => match fst n with
                | b :: r => (ROk (g_answer 200 [b]), (r, snd n ++ [q_query q]))
                | [] => (ROk (g_answer 500 []), ([], snd n ++ [q_query q]))
                end)
    (fun _ n => n) (fun _ n => (None, n)).

Definition g_page (n : N) : thing := match g_fs 0 [n] with ROk p => p | _ => Thing 0 end.
Definition g_first := Some (lit "filter=red&limit=2").
Definition g_second := Some (lit "limit=2&page_token=t2").
Definition g_third := Some (lit "limit=2&page_token=t3").

(** The pages, one after the other. *)
Lemma g_fetched : fetched g_next (page_request x_ctx g_fs g_ops g_sb g_args) None ([1; 2; 3], [])
  [g_page 1; g_page 2; g_page 3] None ([], [g_first; g_second; g_third]).
Proof.
  apply (fe_more g_next _ None ([1; 2; 3], []) (g_page 1) ([2; 3], [g_first]) (x_value (lit "t2")));
    [vm_compute; reflexivity|reflexivity|].
  apply (fe_more g_next _ _ ([2; 3], [g_first]) (g_page 2) ([3], [g_first; g_second]) (x_value (lit "t3")));
    [vm_compute; reflexivity|reflexivity|].
  apply (fe_one g_next _ _ ([3], [g_first; g_second]) (g_page 3)). vm_compute. reflexivity.
Qed.
(** The server fails after two pages. *)
Lemma g_fetched_two : fetched g_next (page_request x_ctx g_fs g_ops g_sb g_args) None ([1; 2], [])
  [g_page 1; g_page 2] (Some (x_value (lit "t3"))) ([], [g_first; g_second]).
Proof.
  apply (fe_more g_next _ None ([1; 2], []) (g_page 1) ([2], [g_first]) (x_value (lit "t2")));
    [vm_compute; reflexivity|reflexivity|].
  apply (fe_one g_next _ _ ([2], [g_first]) (g_page 2)). vm_compute. reflexivity.
Qed.

(** The builder. *)
Definition g_bc : builder_code :=
  match builder_struct x_types x_no_hooks g_m with Ok c => c | _ => BuilderCode [] [] (SigBody RNone RNone []) None true end.
Lemma g_bc_ok : builder_struct x_types x_no_hooks g_m = Ok g_bc.
Proof. vm_compute. reflexivity. Qed.
Definition g_calls : list (setter_call (option value)) :=
  [set (lit "limit") (lit "9"); set (lit "id") (lit "a/b"); set (lit "filter") (lit "red"); set (lit "limit") (lit "2")].
Definition g_state : list (str * field (option value)) :=
  match build (option value) x_default x_from (bc_fields g_bc) g_calls with Some st => st | None => [] end.
Lemma g_built : built x_types x_default x_from x_no_hooks g_m g_bc g_calls g_state.
Proof.
  split; [apply g_bc_ok| | |vm_compute; reflexivity].
  - split; [apply g_paginated_params|]. rewrite g_params. intros p t i Hp Ht Hi Hb.
    repeat (destruct Hp as [<-|Hp]; [injection Ht as <-; vm_compute in Hi; injection Hi as <-; discriminate|]). easy.
  - repeat (apply Forall_cons; [unfold legal_call; cbn [set]; rewrite g_params; cbn; auto 8|]). apply Forall_nil.
Qed.
Lemma g_gives : Forall (fun pv => gives x_types x_default x_from x_try_from g_calls (fst pv) (ROk (snd pv))) g_args.
Proof.
  assert (Hp : forall p, In p (map fst g_args) -> forall t, ~ nested x_types p t).
  { intros p Hp t ((ct & Hk) & _). repeat (destruct Hp as [<-|Hp]; [discriminate|]). easy. }
  repeat (apply Forall_cons; [cbn [fst snd]|]); [..|apply Forall_nil].
  - apply gi_value; [apply Hp; cbn; auto|]. apply (la_last (lit "id") [set (lit "limit") (lit "9")]).
    intros conv Hi. repeat (destruct Hi as [Hi|Hi]; [discriminate|]). easy.
  - apply gi_value; [apply Hp; cbn; auto|]. apply (la_last (lit "filter") [set (lit "limit") (lit "9"); set (lit "id") (lit "a/b")]).
    intros conv Hi. repeat (destruct Hi as [Hi|Hi]; [discriminate|]). easy.
  - apply gi_value; [apply Hp; cbn; auto|].
    apply (la_last (lit "limit") [set (lit "limit") (lit "9"); set (lit "id") (lit "a/b"); set (lit "filter") (lit "red")]).
    intros conv Hi. easy.
  - apply gi_absent; [apply Hp; cbn; auto| |reflexivity]. apply la_never.
    intros conv Hi. repeat (destruct Hi as [Hi|Hi]; [discriminate|]). easy.
Qed.

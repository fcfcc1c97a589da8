(** Properties C31 to C35: streams of paginated operations. *)
From Verif Require Import Base SerdeModel OasModel TemplateModel TemplateSpec HeaderModel ClientModel MethodModel OpModel RunModel RequestSpec
  BuilderModel BuilderSpec PageSpec FutureModel StreamModel StreamSpec PageProofs PageCor PageFirstSpec PageFirst ExampleData ExampleBuilder ExamplePages.
Local Open Scope N_scope.

Section Streams.
Context {V W : Type} {page_items : V -> list V} {page_next : V -> option value}
  {ctx : context} {fs : type_id -> list N -> result V jerr} {ops : world_ops W}.
Notation positional sb ps args :=
  (positional_stream V page_items page_next ctx fs W ops sb ps (variables (without_token args))).
Notation builder b_try_from c resets st :=
  (builder_stream V page_items page_next ctx fs W ops _ b_try_from c resets st).
Notation request sb args := (page_request ctx fs ops sb args).
Notation items := (items_of page_items).

(** ** C31: every item of every page, in order, then the end. *)

Theorem C31_positional : forall sb ps args, positional_call ps args ->
  forall w pages w', fetched page_next (request sb args) None w pages None w' -> forall k,
  takes (positional sb ps args) FlatFirst w (length (items pages) + S k)
    (yields (items pages) ++ repeat None (S k)) w'.
Proof. intros sb ps args H. exact (st_complete _ _ _ _ _ (cor_positional_streams sb ps args H)). Qed.

Theorem C31_builder : forall {B types b_default b_from h m c} {cs : list (setter_call B)} {st} b_try_from,
  built types b_default b_from h m c cs st -> forall resets args,
  paginated_params (m_params m) -> bc_stream c = Some resets -> map fst args = m_params m ->
  Forall (fun pv => gives types b_default b_from b_try_from cs (fst pv) (ROk (snd pv))) args ->
  forall w pages w', fetched page_next (request (bc_send c) args) None w pages None w' -> forall k,
  takes (builder b_try_from c resets st) FlatFirst w (length (items pages) + S k)
    (yields (items pages) ++ repeat None (S k)) w'.
Proof.
  intros B types b_default b_from h m c cs st b_try_from H resets args H1 H2 H3 H4.
  exact (st_complete _ _ _ _ _ (cor_builder_streams b_try_from H resets args H1 H2 H3 H4)).
Qed.

(** ** C32: the items before the failure, the error, then the end. *)

Theorem C32_positional : forall sb ps args, positional_call ps args ->
  (forall w e w', request sb args None w = ADone (RErr e) w' -> forall k,
   takes (positional sb ps args) FlatFirst w (S k) (Some (RErr e) :: repeat None k) w') /\
  (forall w pages token w1 e w', fetched page_next (request sb args) None w pages (Some token) w1 ->
   request sb args (Some token) w1 = ADone (RErr e) w' -> forall k,
   takes (positional sb ps args) FlatFirst w (length (items pages) + S k)
     (yields (items pages) ++ Some (RErr e) :: repeat None k) w').
Proof.
  intros sb ps args H. split.
  - exact (st_first_fails _ _ _ _ _ (cor_positional_streams sb ps args H)).
  - exact (st_fails _ _ _ _ _ (cor_positional_streams sb ps args H)).
Qed.

Theorem C32_builder : forall {B types b_default b_from h m c} {cs : list (setter_call B)} {st} b_try_from,
  built types b_default b_from h m c cs st -> forall resets args,
  paginated_params (m_params m) -> bc_stream c = Some resets -> map fst args = m_params m ->
  Forall (fun pv => gives types b_default b_from b_try_from cs (fst pv) (ROk (snd pv))) args ->
  (forall w e w', request (bc_send c) args None w = ADone (RErr e) w' -> forall k,
   takes (builder b_try_from c resets st) FlatFirst w (S k) (Some (RErr e) :: repeat None k) w') /\
  (forall w pages token w1 e w', fetched page_next (request (bc_send c) args) None w pages (Some token) w1 ->
   request (bc_send c) args (Some token) w1 = ADone (RErr e) w' -> forall k,
   takes (builder b_try_from c resets st) FlatFirst w (length (items pages) + S k)
     (yields (items pages) ++ Some (RErr e) :: repeat None k) w').
Proof.
  intros B types b_default b_from h m c cs st b_try_from H resets args H1 H2 H3 H4.
  split.
  - exact (st_first_fails _ _ _ _ _ (cor_builder_streams b_try_from H resets args H1 H2 H3 H4)).
  - exact (st_fails _ _ _ _ _ (cor_builder_streams b_try_from H resets args H1 H2 H3 H4)).
Qed.

(** A builder that lacks a parameter: one error, nothing sent. *)
Theorem C32_builder_incomplete : forall {B types b_default b_from h m c} {cs : list (setter_call B)} {st} b_try_from,
  built types b_default b_from h m c cs st -> forall resets pre p post msg, bc_stream c = Some resets ->
  m_params m = pre ++ p :: post ->
  Forall (fun q => exists o, gives types b_default b_from b_try_from cs q (ROk o)) pre ->
  gives types b_default b_from b_try_from cs p (RErr msg) ->
  forall fuel k w, exists s,
  take (builder b_try_from c resets st) fuel (S k) FlatFirst w
  = Some (Some (RErr (InvalidRequest msg)) :: repeat None k, s, w).
Proof. exact (@cor_builder_refused V W page_items page_next ctx fs ops). Qed.

(** ** C33: what is requested. *)

(** The calls of the operation: its own arguments for the first page, those
    of [page_arguments] for the others. *)
Theorem C33_positional_calls : forall sb ps args w, positional_call ps args ->
  map fst (without_token args) = stream_params ps /\
  call_method V ctx fs W ops sb ps (variables (without_token args)) None (first_params ps) w
    = page_of V W (run V ctx fs W ops sb (variables args) w) /\
  forall token,
  call_method V ctx fs W ops sb ps (visible (variables (without_token args))) (Some token) (step_params ps) w
    = page_of V W (run V ctx fs W ops sb (variables (page_arguments token args)) w).
Proof. exact cor_positional_calls. Qed.

Theorem C33_builder_calls : forall {B types b_default b_from h m c} {cs : list (setter_call B)} {st} b_try_from,
  built types b_default b_from h m c cs st -> forall resets args w,
  paginated_params (m_params m) -> bc_stream c = Some resets -> map fst args = m_params m ->
  Forall (fun pv => gives types b_default b_from b_try_from cs (fst pv) (ROk (snd pv))) args ->
  send_page V ctx fs W ops B b_try_from c st w = page_of V W (run V ctx fs W ops (bc_send c) (variables args) w) /\
  forall token,
  send_page V ctx fs W ops B b_try_from c (assign B (lit "page_token") (FOpt (ROk (Some token))) (reset B resets st)) w
    = page_of V W (run V ctx fs W ops (bc_send c) (variables (page_arguments token args)) w).
Proof. exact (@cor_builder_calls V W ctx fs ops). Qed.

(** ** C34: no request before its items are asked for. *)

Theorem C34_positional : forall sb ps args, positional_call ps args ->
  forall w pages p t w', fetched page_next (request sb args) None w (pages ++ [p]) t w' -> forall k,
  (length (items pages) < k <= length (items (pages ++ [p])))%nat ->
  takes (positional sb ps args) FlatFirst w k (yields (firstn k (items (pages ++ [p])))) w'.
Proof. intros sb ps args H. exact (st_lazy _ _ _ _ _ (cor_positional_streams sb ps args H)). Qed.

Theorem C34_builder : forall {B types b_default b_from h m c} {cs : list (setter_call B)} {st} b_try_from,
  built types b_default b_from h m c cs st -> forall resets args,
  paginated_params (m_params m) -> bc_stream c = Some resets -> map fst args = m_params m ->
  Forall (fun pv => gives types b_default b_from b_try_from cs (fst pv) (ROk (snd pv))) args ->
  forall w pages p t w', fetched page_next (request (bc_send c) args) None w (pages ++ [p]) t w' -> forall k,
  (length (items pages) < k <= length (items (pages ++ [p])))%nat ->
  takes (builder b_try_from c resets st) FlatFirst w k (yields (firstn k (items (pages ++ [p])))) w'.
Proof.
  intros B types b_default b_from h m c cs st b_try_from H resets args H1 H2 H3 H4.
  exact (st_lazy _ _ _ _ _ (cor_builder_streams b_try_from H resets args H1 H2 H3 H4)).
Qed.
End Streams.
Print Assumptions C31_positional.
Print Assumptions C31_builder.
Print Assumptions C32_positional.
Print Assumptions C32_builder.
Print Assumptions C32_builder_incomplete.
Print Assumptions C33_positional_calls.
Print Assumptions C33_builder_calls.
Print Assumptions C34_positional.
Print Assumptions C34_builder.

(** The query parameters of a following page: the token and the caller's limit. *)
Theorem C33_queries : forall args token, paginated_params (map fst args) -> forall n x,
  (In (n, x) (query_arguments (page_arguments token args)) /\ x <> VNone) <->
  (n = lit "page_token" /\ x = VSome (v_serde token)) \/
  (n = lit "limit" /\ exists p v, In (p, Some v) args /\ p_api_name p = lit "limit" /\ p_kind p = KQuery false /\
     x = VSome (v_serde v)).
Proof. exact page_queries. Qed.
Print Assumptions C33_queries.

(** The other parameters: the caller's. *)
Theorem C33_others : forall args token, paginated_params (map fst args) -> forall p o,
  (forall r, p_kind p <> KQuery r) -> (In (p, o) (page_arguments token args) <-> In (p, o) args).
Proof. exact page_others. Qed.
Print Assumptions C33_others.

(** Recognised operations have such parameters, if the names of the others
    stay distinct from [page_token]. *)
Theorem C33_recognised : forall {snake pascal ts comps op path method pp m},
  process_operation snake pascal ts op comps path method pp = Ok m -> forall pg,
  snake (lit "page_token") = lit "page_token" -> NoDup (map p_name (m_params m)) ->
  m_paginated m = Some pg -> paginated_params (m_params m).
Proof. exact @recognised_params. Qed.
Print Assumptions C33_recognised.

(** ** C35: which operations get a stream. *)

Theorem C35_recognised_iff : forall {snake pascal ts comps op path method pp m},
  process_operation snake pascal ts op comps path method pp = Ok m -> forall item,
  (exists pg, m_paginated m = Some pg /\ pg_item pg = item) <->
  pageable ts (op_extensions op) (m_params m) (m_responses m) item.
Proof. exact @recognised_iff. Qed.
Print Assumptions C35_recognised_iff.

Theorem C35_stream_iff : forall types h m c, builder_struct types h m = Ok c ->
  (bc_stream c <> None <-> m_paginated m <> None).
Proof. exact cor_stream_generated. Qed.
Print Assumptions C35_stream_iff.

(** The parameters required on the first page (the command line asks for them, C48) are those listed by the extension. *)
Theorem C35_first_page : forall {snake pascal ts comps op path method pp m},
  process_operation snake pascal ts op comps path method pp = Ok m -> forall pg, m_paginated m = Some pg ->
  exists v, first_under (lit "x-dropshot-pagination") (op_extensions op) v
    /\ (forall l, requires_first v l -> pg_first_page_params pg = l)
    /\ ((forall l, ~ requires_first v l) -> pg_first_page_params pg = []).
Proof. exact @first_page. Qed.
Print Assumptions C35_first_page.

(** ** Examples *)

Example C31_positional_ex :
  takes (positional_stream thing g_items g_next x_ctx g_fs _ g_ops g_sb (m_params g_m) (variables (without_token g_args)))
    FlatFirst ([1; 2; 3], []) 5
    [Some (ROk (Thing 1)); Some (ROk (Thing 2)); Some (ROk (Thing 3)); None; None]
    ([], [Some (lit "filter=red&limit=2"); Some (lit "limit=2&page_token=t2"); Some (lit "limit=2&page_token=t3")]).
Proof. exact (C31_positional g_sb (m_params g_m) g_args g_call _ _ _ g_fetched 1). Qed.

Example C31_builder_ex :
  takes (builder_stream thing g_items g_next x_ctx g_fs _ g_ops _ x_try_from g_bc [lit "filter"; lit "page_token"] g_state)
    FlatFirst ([1; 2; 3], []) 5
    [Some (ROk (Thing 1)); Some (ROk (Thing 2)); Some (ROk (Thing 3)); None; None]
    ([], [Some (lit "filter=red&limit=2"); Some (lit "limit=2&page_token=t2"); Some (lit "limit=2&page_token=t3")]).
Proof.
  assert (E : bc_send g_bc = g_sb) by (vm_compute; reflexivity).
  refine (C31_builder x_try_from g_built [lit "filter"; lit "page_token"] g_args g_paginated_params _ _ g_gives ([1; 2; 3], [])
           [g_page 1; g_page 2; g_page 3] _ _ 1); [vm_compute; reflexivity|vm_compute; reflexivity|].
  rewrite E. exact g_fetched.
Qed.

(** The third page fails: status 500 is not documented. *)
Example C32_ex : exists e,
  takes (positional_stream thing g_items g_next x_ctx g_fs _ g_ops g_sb (m_params g_m) (variables (without_token g_args)))
    FlatFirst ([1; 2], []) 5
    [Some (ROk (Thing 1)); Some (ROk (Thing 2)); Some (RErr e); None; None]
    ([], [Some (lit "filter=red&limit=2"); Some (lit "limit=2&page_token=t2"); Some (lit "limit=2&page_token=t3")]).
Proof.
  eexists. refine (proj2 (C32_positional g_sb (m_params g_m) g_args g_call) _ _ (x_value (lit "t3")) _ _ _ g_fetched_two _ 2%nat).
  vm_compute. reflexivity.
Qed.

(** Without [id] the builder sends nothing. *)
Example C32_incomplete_ex : forall fuel k w, exists st s,
  build (option value) x_default x_from (bc_fields g_bc) [set (lit "limit") (lit "2")] = Some st /\
  take (builder_stream thing g_items g_next x_ctx g_fs _ g_ops _ x_try_from g_bc [lit "filter"; lit "page_token"] st) fuel (S k) FlatFirst w
  = Some (Some (RErr (InvalidRequest (lit "id was not initialized"))) :: repeat None k, s, w).
Proof.
  intros fuel k w.
  assert (Hb : built x_types x_default x_from x_no_hooks g_m g_bc [set (lit "limit") (lit "2")]
                 (match build (option value) x_default x_from (bc_fields g_bc) [set (lit "limit") (lit "2")] with Some st => st | None => [] end)).
  { destruct g_built as [H1 H2 _ _]. split; [exact H1|exact H2| |vm_compute; reflexivity].
    constructor; [|constructor]. unfold legal_call. cbn [set]. rewrite g_params. cbn. auto. }
  destruct (C32_builder_incomplete (page_items := g_items) (page_next := g_next) (ctx := x_ctx) (fs := g_fs) (ops := g_ops)
              x_try_from Hb [lit "filter"; lit "page_token"] [] x_id
              [g_query (lit "filter"); g_query (lit "limit"); g_query (lit "page_token")] (lit "id was not initialized")) with (fuel := fuel) (k := k) (w := w)
    as (s & Hs).
  - vm_compute. reflexivity.
  - apply g_params.
  - constructor.
  - apply (gi_missing x_types x_default x_from x_try_from _ x_id); [|apply la_never|reflexivity].
    + intros t ((ct & Hk) & _). discriminate.
    + intros conv [Hi|[]]. discriminate.
  - eexists _, s. split; [apply Hb|exact Hs].
Qed.

Example C33_ex : query_arguments (page_arguments (x_value (lit "t2")) g_args)
  = [(lit "filter", VNone); (lit "limit", VSome (VStr (lit "2"))); (lit "page_token", VSome (VStr (lit "t2")))].
Proof. vm_compute. reflexivity. Qed.
Example C33_recognised_ex : paginated_params (m_params g_m).
Proof.
  apply (C33_recognised g_processed (Pagination 3 [])); [reflexivity| |apply g_paginated].
  apply g_paginated_params.
Qed.

(** Two items: only the first page is requested; the third item takes all three. *)
Example C34_ex :
  let s := positional_stream thing g_items g_next x_ctx g_fs _ g_ops g_sb (m_params g_m) (variables (without_token g_args)) in
  takes s FlatFirst ([1; 2; 3], []) 2 [Some (ROk (Thing 1)); Some (ROk (Thing 2))]
    ([2; 3], [Some (lit "filter=red&limit=2")]) /\
  takes s FlatFirst ([1; 2; 3], []) 3 [Some (ROk (Thing 1)); Some (ROk (Thing 2)); Some (ROk (Thing 3))]
    ([], [Some (lit "filter=red&limit=2"); Some (lit "limit=2&page_token=t2"); Some (lit "limit=2&page_token=t3")]).
Proof.
  split.
  - refine (C34_positional g_sb (m_params g_m) g_args g_call _ [] (g_page 1) (Some (x_value (lit "t2"))) _ _ 2%nat _).
    + apply (fe_one g_next _ None ([1; 2; 3], []) (g_page 1)). vm_compute. reflexivity.
    + cbn. lia.
  - refine (C34_positional g_sb (m_params g_m) g_args g_call _ [g_page 1; g_page 2] (g_page 3) None _ g_fetched 3%nat _).
    cbn. lia.
Qed.

Example C35_ex : pageable g_ts (op_extensions g_op) (m_params g_m) (m_responses g_m) 3.
Proof. apply (C35_recognised_iff g_processed). exists (Pagination 3 []). split; [apply g_paginated|reflexivity]. Qed.
(** A required query parameter: not paginated. *)
Example C35_not_ex : exists op m,
  process_operation x_snake x_pascal g_ts op x_comps (lit "/things") (lit "get") [] = Ok m /\
  In (lit "x-dropshot-pagination") (map fst (op_extensions op)) /\
  optional_query (m_params m) (lit "page_token") /\ optional_query (m_params m) (lit "limit") /\
  m_paginated m = None.
Proof.
  exists (Operation (Some (lit "list")) [] None None
    [Item (ParQuery (x_param (lit "limit") false) QsForm); Item (ParQuery (x_param (lit "page_token") false) QsForm);
     Item (ParQuery (x_param (lit "filter") true) QsForm)] None None
    [(ScCode 200, Item (x_json (Ref (lit "#/components/schemas/Page"))))] (op_extensions g_op)).
  eexists. split; [vm_compute; reflexivity|]. split; [cbn; auto|].
  split; [|split; [|vm_compute; reflexivity]]; unfold optional_query.
  - exists (g_query (lit "page_token")). split; [cbn; auto|split; reflexivity].
  - exists (g_query (lit "limit")). split; [cbn; auto|split; reflexivity].
Qed.

(** The list in an object, in an array, and something else. *)
Example C35_first_page_ex : forall v names,
  In (v, names) [(JObj [(lit "note", JNull); (lit "required", JArr [JStr (lit "filter")])], [lit "filter"]);
                 (JArr [JArr [JStr (lit "filter")]], [lit "filter"]); (JStr (lit "filter"), [])] ->
  exists m pg,
  process_operation x_snake x_pascal g_ts (Operation (op_id g_op) [] None None (op_parameters g_op) None None
    [(ScCode 200, Item (x_json (Ref (lit "#/components/schemas/Page"))))] [(lit "x-dropshot-pagination", v)]) x_comps (show g_pieces) (lit "get") [] = Ok m
  /\ m_paginated m = Some pg /\ pg_first_page_params pg = names
  /\ (names <> [] -> requires_first v names).
Proof.
  intros v names [[= <- <-]|[[= <- <-]|[[= <- <-]|[]]]]; eexists; eexists; (split; [vm_compute; reflexivity|]); (split; [reflexivity|]);
    (split; [reflexivity|]); intro H; try easy.
  - apply (rq_object _ [lit "filter"]). exists [(lit "note", JNull)], []. split; [reflexivity|]. intros [H'|[]]. discriminate H'.
  - exact (rq_array [lit "filter"]).
Qed.

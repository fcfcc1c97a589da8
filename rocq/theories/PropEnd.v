(** Property C82: a client that compiles does what the document says. *)
From Verif Require Import Base OasModel HeaderModel ClientModel TemplateModel TemplateSpec SanitizeModel MethodModel OpModel RunModel BuilderModel
  FutureModel StreamModel GenerateModel RequestSpec BuilderSpec DocSpec StreamSpec GenerateSpec ValidateProofs CompileSpec CompileItemSpec
  EndSpec EndCor ExampleData ExampleBuilder ExamplePages ExampleGenerate ExampleCompile ExampleEnd.
Local Open Scope N_scope.

Section Client.
Context {has : type_id -> rust_trait -> Prop} {add_ref_types : list (str * ref_or schema) -> outcome type_space}
  {types : type_id -> option type_info} {s : settings} {d : openapi} {g : generated_code} {ts : type_space} {l : list doc_op}.
Notation schemas := (match oa_components d with Some c => co_schemas c | None => [] end).
Notation code := (code_of unicode15 ts d (se_hooks s)).
Notation documented := (documented_call unicode15 ts d (se_hooks s)).

(** The positional style: one method per operation, and all of its calls. *)
Theorem C82_positional :
  generate_tokens unicode15 add_ref_types types s d = Ok g -> operations_in_order d l -> add_ref_types schemas = Ok ts ->
  file_ok has ts g -> se_interface s = Positional ->
  Forall2 (fun e i => exists m ps sb doc tys generic,
    i = ImMethod (method_name unicode15 e) doc (combine (map p_name (m_params m)) tys) generic sb
    /\ length tys = length (m_params m) /\ code e m ps sb
    /\ forall V ctx fs W (ops : world_ops W) args w, callable ctx m args ->
       documented e m ps sb ctx fs ops args w (run V ctx fs W ops sb (variables args) w))
  l (own_methods (ge_code g)).
Proof. intros H1 H2 H3 H4. exact (end_positional H1 H2 H3 H4). Qed.

(** The builder style: every sequence of calls of setters can be made; then [send] reports the first parameter without a
    value, or sends what the setters gave. *)
Theorem C82_builder :
  generate_tokens unicode15 add_ref_types types s d = Ok g -> operations_in_order d l -> add_ref_types schemas = Ok ts ->
  file_ok has ts g -> se_interface s = Builder ->
  Forall2 (fun e sc => exists m ps, sc_name sc = builder_name unicode15 e
    /\ code e m ps (bc_send (sc_code sc)) /\ builder_struct types (se_hooks s) m = Ok (sc_code sc)
    /\ forall B (b_default : type_id -> B) b_from cs, Forall (offered (sc_code sc)) cs ->
       exists st, build B b_default b_from (bc_fields (sc_code sc)) cs = Some st
       /\ forall b_try_from,
       (exists pre p post msg, m_params m = pre ++ p :: post
          /\ Forall (fun q => exists o, gives types b_default b_from b_try_from cs q (ROk o)) pre
          /\ gives types b_default b_from b_try_from cs p (RErr msg)
          /\ forall V ctx fs W (ops : world_ops W) w,
             send B b_try_from V ctx fs W ops (sc_code sc) st w = (Returned (RErr (InvalidRequest msg)), [], w))
       \/ (exists args, map fst args = m_params m
          /\ Forall (fun pv => gives types b_default b_from b_try_from cs (fst pv) (ROk (snd pv))) args
          /\ forall V ctx fs W (ops : world_ops W) w, legal_names ctx (m_params m) -> url_headers_ok ctx ->
             documented e m ps (bc_send (sc_code sc)) ctx fs ops args w (send B b_try_from V ctx fs W ops (sc_code sc) st w)))
  l (oc_builders (ge_code g)).
Proof. intros H1 H2 H3 H4. exact (end_builder H1 H2 H3 H4). Qed.

(** Streams of paginated operations. *)
Theorem C82_positional_streams :
  generate_tokens unicode15 add_ref_types types s d = Ok g -> operations_in_order d l -> add_ref_types schemas = Ok ts ->
  file_ok has ts g -> se_interface s = Positional -> forall e m ps sb, In e l -> code e m ps sb -> m_paginated m <> None ->
  (exists doc params generic, In (ImStream (method_name unicode15 e ++ lit "_stream") doc params generic (method_name unicode15 e)
     (first_params (m_params m)) (step_params (m_params m))) (oc_impl (ge_code g)))
  /\ forall V page_items page_next ctx fs W (ops : world_ops W) args, map fst args = m_params m ->
     (forall p o, In (p, o) args -> p_api_name p = lit "page_token" -> o = None) ->
     StreamSpec.streams page_items page_next (page_request ctx fs ops sb args)
       (positional_stream V page_items page_next ctx fs W ops sb (m_params m) (variables (without_token args))) FlatFirst.
Proof. intros H1 H2 H3 H4. exact (end_positional_streams H1 H2 H3 H4). Qed.

Theorem C82_builder_streams :
  generate_tokens unicode15 add_ref_types types s d = Ok g -> operations_in_order d l -> add_ref_types schemas = Ok ts ->
  file_ok has ts g -> se_interface s = Builder -> forall sc e m ps,
  In sc (oc_builders (ge_code g)) -> In e l -> sc_name sc = builder_name unicode15 e ->
  code e m ps (bc_send (sc_code sc)) -> m_paginated m <> None ->
  exists resets, bc_stream (sc_code sc) = Some resets
  /\ forall B (b_default : type_id -> B) b_from b_try_from cs st args,
     Forall (offered (sc_code sc)) cs -> build B b_default b_from (bc_fields (sc_code sc)) cs = Some st ->
     map fst args = m_params m -> Forall (fun pv => gives types b_default b_from b_try_from cs (fst pv) (ROk (snd pv))) args ->
     forall V page_items page_next ctx fs W (ops : world_ops W),
     StreamSpec.streams page_items page_next (page_request ctx fs ops (bc_send (sc_code sc)) args)
       (builder_stream V page_items page_next ctx fs W ops B b_try_from (sc_code sc) resets st) FlatFirst.
Proof. intros H1 H2 H3 H4. exact (end_builder_streams H1 H2 H3 H4). Qed.
End Client.
Print Assumptions C82_positional.
Print Assumptions C82_builder.
Print Assumptions C82_positional_streams.
Print Assumptions C82_builder_streams.

(** Clients with three operations that compile, and their names. *)
Example C82_ex :
  (generate_tokens unicode15 (fun _ => Ok x_ts) y_types (y_set Positional Merged) (y_doc (lit "ping"))
     = Ok (y_gen Positional Merged (lit "ping"))
   /\ file_ok v_has x_ts (y_gen Positional Merged (lit "ping"))
   /\ map im_name (own_methods (ge_code (y_gen Positional Merged (lit "ping")))) = [lit "get_item"; lit "put_item"; lit "ping"])
  /\ operations_in_order (y_doc (lit "ping")) (y_ops (lit "ping"))
  /\ (generate_tokens unicode15 (fun _ => Ok x_ts) y_types (y_set Builder Separate) (y_doc (lit "ping"))
     = Ok (y_gen Builder Separate (lit "ping"))
   /\ file_ok v_has x_ts (y_gen Builder Separate (lit "ping"))
   /\ map sc_name (oc_builders (ge_code (y_gen Builder Separate (lit "ping")))) = [lit "GetItem"; lit "PutItem"; lit "Ping"]).
Proof. exact (conj (conj y_positional (conj u_positional y_names)) (conj (doc_ops_in_order _) (conj y_separate (conj u_separate y_builders)))). Qed.

(** Clients with a paginated operation. *)
Example C82_streams_ex :
  (generate_tokens unicode15 (fun _ => Ok g_ts) y_types (y_set Positional Merged) z_doc = Ok (z_gen Positional)
   /\ file_ok v_has g_ts (z_gen Positional)
   /\ generate_tokens unicode15 (fun _ => Ok g_ts) y_types (y_set Builder Merged) z_doc = Ok (z_gen Builder)
   /\ file_ok v_has g_ts (z_gen Builder))
  /\ In u_e u_ops /\ code_of unicode15 g_ts z_doc x_no_hooks u_e g_m g_pieces g_sb
  /\ m_paginated g_m = Some (Pagination 3 []) /\ map fst g_args = m_params g_m
  /\ Forall (offered u_bc) g_calls
  /\ exists st, build (option value) x_default x_from (bc_fields u_bc) g_calls = Some st
     /\ match send (option value) x_try_from thing x_ctx g_fs (list N * list (option str)) g_ops u_bc st ([1], []) with
        | (Returned (ROk _), [ESend q _], (_, [qu])) => qu = g_first /\ q_query q = g_first
        | _ => False
        end.
Proof.
  exact (conj (conj (proj1 z_ok) (conj u_positional_stream (conj (proj2 z_ok) u_builder_stream)))
    (conj u_in (conj u_code (conj g_paginated (conj (pc_args _ _ g_call) (conj u_offered u_sent)))))).
Qed.

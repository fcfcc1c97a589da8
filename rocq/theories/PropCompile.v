(** Properties C78 to C81: the generated code compiles under exactly these conditions. *)
From Verif Require Import Base OasModel ClientModel TemplateModel TemplateSpec SanitizeModel MethodModel OpModel RunModel BuilderModel
  StreamModel GenerateModel RequestSpec BuilderSpec DocSpec GenerateSpec ValidateProofs CompileSpec CompileItemSpec CompileCor
  ExampleData ExampleBuilder ExamplePages ExampleGenerate ExampleCompile.
Local Open Scope N_scope.

(** ** C78: methods.  The compiler accepts a method if and only if its operation is sound, ... *)

Theorem C78_method : forall has snake pascal ts op comps ps method pp h m sb,
  process_operation snake pascal ts op comps (show ps) method pp = Ok m -> lax ps -> method_sig_body h m = Ok sb ->
  method_ok has (scope m) sb <-> sound_operation has ps m sb.
Proof. intros has snake pascal ts op comps ps method pp h m sb. exact cor_method. Qed.
Print Assumptions C78_method.

(** ... and then no call of it is stuck. *)
Theorem C78_runs : forall has snake pascal ts op comps ps method pp h m sb,
  process_operation snake pascal ts op comps (show ps) method pp = Ok m -> lax ps -> method_sig_body h m = Ok sb ->
  forall V ctx fs W (ops : world_ops W) args w, sound_operation has ps m sb ->
  (forall q w r w', w_execute ops q w = (ROk r, w') -> r_status r < 65536) ->
  arguments_for (m_params m) args ->
  fst (fst (run V ctx fs W ops sb (variables args) w)) <> DoesNotCompile.
Proof. intros has snake pascal ts op comps ps method pp h m sb. exact cor_runs. Qed.
Print Assumptions C78_runs.

Example C78_ex :
  process_operation x_snake x_pascal x_ts x_op x_comps (show x_pieces) (lit "put") [] = Ok x_m
  /\ lax x_pieces /\ method_sig_body x_hooks x_m = Ok (x_sb x_hooks)
  /\ sound_operation v_has x_pieces x_m (x_sb x_hooks) /\ arguments_for (m_params x_m) x_args
  /\ forall q w r w', w_execute (x_ops false false (x_resp 200)) q w = (ROk r, w') -> r_status r < 65536.
Proof.
  split; [reflexivity|]. split; [is_lax|]. split; [reflexivity|]. split; [apply v_sound|]. split; [exact (c_args _ _ _ x_callable)|].
  exact v_statuses.
Qed.

(** Not every method compiles: one for OPTIONS, for a path with a closing brace, with a path parameter called
    [encode_path], with parameters called [header_map] besides headers, with a path parameter that is an object. *)
Theorem C78_rejects : exists (has : type_id -> rust_trait -> Prop) snake pascal ts comps,
  (forall t tr, t <> 3 -> has t tr) /\
  forall op ps method,
  In (op, ps, method)
    [(v_op [], v_no, lit "options"); (v_op [v_path (lit "id") x_string], v_stray, lit "get");
     (v_op [v_path (lit "encode_path") x_string], v_var (lit "encode_path"), lit "get");
     (v_op v_headers, v_no, lit "get"); (v_op [v_path (lit "id") x_object], v_var (lit "id"), lit "get")] ->
  exists m sb, lax ps /\ process_operation snake pascal ts op comps (show ps) method [] = Ok m
    /\ method_sig_body x_no_hooks m = Ok sb /\ ~ method_ok has (scope m) sb.
Proof.
  exists v_has, x_snake, x_pascal, x_ts, x_comps. split; [intros t tr Hn Ht; easy|]. intros op ps method H.
  exists (v_m op ps method), (v_body (v_m op ps method)).
  repeat (destruct H as [[= <- <- <-]|H];
    [split; [is_lax|]; split; [vm_compute; reflexivity|]; split; [vm_compute; reflexivity|];
     first [apply v_verb|apply v_brace|apply v_encode|apply v_map|apply v_display]|]). easy.
Qed.
Print Assumptions C78_rejects.

(** ** C79: the positional methods of an operation, with the stream of a paginated one. *)

Theorem C79_positional : forall has snake pascal ts op comps ps method pp h m sb,
  process_operation snake pascal ts op comps (show ps) method pp = Ok m -> lax ps -> method_sig_body h m = Ok sb ->
  snake (lit "page_token") = lit "page_token" ->
  forall types items all structs, positional_method types h m = Ok items -> incl items all ->
  (forall n doc params generic code, In (ImMethod n doc params generic code) all -> n = m_operation_id m ->
     In (ImMethod n doc params generic code) items) ->
  Forall (item_ok has ts all structs) items <-> sound_positional has ts ps m sb.
Proof. intros has snake pascal ts op comps ps method pp h m sb. exact cor_positional. Qed.
Print Assumptions C79_positional.

Example C79_ex :
  process_operation x_snake x_pascal g_ts g_op x_comps (show g_pieces) (lit "get") [] = Ok g_m
  /\ lax g_pieces /\ method_sig_body x_no_hooks g_m = Ok g_sb /\ x_snake (lit "page_token") = lit "page_token"
  /\ positional_method x_types x_no_hooks g_m = Ok (v_items x_types g_m) /\ length (v_items x_types g_m) = 2%nat
  /\ sound_positional v_has g_ts g_pieces g_m g_sb.
Proof.
  split; [exact g_processed|]. split; [is_lax|]. split; [exact g_sb_ok|]. split; [reflexivity|].
  split; [apply v_g_items|]. split; [apply v_g_items|exact v_g_sound].
Qed.

(** A stream does not compile if the token is not a string, or a path parameter is called [page]. *)
Theorem C79_rejects : forall has id token, In (id, token) [(lit "id", x_object); (lit "page", x_string)] ->
  exists m items, process_operation x_snake x_pascal g_ts (v_page_op id token) x_comps (show (v_var id)) (lit "get") [] = Ok m
  /\ positional_method x_types x_no_hooks m = Ok items /\ ~ Forall (item_ok has g_ts items []) items.
Proof.
  intros has id token H. exists (v_page_m id token), (v_items x_types (v_page_m id token)).
  repeat (destruct H as [[= <- <-]|H];
    [split; [vm_compute; reflexivity|]; split; [vm_compute; reflexivity|]; first [apply v_token|apply v_page]|]). easy.
Qed.
Print Assumptions C79_rejects.

(** ** C80: the builder of an operation, ... *)

Theorem C80_builder : forall has snake pascal ts op comps ps method pp h m sb,
  process_operation snake pascal ts op comps (show ps) method pp = Ok m -> lax ps -> method_sig_body h m = Ok sb ->
  snake (lit "page_token") = lit "page_token" ->
  forall types c, builder_struct types h m = Ok c -> builder_code_ok has ts c <-> sound_builder has ts types ps m sb.
Proof. intros has snake pascal ts op comps ps method pp h m sb. exact cor_builder. Qed.
Print Assumptions C80_builder.

(** ... which then runs with any sequence of calls it offers. *)
Theorem C80_runs : forall has snake pascal ts op comps ps method pp h m sb,
  process_operation snake pascal ts op comps (show ps) method pp = Ok m -> lax ps -> method_sig_body h m = Ok sb ->
  snake (lit "page_token") = lit "page_token" ->
  forall types c B V b_default b_from b_try_from ctx fs W (ops : world_ops W) cs,
  builder_struct types h m = Ok c -> sound_builder has ts types ps m sb ->
  (forall q w r w', w_execute ops q w = (ROk r, w') -> r_status r < 65536) ->
  Forall (offered c) cs ->
  exists st, build B b_default b_from (bc_fields c) cs = Some st
    /\ forall w, fst (fst (send B b_try_from V ctx fs W ops c st w)) <> DoesNotCompile.
Proof. intros has snake pascal ts op comps ps method pp h m sb. exact cor_builder_runs. Qed.
Print Assumptions C80_runs.

Example C80_ex :
  builder_struct x_types x_hooks x_m = Ok (x_bc x_hooks)
  /\ sound_builder v_has x_ts x_types x_pieces x_m (x_sb x_hooks)
  /\ Forall (offered (x_bc x_no_hooks)) x_calls /\ length x_calls = 5%nat.
Proof. exact (conj (x_bc_ok x_hooks) (conj (v_builder_sound x_hooks) (conj v_offered eq_refl))). Qed.

(** A parameter called [new], and one called [clone] of a paginated operation, give builders that do not compile. *)
Theorem C80_rejects : forall has,
  (exists m c, process_operation x_snake x_pascal x_ts v_new_op x_comps (show v_no) (lit "get") [] = Ok m
     /\ builder_struct x_types x_no_hooks m = Ok c /\ ~ builder_code_ok has x_ts c)
  /\ exists m c, process_operation x_snake x_pascal g_ts (v_page_op (lit "clone") x_string) x_comps
       (show (v_var (lit "clone"))) (lit "get") [] = Ok m
     /\ builder_struct x_types x_no_hooks m = Ok c /\ ~ builder_code_ok has g_ts c.
Proof.
  intro has. split.
  - exists (v_m v_new_op v_no (lit "get")), v_new. split; [vm_compute; reflexivity|]. exact (conj v_new_ok (v_new_rejected has)).
  - exists (v_page_m (lit "clone") x_string), v_clone. split; [vm_compute; reflexivity|]. exact (conj v_clone_ok (v_clone_rejected has)).
Qed.
Print Assumptions C80_rejects.

(** ** C81: clients. *)

Theorem C81_client : forall has add_ref_types types s d g ts l ms,
  generate_tokens unicode15 add_ref_types types s d = Ok g -> operations_in_order d l ->
  add_ref_types (match oa_components d with Some c => co_schemas c | None => [] end) = Ok ts ->
  Forall2 (processed unicode15 ts d) l ms ->
  file_ok has ts g <-> sound_client has ts types unicode15 s l ms.
Proof. exact cor_client. Qed.
Print Assumptions C81_client.

Example C81_ex :
  Forall2 (processed unicode15 x_ts (y_doc (lit "ping"))) (y_ops (lit "ping")) (w_ms (lit "ping"))
  /\ operations_in_order (y_doc (lit "ping")) (y_ops (lit "ping"))
  /\ generate_tokens unicode15 (fun _ => Ok x_ts) y_types (y_set Positional Merged) (y_doc (lit "ping"))
     = Ok (y_gen Positional Merged (lit "ping"))
  /\ sound_client v_has x_ts y_types unicode15 (y_set Positional Merged) (y_ops (lit "ping")) (w_ms (lit "ping"))
  /\ generate_tokens unicode15 (fun _ => Ok x_ts) y_types (y_set Builder Separate) (y_doc (lit "ping"))
     = Ok (y_gen Builder Separate (lit "ping"))
  /\ sound_client v_has x_ts y_types unicode15 (y_set Builder Separate) (y_ops (lit "ping")) (w_ms (lit "ping")).
Proof.
  exact (conj w_processed (conj (doc_ops_in_order _) (conj y_positional (conj w_positional (conj y_separate w_separate))))).
Qed.

(** Clients that do not compile: with builders, for an operation called [error]; with separate tags, for tags that
    differ in punctuation only. *)
Theorem C81_rejects : forall has,
  (exists g, generate_tokens unicode15 (fun _ => Ok x_ts) y_types (y_set Builder Merged) (y_doc (lit "error")) = Ok g
     /\ ~ file_ok has x_ts g)
  /\ exists g, generate_tokens unicode15 (fun _ => Ok x_ts) y_types (y_set Builder Separate) w_tag_doc = Ok g
     /\ ~ file_ok has x_ts g.
Proof.
  intro has. split.
  - exists (y_gen Builder Merged (lit "error")). exact (conj w_error (w_error_rejected has)).
  - exists w_tag_gen. exact (conj w_tag_ok (w_tag_rejected has)).
Qed.
Print Assumptions C81_rejects.

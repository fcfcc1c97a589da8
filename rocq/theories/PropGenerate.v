(** C39, C59, C60, C62-C64: whole documents and clients. *)
From Coq Require Import Sorted.
From Verif Require Import Base OasModel TemplateModel MethodModel OpModel BuilderModel StreamModel SanitizeModel
  GenerateModel GenerateSpec ValidateProofs GenerateCor ExampleData ExamplePages ExampleGenerate.
From Verif Require CompileCor ExampleCompile.

(** C39: validation accepts exactly the valid documents ... *)
Theorem C39_valid_iff : forall d,
  validate_openapi unicode15 d = Ok tt <-> valid_document unicode15 d.
Proof. exact (validate_iff unicode15 (proj1 y_space) (proj1 (proj2 y_space))). Qed.
Print Assumptions C39_valid_iff.

Example C39_ex : validate_openapi unicode15 (y_doc (lit "ping")) = Ok tt.
Proof. vm_compute. reflexivity. Qed.

(** ... and rejects every other with its first fault ... *)
Theorem C39_first_fault : forall d e, validate_openapi unicode15 d = Err e <->
  exists msg, e = UnexpectedFormat msg /\ reported unicode15 d msg.
Proof. exact (validate_reports unicode15 (proj1 y_space) (proj1 (proj2 y_space))). Qed.
Print Assumptions C39_first_fault.

Example C39_fault_ex :
  validate_openapi unicode15 (y_doc (lit "put_item"))
  = Err (UnexpectedFormat (lit "duplicate operation ID: put_item")).
Proof. vm_compute. reflexivity. Qed.

(** ... never panicking; and a client is only generated for valid documents. *)
Theorem C39_no_panic : forall U d m, validate_openapi U d <> Panic m.
Proof. exact validate_no_panic. Qed.
Print Assumptions C39_no_panic.

(** C60: every document has exactly one list of its operations in document order, ... *)
Theorem C60_order : forall d, exists l, operations_in_order d l
  /\ forall l', operations_in_order d l' -> l' = l.
Proof.
  exact (fun d => ex_intro _ (doc_ops 0 (oa_paths d)) (conj (doc_ops_in_order d) (in_order_unique d))).
Qed.
Print Assumptions C60_order.

(** ... the positional client has one method for each of them in that order, with the body generated
    for it, ... *)
Theorem C60_positional : forall U add_ref_types types s d g l,
  generate_tokens U add_ref_types types s d = Ok g -> operations_in_order d l ->
  se_interface s = Positional ->
  exists ts, Forall2 (fun e i => exists m tys sb, processed U ts d e m
      /\ method_sig_body (se_hooks s) m = Ok sb
      /\ length tys = length (m_params m)
      /\ i = ImMethod (method_name U e) (make_doc_comment m)
               (combine (map p_name (m_params m)) tys) (existsb raw_body_param (m_params m)) sb)
    l (own_methods (ge_code g)).
Proof. exact positional_methods. Qed.
Print Assumptions C60_positional.

Theorem C60_positional_names : forall U add_ref_types types s d g l,
  generate_tokens U add_ref_types types s d = Ok g -> operations_in_order d l ->
  se_interface s = Positional ->
  map im_name (own_methods (ge_code g)) = map (method_name U) l.
Proof. exact positional_names. Qed.
Print Assumptions C60_positional_names.

Example C60_ex :
  generate_tokens unicode15 (fun _ => Ok x_ts) y_types (y_set Positional Merged) (y_doc (lit "ping"))
    = Ok (y_gen Positional Merged (lit "ping"))
  /\ operations_in_order (y_doc (lit "ping")) (y_ops (lit "ping"))
  /\ map im_name (own_methods (ge_code (y_gen Positional Merged (lit "ping"))))
     = [lit "get_item"; lit "put_item"; lit "ping"].
Proof. exact (conj y_positional (conj (doc_ops_in_order _) y_names)). Qed.

(** ... and the builder client one builder each, ... *)
Theorem C60_builders : forall U add_ref_types types s d g l,
  generate_tokens U add_ref_types types s d = Ok g -> operations_in_order d l ->
  se_interface s = Builder ->
  exists ts, Forall2 (fun e sc => exists m, processed U ts d e m /\ sc_name sc = builder_name U e
      /\ builder_struct types (se_hooks s) m = Ok (sc_code sc)) l (oc_builders (ge_code g)).
Proof. exact builder_methods_of. Qed.
Print Assumptions C60_builders.

Example C60_builders_ex :
  generate_tokens unicode15 (fun _ => Ok x_ts) y_types (y_set Builder Separate) (y_doc (lit "ping"))
    = Ok (y_gen Builder Separate (lit "ping"))
  /\ map sc_name (oc_builders (ge_code (y_gen Builder Separate (lit "ping"))))
     = [lit "GetItem"; lit "PutItem"; lit "Ping"].
Proof. exact (conj y_separate y_builders). Qed.

(** ... with merged tags also one method each, returning its builder. *)
Theorem C60_builder_methods : forall U add_ref_types types s d g l,
  generate_tokens U add_ref_types types s d = Ok g -> operations_in_order d l ->
  se_interface s = Builder -> se_tag s = Merged ->
  Forall2 (fun e i => exists doc, i = ImBuilder (method_name U e) doc (builder_name U e))
    l (oc_impl (ge_code g)).
Proof. exact merged_builders. Qed.
Print Assumptions C60_builder_methods.

Example C60_builder_methods_ex :
  generate_tokens unicode15 (fun _ => Ok x_ts) y_types (y_set Builder Merged) (y_doc (lit "ping"))
    = Ok (y_gen Builder Merged (lit "ping")).
Proof. exact y_merged. Qed.

(** C59: with separate tags the client has the untagged operations, there is one trait per tag that is
    used, in alphabetical order, each with the operations so tagged in document order (as often as
    they are), and the prelude exports them all. *)
Theorem C59_tags : forall U add_ref_types types s d g l,
  generate_tokens U add_ref_types types s d = Ok g -> operations_in_order d l ->
  se_interface s = Builder -> se_tag s = Separate ->
  map im_name (oc_impl (ge_code g)) = map (method_name U) (filter untagged l)
  /\ exists tags, StronglySorted str_lt tags
     /\ (forall t, In t tags <-> exists e, In e l /\ In t (op_tags (do_op e)))
     /\ Forall2 (fun t tr => tc_name tr = lit "Client" ++ pascal U t ++ lit "Ext"
                   /\ tc_impl tr = tc_methods tr
                   /\ tag_description d t (tc_doc tr)
                   /\ map im_name (tc_methods tr)
                      = flat_map (fun e => repeat (method_name U e) (times_tagged t e)) l)
          tags (oc_traits (ge_code g))
     /\ oc_prelude (ge_code g)
        = lit "Client" :: map (fun t => lit "Client" ++ pascal U t ++ lit "Ext") tags.
Proof. exact separate_tags. Qed.
Print Assumptions C59_tags.

Example C59_ex :
  map (fun t => (tc_name t, tc_doc t, map im_name (tc_methods t)))
    (oc_traits (ge_code (y_gen Builder Separate (lit "ping"))))
  = [(lit "ClientAExt", Some (lit "about a"), [lit "get_item"; lit "put_item"]);
     (lit "ClientBExt", None, [lit "get_item"])]
  /\ map im_name (oc_impl (ge_code (y_gen Builder Separate (lit "ping")))) = [lit "ping"].
Proof. exact y_traits. Qed.

(** C62: the documentation of methods ... *)
Theorem C62_methods : forall U add_ref_types types s d g l,
  generate_tokens U add_ref_types types s d = Ok g -> operations_in_order d l ->
  se_interface s = Positional ->
  exists ts, Forall2 (fun e i => exists m name doc ps gen sb, processed U ts d e m
      /\ i = ImMethod name doc ps gen sb /\ method_doc e (m_params m) doc)
    l (own_methods (ge_code g)).
Proof. exact positional_docs. Qed.
Print Assumptions C62_methods.

Example C62_ex : match oc_impl (ge_code (y_gen Positional Merged (lit "ping"))) with
  | ImMethod _ doc _ _ _ :: _ => doc
      = lit "Get it" ++ [10%N; 10%N] ++ lit "Sends a `GET` request to `/items/{id}`" ++ [10%N; 10%N]
        ++ lit "Arguments:" ++ [10%N] ++ lit "- `id`" ++ [10%N] ++ lit "- `q`: filter" ++ [10%N]
        ++ lit "- `x_id`" ++ [10%N]
  | _ => False end.
Proof. exact y_doc_text. Qed.

(** ... of methods that return a builder ... *)
Theorem C62_builders : forall U add_ref_types types s d g l,
  generate_tokens U add_ref_types types s d = Ok g -> operations_in_order d l ->
  se_interface s = Builder -> se_tag s = Merged ->
  exists ts, Forall2 (fun e i => exists m md eg, processed U ts d e m
      /\ i = ImBuilder (method_name U e) (md ++ eg) (builder_name U e)
      /\ method_doc e (m_params m) md /\ usage (method_name U e) (m_params m) eg)
    l (oc_impl (ge_code g)).
Proof. exact builder_docs. Qed.
Print Assumptions C62_builders.

Example C62_builders_ex : match oc_impl (ge_code (z_gen Builder)) with
  | [ImBuilder _ doc _] => doc
      = lit "Sends a `GET` request to `/things/{id}`" ++ [10%N; 10%N]
        ++ lit "```ignore" ++ [10%N] ++ lit "let response = client.list_things()" ++ [10%N]
        ++ lit "    .id(id)" ++ [10%N] ++ lit "    .filter(filter)" ++ [10%N] ++ lit "    .limit(limit)" ++ [10%N]
        ++ lit "    .page_token(page_token)" ++ [10%N] ++ lit "    .send()" ++ [10%N] ++ lit "    .await;" ++ [10%N]
        ++ lit "```"
  | _ => False end.
Proof. exact z_builder. Qed.

(** ... and of streams. *)
Theorem C62_streams : forall U add_ref_types types s d g l,
  generate_tokens U add_ref_types types s d = Ok g -> operations_in_order d l ->
  se_interface s = Positional ->
  forall name doc ps gen callee first step,
  In (ImStream name doc ps gen callee first step) (oc_impl (ge_code g)) ->
  exists ts e m, In e l /\ processed U ts d e m /\ m_paginated m <> None
    /\ callee = method_name U e /\ name = method_name U e ++ lit "_stream"
    /\ first = first_params (m_params m) /\ step = step_params (m_params m)
    /\ stream_doc e (m_params m) doc.
Proof. exact stream_docs. Qed.
Print Assumptions C62_streams.

Example C62_streams_ex :
  generate_tokens unicode15 (fun _ => Ok g_ts) y_types (y_set Positional Merged) z_doc = Ok (z_gen Positional)
  /\ match oc_impl (ge_code (z_gen Positional)) with
     | [_; ImStream name doc ps _ callee _ _] =>
         name = lit "list_things_stream" /\ callee = lit "list_things"
         /\ map fst ps = [lit "id"; lit "filter"; lit "limit"]
         /\ doc = lit "Sends repeated `GET` requests to `/things/{id}` until there are no more results." ++ [10%N; 10%N]
     | _ => False end.
Proof. exact (conj (proj1 z_ok) z_stream). Qed.

(** C63: the futures crate is reported as needed exactly when there are streams, ... *)
Theorem C63_futures : forall U add_ref_types types s d g l,
  generate_tokens U add_ref_types types s d = Ok g -> operations_in_order d l ->
  (ge_futures g = true <-> streams (ge_code g)).
Proof. exact futures_iff. Qed.
Print Assumptions C63_futures.

(** ... websocket support exactly when some method upgrades its connection ... *)
Theorem C63_websockets_code : forall U add_ref_types types s d g l,
  generate_tokens U add_ref_types types s d = Ok g -> operations_in_order d l ->
  (ge_websockets g = true <-> Exists upgrades (bodies (ge_code g))).
Proof. exact websockets_code. Qed.
Print Assumptions C63_websockets_code.

(** ... because the document says so. *)
Theorem C63_websockets : forall U add_ref_types types s d g l,
  generate_tokens U add_ref_types types s d = Ok g -> operations_in_order d l ->
  (ge_websockets g = true <->
   exists e, in_document d e /\ assoc (lit "x-dropshot-websocket") (op_extensions (do_op e)) <> None).
Proof. exact websockets_iff. Qed.
Print Assumptions C63_websockets.

Example C63_ex : ge_futures (y_gen Positional Merged (lit "ping")) = false
  /\ ge_websockets (y_gen Positional Merged (lit "ping")) = true
  /\ ge_futures (z_gen Positional) = true /\ ge_futures (z_gen Builder) = true.
Proof. exact (conj (proj1 y_flags) (conj (proj2 y_flags) z_futures)). Qed.

(** C64: the methods of the positional client have different names if those of the operations are
    different, not those every client has, and none is another followed by [_stream]. *)
Theorem C64_distinct_partial : forall U add_ref_types types s d g l,
  generate_tokens U add_ref_types types s d = Ok g -> operations_in_order d l ->
  se_interface s = Positional ->
  NoDup (map (method_name U) l) ->
  (forall e, In e l -> ~ In (method_name U e) (fixed_methods s)) ->
  (forall e f, In e l -> In f l -> method_name U f <> method_name U e ++ lit "_stream") ->
  NoDup (ge_fixed g ++ map im_name (oc_impl (ge_code g))).
Proof. exact distinct_names. Qed.
Print Assumptions C64_distinct_partial.

Example C64_ex :
  map (method_name unicode15) (y_ops (lit "ping")) = [lit "get_item"; lit "put_item"; lit "ping"].
Proof. exact y_distinct. Qed.

(** The conditions are exact once only paginated operations count for the last: in the positional style the
    names are different if and only if no operation has the name of another, of a method of every client or of the
    stream of a paginated operation ... *)
Theorem C64_distinct_iff : forall U add_ref_types types s d g ts l ms,
  generate_tokens U add_ref_types types s d = Ok g -> operations_in_order d l ->
  add_ref_types (match oa_components d with Some c => co_schemas c | None => [] end) = Ok ts ->
  Forall2 (processed U ts d) l ms -> se_interface s = Positional ->
  NoDup (ge_fixed g ++ map im_name (oc_impl (ge_code g))) <->
  NoDup (map (method_name U) l)
  /\ (forall e, In e l -> ~ In (method_name U e) (fixed_methods s))
  /\ (forall e m f, In e l -> processed U ts d e m -> m_paginated m <> None -> In f l ->
        method_name U f <> method_name U e ++ lit "_stream").
Proof. exact CompileCor.cor_names. Qed.
Print Assumptions C64_distinct_iff.

Example C64_iff_ex :
  (generate_tokens unicode15 (fun _ => Ok x_ts) y_types (y_set Positional Merged) (y_doc (lit "ping"))
     = Ok (y_gen Positional Merged (lit "ping"))
   /\ Forall2 (processed unicode15 x_ts (y_doc (lit "ping"))) (y_ops (lit "ping")) (ExampleCompile.w_ms (lit "ping"))
   /\ map im_name (oc_impl (ge_code (y_gen Positional Merged (lit "ping")))) = [lit "get_item"; lit "put_item"; lit "ping"])
  /\ generate_tokens unicode15 (fun _ => Ok g_ts) y_types (y_set Positional Merged) ExampleCompile.w_stream_doc
     = Ok ExampleCompile.w_stream_gen
  /\ Forall2 (processed unicode15 g_ts ExampleCompile.w_stream_doc) ExampleCompile.w_stream_ops
       (map ExampleCompile.w_stream_m ExampleCompile.w_stream_ops)
  /\ map im_name (oc_impl (ge_code ExampleCompile.w_stream_gen))
     = [lit "list_things"; lit "list_things_stream"; lit "list_things_stream"].
Proof.
  split; [split; [exact y_positional|split; [exact ExampleCompile.w_processed|vm_compute; reflexivity]]|].
  exact (conj ExampleCompile.w_stream_ok (conj ExampleCompile.w_stream_processed (proj1 ExampleCompile.w_stream_names))).
Qed.

(** ... and in the builder style if and only if no operation with a method on the client has the name of another
    or of a method of every client; with separate tags only those without tags have. *)
Theorem C64_builder_iff : forall U add_ref_types types s d g l,
  generate_tokens U add_ref_types types s d = Ok g -> operations_in_order d l -> se_interface s = Builder ->
  NoDup (ge_fixed g ++ map im_name (oc_impl (ge_code g))) <->
  (let own := match se_tag s with Merged => l | Separate => filter untagged l end in
   NoDup (map (method_name U) own) /\ (forall e, In e own -> ~ In (method_name U e) (fixed_methods s))).
Proof. exact CompileCor.cor_builder_names. Qed.
Print Assumptions C64_builder_iff.

Example C64_builder_ex :
  generate_tokens unicode15 (fun _ => Ok x_ts) y_types (y_set Builder Separate) (y_doc (lit "ping"))
    = Ok (y_gen Builder Separate (lit "ping"))
  /\ map im_name (oc_impl (ge_code (y_gen Builder Separate (lit "ping")))) = [lit "ping"].
Proof. split; [exact y_separate|vm_compute; reflexivity]. Qed.

(** Without these conditions it fails: an operation [client]. *)
Theorem C64_distinct_refuted : exists s d g,
  generate_tokens unicode15 (fun _ => Ok x_ts) y_types s d = Ok g
  /\ In (lit "client") (ge_fixed g) /\ In (lit "client") (map im_name (oc_impl (ge_code g))).
Proof.
  exact (ex_intro _ (y_set Positional Merged) (ex_intro _ (y_doc (lit "client"))
    (ex_intro _ (y_gen Positional Merged (lit "client")) (conj y_client y_clash)))).
Qed.
Print Assumptions C64_distinct_refuted.

(** A concrete document and the clients generated for it. *)
From Verif Require Import Base OasModel TemplateModel MethodModel OpModel RunModel BuilderModel StreamModel
  SanitizeModel UnicodeProofs GenerateModel GenerateSpec ValidateProofs ExampleData ExamplePages.
Local Open Scope N_scope.

Definition y_op (id : str) (tags : list str) (summary : option str) (ext : list (str * json)) : operation :=
  Operation (Some id) tags summary None
    [Item (ParQuery (ParamData (lit "q") (Some (lit "filter")) false (Some (Item x_string)) None) QsForm);
     Item (ParHeader (x_param (lit "X-Id") false))]
    None
    (match ext with [] => None | _ => Some (Item (ResponseDoc [])) end)
    (match ext with [] => [(ScCode 200, Item (x_json (Ref (lit "#/components/schemas/Error"))))] | _ => [] end) ext.

Definition y_no_ops (ps : list (ref_or parameter)) (g p : option operation) : path_item :=
  PathItem g p None None None None None None ps.

(** Two paths with three operations: [get-item] (tags a, b), [put_item], [ping]. *)
Definition y_doc (id : str) : openapi :=
  OpenApi (lit " 3.0.1 ") (lit "T") None None (lit "1.0")
    [(lit "/items//{id}",
      Item (y_no_ops [Item (ParPath (x_param (lit "id") true) PsSimple)]
              (Some (y_op (lit "get-item") [lit "b"; lit "a"] (Some (lit "Get it.")) []))
              (Some (y_op (lit "put_item") [lit "a"] None []))));
     (lit "/ping",
      Item (y_no_ops [] (Some (y_op id [] None [(lit "x-dropshot-websocket", JNull)])) None))]
    x_comps [TagDoc (lit "a") (Some (lit "about a"))].

Definition y_types (t : N) : option type_info := Some (TypeInfo (lit "T") false).
Definition y_set (i : interface_style) (t : tag_style) : settings := Settings i t false x_no_hooks.
Definition y_empty : generated_code := GeneratedCode [] [] [] (OperationCode [] [] [] []) false false.
Definition y_gen (i : interface_style) (t : tag_style) (id : str) : generated_code :=
  match generate_tokens unicode15 (fun _ => Ok x_ts) y_types (y_set i t) (y_doc id) with
  | Ok g => g | _ => y_empty end.

Lemma is_ok {A} (x : outcome A) (dflt : A) :
  match x with Ok _ => true | _ => false end = true ->
  x = Ok (match x with Ok a => a | _ => dflt end).
Proof. now destruct x. Qed.

Lemma y_positional : generate_tokens unicode15 (fun _ => Ok x_ts) y_types (y_set Positional Merged) (y_doc (lit "ping"))
  = Ok (y_gen Positional Merged (lit "ping")).
Proof. apply is_ok. vm_compute. reflexivity. Qed.
Lemma y_merged : generate_tokens unicode15 (fun _ => Ok x_ts) y_types (y_set Builder Merged) (y_doc (lit "ping"))
  = Ok (y_gen Builder Merged (lit "ping")).
Proof. apply is_ok. vm_compute. reflexivity. Qed.
Lemma y_separate : generate_tokens unicode15 (fun _ => Ok x_ts) y_types (y_set Builder Separate) (y_doc (lit "ping"))
  = Ok (y_gen Builder Separate (lit "ping")).
Proof. apply is_ok. vm_compute. reflexivity. Qed.
Lemma y_client : generate_tokens unicode15 (fun _ => Ok x_ts) y_types (y_set Positional Merged) (y_doc (lit "client"))
  = Ok (y_gen Positional Merged (lit "client")).
Proof. apply is_ok. vm_compute. reflexivity. Qed.

Definition y_ops (id : str) : list doc_op := doc_ops 0 (oa_paths (y_doc id)).

Lemma y_names : map im_name (own_methods (ge_code (y_gen Positional Merged (lit "ping"))))
  = [lit "get_item"; lit "put_item"; lit "ping"].
Proof. vm_compute. reflexivity. Qed.
Lemma y_builders : map sc_name (oc_builders (ge_code (y_gen Builder Separate (lit "ping"))))
  = [lit "GetItem"; lit "PutItem"; lit "Ping"].
Proof. vm_compute. reflexivity. Qed.
Lemma y_traits : map (fun t => (tc_name t, tc_doc t, map im_name (tc_methods t)))
    (oc_traits (ge_code (y_gen Builder Separate (lit "ping"))))
  = [(lit "ClientAExt", Some (lit "about a"), [lit "get_item"; lit "put_item"]);
     (lit "ClientBExt", None, [lit "get_item"])]
  /\ map im_name (oc_impl (ge_code (y_gen Builder Separate (lit "ping")))) = [lit "ping"].
Proof. vm_compute. auto. Qed.
Lemma y_doc_text : match oc_impl (ge_code (y_gen Positional Merged (lit "ping"))) with
  | ImMethod _ doc _ _ _ :: _ => doc
      = lit "Get it" ++ [10; 10] ++ lit "Sends a `GET` request to `/items/{id}`" ++ [10; 10]
        ++ lit "Arguments:" ++ [10] ++ lit "- `id`" ++ [10] ++ lit "- `q`: filter" ++ [10]
        ++ lit "- `x_id`" ++ [10]
  | _ => False end.
Proof. vm_compute. reflexivity. Qed.
Lemma y_flags : ge_futures (y_gen Positional Merged (lit "ping")) = false
  /\ ge_websockets (y_gen Positional Merged (lit "ping")) = true.
Proof. vm_compute. auto. Qed.
Lemma y_clash : In (lit "client") (ge_fixed (y_gen Positional Merged (lit "client")))
  /\ In (lit "client") (map im_name (oc_impl (ge_code (y_gen Positional Merged (lit "client"))))).
Proof. vm_compute. auto 10. Qed.
Lemma y_distinct :
  map (method_name unicode15) (y_ops (lit "ping")) = [lit "get_item"; lit "put_item"; lit "ping"].
Proof. vm_compute. reflexivity. Qed.
Lemma y_space : whitespace unicode15 (ch "3") = false /\ whitespace unicode15 (ch ".") = false
  /\ whitespace unicode15 (ch " ") = true.
Proof. vm_compute. auto. Qed.

(** A document with the paginated operation. *)
Definition z_doc : openapi :=
  OpenApi (lit "3.0.0") (lit "T") None None (lit "1.0")
    [(lit "/things/{id}", Item (y_no_ops [] (Some g_op) None))] x_comps [].
Definition z_gen (i : interface_style) : generated_code :=
  match generate_tokens unicode15 (fun _ => Ok g_ts) y_types (y_set i Merged) z_doc with
  | Ok g => g | _ => y_empty end.
Lemma z_ok : generate_tokens unicode15 (fun _ => Ok g_ts) y_types (y_set Positional Merged) z_doc
    = Ok (z_gen Positional)
  /\ generate_tokens unicode15 (fun _ => Ok g_ts) y_types (y_set Builder Merged) z_doc = Ok (z_gen Builder).
Proof. split; apply is_ok; vm_compute; reflexivity. Qed.
Lemma z_stream : match oc_impl (ge_code (z_gen Positional)) with
  | [_; ImStream name doc ps _ callee _ _] =>
      name = lit "list_things_stream" /\ callee = lit "list_things"
      /\ map fst ps = [lit "id"; lit "filter"; lit "limit"]
      /\ doc = lit "Sends repeated `GET` requests to `/things/{id}` until there are no more results." ++ [10; 10]
  | _ => False end.
Proof. vm_compute. auto. Qed.
Lemma z_builder : match oc_impl (ge_code (z_gen Builder)) with
  | [ImBuilder _ doc _] => doc
      = lit "Sends a `GET` request to `/things/{id}`" ++ [10; 10]
        ++ lit "```ignore" ++ [10] ++ lit "let response = client.list_things()" ++ [10]
        ++ lit "    .id(id)" ++ [10] ++ lit "    .filter(filter)" ++ [10] ++ lit "    .limit(limit)" ++ [10]
        ++ lit "    .page_token(page_token)" ++ [10] ++ lit "    .send()" ++ [10] ++ lit "    .await;" ++ [10]
        ++ lit "```"
  | _ => False end.
Proof. vm_compute. reflexivity. Qed.
Lemma z_futures : ge_futures (z_gen Positional) = true /\ ge_futures (z_gen Builder) = true.
Proof. vm_compute. auto. Qed.

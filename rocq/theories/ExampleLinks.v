(** The documentation of a client: concrete cases. *)
From Verif Require Import Base OasModel MethodModel OpModel BuilderModel SanitizeModel UnicodeProofs GenerateModel GenerateSpec ValidateProofs
  LinkSpec ExampleData ExamplePages ExampleGenerate.

Definition k_doc : openapi :=
  let y := y_doc (lit "ping") in
  OpenApi (oa_openapi y) (lit "Things") (Some (lit "All about them.")) None (lit "1.2") (oa_paths y) (oa_components y) (oa_tags y).
Definition k_gen : generated_code :=
  match generate_tokens unicode15 (fun _ => Ok x_ts) y_types (y_set Builder Separate) k_doc with Ok g => g | _ => y_empty end.
Lemma k_ok : generate_tokens unicode15 (fun _ => Ok x_ts) y_types (y_set Builder Separate) k_doc = Ok k_gen.
Proof. apply is_ok. vm_compute. reflexivity. Qed.
Lemma k_text : ge_doc k_gen
  = lit "Client for Things" ++ [10; 10]%N ++ lit "All about them." ++ [10; 10]%N ++ lit "Version: 1.2".
Proof. vm_compute. reflexivity. Qed.

(** A builder offered by two traits, by one, and by the client. *)
Lemma k_links : map sc_doc (oc_builders (ge_code k_gen))
  = [lit "Builder for `get_item` operation" ++ [10; 10]%N
       ++ lit "See [`ClientBExt::get_item`], [`ClientAExt::get_item`]" ++ [10; 10]%N
       ++ lit "[`ClientBExt::get_item`]: super::ClientBExt::get_item" ++ [10%N]
       ++ lit "[`ClientAExt::get_item`]: super::ClientAExt::get_item";
     lit "Builder for [`ClientAExt::put_item`]" ++ [10; 10]%N
       ++ lit "[`ClientAExt::put_item`]: super::ClientAExt::put_item";
     lit "Builder for [`Client::ping`]" ++ [10; 10]%N ++ lit "[`Client::ping`]: super::Client::ping"].
Proof. vm_compute. reflexivity. Qed.

Lemma k_nodup : NoDup (map (method_name unicode15) (doc_ops 0 (oa_paths k_doc))).
Proof.
  assert (map (method_name unicode15) (doc_ops 0 (oa_paths k_doc)) = [lit "get_item"; lit "put_item"; lit "ping"]) as ->
    by (vm_compute; reflexivity).
  repeat constructor; cbn; intuition discriminate.
Qed.

Lemma k_items : match oc_traits (ge_code k_gen) with
  | [a; b] => tc_methods b = [ImBuilder (lit "get_item")
      (lit "Get it" ++ [10; 10]%N ++ lit "Sends a `GET` request to `/items/{id}`" ++ [10; 10]%N
       ++ lit "Arguments:" ++ [10%N] ++ lit "- `id`" ++ [10%N] ++ lit "- `q`: filter" ++ [10%N] ++ lit "- `x_id`" ++ [10%N]
       ++ lit "```ignore" ++ [10%N] ++ lit "let response = client.get_item()" ++ [10%N] ++ lit "    .id(id)" ++ [10%N]
       ++ lit "    .q(q)" ++ [10%N] ++ lit "    .x_id(x_id)" ++ [10%N] ++ lit "    .send()" ++ [10%N] ++ lit "    .await;" ++ [10%N]
       ++ lit "```") (lit "GetItem")]
  | _ => False end.
Proof. vm_compute. reflexivity. Qed.

Lemma k_send : map (fun sc => (sc_send_doc sc, sc_stream_doc sc)) (oc_builders (ge_code (z_gen Builder)))
  = [(lit "Sends a `GET` request to `/things/{id}`", Some (lit "Streams `GET` requests to `/things/{id}`"))].
Proof. vm_compute. reflexivity. Qed.

Lemma k_version : ge_version k_gen = lit "1.2" /\ ~ In (lit "inner") (ge_fixed k_gen).
Proof. split; [vm_compute; reflexivity|]. vm_compute. intuition discriminate. Qed.

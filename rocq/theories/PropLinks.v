(** C89: what the documentation of a client says.  C62 for clients with separate tags. *)
From Verif Require Import Base OasModel MethodModel OpModel BuilderModel SanitizeModel UnicodeProofs GenerateModel GenerateSpec ValidateProofs
  LinkSpec LinkProofs ExampleData ExamplePages ExampleGenerate ExampleLinks.

(** C89: the client is documented by title, description, terms of service and version, one paragraph each. *)
Theorem C89_client : forall U add_ref_types types s d g l,
  generate_tokens U add_ref_types types s d = Ok g -> operations_in_order d l -> client_doc d (ge_doc g).
Proof. exact client_documented. Qed.
Print Assumptions C89_client.

Example C89_client_ex :
  generate_tokens unicode15 (fun _ => Ok x_ts) y_types (y_set Builder Separate) k_doc = Ok k_gen
  /\ operations_in_order k_doc (doc_ops 0 (oa_paths k_doc))
  /\ ge_doc k_gen = lit "Client for Things" ++ [10; 10]%N ++ lit "All about them." ++ [10; 10]%N ++ lit "Version: 1.2".
Proof. exact (conj k_ok (conj (doc_ops_in_order _) k_text)). Qed.

(** C89: the version it reports is that of the document, and there is an inner value to ask for if and only if there is one. *)
Theorem C89_version : forall U add_ref_types types s d g l,
  generate_tokens U add_ref_types types s d = Ok g -> operations_in_order d l ->
  ge_version g = oa_version d /\ (In (lit "inner") (ge_fixed g) <-> se_inner s = true).
Proof. exact client_version. Qed.
Print Assumptions C89_version.

Example C89_version_ex : ge_version k_gen = lit "1.2" /\ ~ In (lit "inner") (ge_fixed k_gen).
Proof. exact k_version. Qed.

(** C89: the documentation of a builder links to places where there is a method that returns it, and, if no two operations
    have methods of the same name, to all of them. *)
Theorem C89_links : forall U add_ref_types types s d g l,
  generate_tokens U add_ref_types types s d = Ok g -> operations_in_order d l -> se_interface s = Builder ->
  Forall2 (fun e sc => exists places,
      builder_text (method_name U e) places (sc_doc sc)
      /\ (forall p, In p places -> offered (ge_code g) (method_name U e) (builder_name U e) p)
      /\ (NoDup (map (method_name U) l) ->
          forall p, offered (ge_code g) (method_name U e) (builder_name U e) p -> In p places))
    l (oc_builders (ge_code g)).
Proof. exact builder_links. Qed.
Print Assumptions C89_links.

Example C89_links_ex : NoDup (map (method_name unicode15) (doc_ops 0 (oa_paths k_doc)))
  /\ map sc_doc (oc_builders (ge_code k_gen))
     = [lit "Builder for `get_item` operation" ++ [10; 10]%N
          ++ lit "See [`ClientBExt::get_item`], [`ClientAExt::get_item`]" ++ [10; 10]%N
          ++ lit "[`ClientBExt::get_item`]: super::ClientBExt::get_item" ++ [10%N]
          ++ lit "[`ClientAExt::get_item`]: super::ClientAExt::get_item";
        lit "Builder for [`ClientAExt::put_item`]" ++ [10; 10]%N
          ++ lit "[`ClientAExt::put_item`]: super::ClientAExt::put_item";
        lit "Builder for [`Client::ping`]" ++ [10; 10]%N ++ lit "[`Client::ping`]: super::Client::ping"].
Proof. exact (conj k_nodup k_links). Qed.

(** C89: the functions of a builder are documented by the request they send. *)
Theorem C89_functions : forall U add_ref_types types s d g l,
  generate_tokens U add_ref_types types s d = Ok g -> operations_in_order d l -> se_interface s = Builder ->
  exists ts, Forall2 (fun e sc => exists m, processed U ts d e m /\ sc_send_doc sc = send_text e
      /\ sc_stream_doc sc = (if m_paginated m then Some (stream_text e) else None))
    l (oc_builders (ge_code g)).
Proof. exact builder_texts. Qed.
Print Assumptions C89_functions.

Example C89_functions_ex :
  generate_tokens unicode15 (fun _ => Ok g_ts) y_types (y_set Builder Merged) z_doc = Ok (z_gen Builder)
  /\ map (fun sc => (sc_send_doc sc, sc_stream_doc sc)) (oc_builders (ge_code (z_gen Builder)))
     = [(lit "Sends a `GET` request to `/things/{id}`", Some (lit "Streams `GET` requests to `/things/{id}`"))].
Proof. exact (conj (proj2 z_ok) k_send). Qed.

(** C62: wherever a method that returns a builder is, on the client or in a trait, it is an operation's, documented as such
    and with an example of its use. *)
Theorem C62_tagged_builders : forall U add_ref_types types s d g l,
  generate_tokens U add_ref_types types s d = Ok g -> operations_in_order d l -> se_interface s = Builder ->
  exists ts, forall i,
  (In i (oc_impl (ge_code g)) \/ exists tr, In tr (oc_traits (ge_code g)) /\ (In i (tc_methods tr) \/ In i (tc_impl tr))) ->
  exists e m md eg, In e l /\ processed U ts d e m
    /\ i = ImBuilder (method_name U e) (md ++ eg) (builder_name U e)
    /\ method_doc e (m_params m) md /\ usage (method_name U e) (m_params m) eg.
Proof. exact builder_items. Qed.
Print Assumptions C62_tagged_builders.

Example C62_tagged_ex : match oc_traits (ge_code k_gen) with
  | [a; b] => tc_methods b = [ImBuilder (lit "get_item")
      (lit "Get it" ++ [10; 10]%N ++ lit "Sends a `GET` request to `/items/{id}`" ++ [10; 10]%N
       ++ lit "Arguments:" ++ [10%N] ++ lit "- `id`" ++ [10%N] ++ lit "- `q`: filter" ++ [10%N] ++ lit "- `x_id`" ++ [10%N]
       ++ lit "```ignore" ++ [10%N] ++ lit "let response = client.get_item()" ++ [10%N] ++ lit "    .id(id)" ++ [10%N]
       ++ lit "    .q(q)" ++ [10%N] ++ lit "    .x_id(x_id)" ++ [10%N] ++ lit "    .send()" ++ [10%N] ++ lit "    .await;" ++ [10%N]
       ++ lit "```") (lit "GetItem")]
  | _ => False end.
Proof. exact k_items. Qed.

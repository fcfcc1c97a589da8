(** What the documentation of a client says: paragraphs, and links from builders to where their methods are. *)
From Verif Require Import Base OasModel MethodModel GenerateModel GenerateSpec.

(** Texts with something between them. *)
Inductive separated (sep : str) : list str -> str -> Prop :=
| sep_one x : separated sep [x] x
| sep_more x l out : separated sep l out -> separated sep (x :: l) (x ++ sep ++ out).

Definition paragraphs : list str -> str -> Prop := separated [10; 10]%N.
Definition given (o : option str) : list str := match o with Some x => [x] | None => [] end.

(** The documentation of the client: title, description, terms of service, version. *)
Definition client_doc (d : openapi) (out : str) : Prop :=
  paragraphs ([lit "Client for " ++ oa_title d] ++ given (oa_description d) ++ given (oa_terms_of_service d)
              ++ [lit "Version: " ++ oa_version d]) out.

(** The client itself or a trait has the method [name] that returns the builder [struct]. *)
Inductive offered (c : operation_code) (name struct : str) : str -> Prop :=
| of_client doc : In (ImBuilder name doc struct) (oc_impl c) -> offered c name struct (lit "Client")
| of_trait tr doc doc' : In tr (oc_traits c) -> In (ImBuilder name doc struct) (tc_methods tr) ->
    In (ImBuilder name doc' struct) (tc_impl tr) -> offered c name struct (tc_name tr).

(** A link to a method, and where it leads. *)
Definition link (name place : str) : str := lit "[`" ++ place ++ lit "::" ++ name ++ lit "`]".
Definition leads (name place : str) : str := link name place ++ lit ": super::" ++ place ++ lit "::" ++ name.

(** The text above a builder whose method is in the given places. *)
Inductive builder_text (name : str) : list str -> str -> Prop :=
| bt_one place : builder_text name [place] (lit "Builder for " ++ link name place ++ [10; 10]%N ++ leads name place)
| bt_several p q places links targets :
    separated (lit ", ") (map (link name) (p :: q :: places)) links ->
    separated [10%N] (map (leads name) (p :: q :: places)) targets ->
    builder_text name (p :: q :: places)
      (lit "Builder for `" ++ name ++ lit "` operation" ++ [10; 10]%N ++ lit "See " ++ links ++ [10; 10]%N ++ targets).

(** The text above the functions [send] and [stream] of a builder. *)
Definition send_text (e : doc_op) : str :=
  lit "Sends a `" ++ upper_verb (do_method e) ++ lit "` request to `" ++ TemplateSpec.squeeze (do_path e) ++ lit "`".
Definition stream_text (e : doc_op) : str :=
  lit "Streams `" ++ upper_verb (do_method e) ++ lit "` requests to `" ++ TemplateSpec.squeeze (do_path e) ++ lit "`".

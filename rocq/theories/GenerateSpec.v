(** What a document contains, when it is valid, and what should be generated for it. *)
From Coq Require Import Sorted.
From Verif Require Import Base OasModel MethodModel OpModel TemplateSpec BuilderModel SanitizeModel GenerateModel.

(** ** The operations of a document *)

(** An operation with the number and text of its path, its method, and the parameters of the path. *)
Record doc_op := DocOp {
  do_index : nat;
  do_path : str;
  do_method : http_method;
  do_op : operation;
  do_params : list (ref_or parameter) }.

Definition operation_at (i : path_item) (m : http_method) : option operation :=
  match m with
  | Get => pi_get i | Put => pi_put i | Post => pi_post i | Delete => pi_delete i
  | Options => pi_options i | Head => pi_head i | Patch => pi_patch i | Trace => pi_trace i
  end.

Definition in_document (d : openapi) (e : doc_op) : Prop :=
  exists i, nth_error (oa_paths d) (do_index e) = Some (do_path e, Item i)
            /\ operation_at i (do_method e) = Some (do_op e)
            /\ do_params e = pi_parameters i.

(** Document order: paths as they are listed; within a path the order of openapiv3. *)
Definition verb_rank (m : http_method) : nat :=
  match m with
  | Get => 0 | Put => 1 | Post => 2 | Delete => 3 | Options => 4 | Head => 5 | Patch => 6 | Trace => 7
  end.
Definition before (e f : doc_op) : Prop :=
  do_index e < do_index f
  \/ do_index e = do_index f /\ verb_rank (do_method e) < verb_rank (do_method f).

Definition operations_in_order (d : openapi) (l : list doc_op) : Prop :=
  (forall e, In e l <-> in_document d e) /\ StronglySorted before l.

(** ** Valid documents *)

Definition supported_version (U : unicode) (v : str) : Prop :=
  exists ws rest, v = ws ++ lit "3.0." ++ rest /\ Forall (fun c => whitespace U c = true) ws.

Record valid_document (U : unicode) (d : openapi) : Prop := {
  vd_version : supported_version U (oa_openapi d);
  vd_no_refs : forall path r, ~ In (path, Ref r) (oa_paths d);
  vd_ids : forall e, in_document d e -> op_id (do_op e) <> None;
  vd_unique : forall e f, in_document d e -> in_document d f ->
    op_id (do_op e) = op_id (do_op f) -> e = f }.

(** A fault of the document at a path and method, with the text that describes it. *)
Inductive fault (d : openapi) : nat -> nat -> str -> Prop :=
| fault_ref k path r : nth_error (oa_paths d) k = Some (path, Ref r) ->
    fault d k 0 (lit "path " ++ path ++ lit " uses reference, unsupported")
| fault_missing e : in_document d e -> op_id (do_op e) = None ->
    fault d (do_index e) (verb_rank (do_method e))
      (lit "path " ++ do_path e ++ lit " is missing operation ID")
| fault_duplicate e f x : in_document d e -> in_document d f -> before f e ->
    op_id (do_op e) = Some x -> op_id (do_op f) = Some x ->
    fault d (do_index e) (verb_rank (do_method e)) (lit "duplicate operation ID: " ++ x).

(** The fault to report: the version, or the first in document order. *)
Inductive reported (U : unicode) (d : openapi) : str -> Prop :=
| reported_version : ~ supported_version U (oa_openapi d) ->
    reported U d (lit "invalid version: " ++ oa_openapi d)
| reported_fault k r msg : supported_version U (oa_openapi d) -> fault d k r msg ->
    (forall k' r' msg', fault d k' r' msg' -> k < k' \/ k = k' /\ r <= r') ->
    reported U d msg.

(** ** Methods *)

Definition is_stream (i : impl_item) : bool := match i with ImStream _ _ _ _ _ _ _ => true | _ => false end.
Definition own_methods (c : operation_code) : list impl_item :=
  filter (fun i => negb (is_stream i)) (oc_impl c).

Section Names.
Variable U : unicode.
Definition snake (x : str) : str := sanitize U x Snake.
Definition pascal (x : str) : str := sanitize U x Pascal.

(** The name of an operation's method, and of its builder. *)
Definition method_name (e : doc_op) : str :=
  match op_id (do_op e) with Some x => snake x | None => [] end.
Definition builder_name (e : doc_op) : str := pascal (method_name e).

(** The method of a document's operation. *)
Definition processed (ts : type_space) (d : openapi) (e : doc_op) (m : op_method) : Prop :=
  process_operation snake pascal ts (do_op e) (oa_components d) (do_path e)
    (http_method_str (do_method e)) (do_params e) = Ok m.
End Names.

(** How often an operation is tagged [t]. *)
Definition times_tagged (t : str) (e : doc_op) : nat := count_occ str_eq_dec (op_tags (do_op e)) t.
Definition untagged (e : doc_op) : bool := match op_tags (do_op e) with [] => true | _ => false end.

(** [a] comes before [b] in the alphabet. *)
Definition str_lt (a b : str) : Prop := str_cmp a b = Lt.

(** The description of a tag: that of the last entry with its name. *)
Inductive tag_description (d : openapi) (t : str) : option str -> Prop :=
| td_entry pre desc post : oa_tags d = pre ++ TagDoc t desc :: post ->
    (forall x, In x post -> tg_name x <> t) -> tag_description d t desc
| td_none : (forall x, In x (oa_tags d) -> tg_name x <> t) -> tag_description d t None.

(** ** Documentation *)

Definition upper_verb (m : http_method) : str :=
  match m with
  | Get => lit "GET" | Put => lit "PUT" | Post => lit "POST" | Delete => lit "DELETE"
  | Options => lit "OPTIONS" | Head => lit "HEAD" | Patch => lit "PATCH" | Trace => lit "TRACE"
  end.

(** A text and an empty line, if there is a text. *)
Definition paragraph (s : option str) (out : str) : Prop :=
  match s with
  | None | Some [] => out = []
  | Some t => out = t ++ [10; 10]%N
  end.

(** The summary, without dots and commas at its end, and what follows it. *)
Definition headline (s : option str) (suffix out : str) : Prop :=
  match s with
  | None | Some [] => out = []
  | Some t => exists t' dots, t = t' ++ dots /\ out = t' ++ suffix ++ [10; 10]%N
      /\ Forall (fun c => c = ch "." \/ c = ch ",") dots
      /\ (t' = [] \/ exists u c, t' = u ++ [c] /\ c <> ch "." /\ c <> ch ",")
  end.

(** The parameters with their descriptions; nothing if none has one. *)
Definition parameter_line (p : op_param) (out : str) : Prop :=
  (p_description p = None /\ out = lit "- `" ++ p_name p ++ lit "`" ++ [10%N])
  \/ exists t, p_description p = Some t /\ out = lit "- `" ++ p_name p ++ lit "`: " ++ t ++ [10%N].
Definition parameter_list (ps : list op_param) (out : str) : Prop :=
  (Forall (fun p => p_description p = None) ps /\ out = [])
  \/ (Exists (fun p => p_description p <> None) ps
      /\ exists lines, Forall2 parameter_line ps lines /\ out = lit "Arguments:" ++ [10%N] ++ concat lines).

(** The text above a method, a stream and a builder method. *)
Inductive method_doc (e : doc_op) (ps : list op_param) : str -> Prop :=
| method_doc_intro h t a path : headline (op_summary (do_op e)) [] h -> paragraph (op_description (do_op e)) t ->
    path = squeeze (do_path e) -> parameter_list ps a ->
    method_doc e ps (h ++ t ++ lit "Sends a `" ++ upper_verb (do_method e) ++ lit "` request to `" ++ path
                     ++ lit "`" ++ [10; 10]%N ++ a).
Inductive stream_doc (e : doc_op) (ps : list op_param) : str -> Prop :=
| stream_doc_intro h t a path : headline (op_summary (do_op e)) (lit " as a Stream") h ->
    paragraph (op_description (do_op e)) t -> path = squeeze (do_path e) ->
    parameter_list (filter (fun p => if str_eq_dec (p_api_name p) (lit "page_token") then false else true) ps) a ->
    stream_doc e ps (h ++ t ++ lit "Sends repeated `" ++ upper_verb (do_method e) ++ lit "` requests to `" ++ path
                     ++ lit "` until there are no more results." ++ [10; 10]%N ++ a).

(** ** Websockets *)

(** The body asks for an upgrade of the connection. *)
Definition upgrades (sb : sig_body) : Prop :=
  exists x m u calls, In (SLetRequest x m u calls) (sb_body sb) /\ In CWebsocket calls.

(** The bodies of a client's methods. *)
Definition bodies (c : operation_code) : list sig_body :=
  flat_map (fun i => match i with ImMethod _ _ _ _ sb => [sb] | _ => [] end) (oc_impl c)
  ++ map (fun s => bc_send (sc_code s)) (oc_builders c).

(** The streams of a client. *)
Definition streams (c : operation_code) : Prop :=
  Exists (fun i => is_stream i = true) (oc_impl c)
  \/ Exists (fun s => bc_stream (sc_code s) <> None) (oc_builders c).

(** The example under a builder method: one call per parameter, one per line. *)
Inductive call_lines : list op_param -> str -> Prop :=
| cl_nil : call_lines [] []
| cl_cons p ps out : call_lines ps out ->
    call_lines (p :: ps) ([10%N] ++ lit "    ." ++ p_name p ++ lit "(" ++ p_name p ++ lit ")" ++ out).
Inductive usage (name : str) (ps : list op_param) : str -> Prop :=
| usage_intro calls : call_lines ps calls ->
    usage name ps (lit "```ignore" ++ [10%N] ++ lit "let response = client." ++ name ++ lit "()" ++ calls
                   ++ [10%N] ++ lit "    .send()" ++ [10%N] ++ lit "    .await;" ++ [10%N] ++ lit "```").

(** What a request tells of the operation that was called (C100). *)
From Verif Require Import Base Utf8 OasModel TemplateSpec EncodeModel EncodeSpec MockApartSpec MethodModel DocSpec GenerateModel GenerateSpec.

(** The path that the template gives for arguments with the texts [val]. *)
Definition path_for (ps : list piece) (val : str -> str) : str := expand (fun n => encode_path (val n)) (squeeze_pieces false ps).

(** Some arguments of the one template and some of the other make the same path. *)
Definition share_path (ps ps' : list piece) : Prop := exists val val',
  (forall n, In n (vars ps) -> valid_str (val n)) /\ (forall n, In n (vars ps') -> valid_str (val' n)) /\ path_for ps val = path_for ps' val'.

(** The constant text before the first placeholder of a segment and the one after the last. *)
Fixpoint lead (s : list piece) : str :=
  match s with PLit c :: r => c :: lead r | _ => [] end.
Definition trail (s : list piece) : str :=
  fold_left (fun t p => match p with PLit c => t ++ [c] | PVar _ => [] end) s [].

(** Segments that have a text in common: equal constants; a constant of the form of the other segment; two segments with
    placeholders, one of which begins like the other, and one of which ends like the other. *)
Inductive overlap : list piece -> list piece -> Prop :=
| ov_const s : vars s = [] -> overlap s s
| ov_left s s' val : vars s = [] -> vars s' <> [] -> expand val s' = expand val s -> overlap s s'
| ov_right s s' val : vars s <> [] -> vars s' = [] -> expand val s' = expand val s -> overlap s s'
| ov_both s s' x y : vars s <> [] -> vars s' <> [] ->
    lead s = lead s' ++ x \/ lead s' = lead s ++ x -> trail s = y ++ trail s' \/ trail s' = y ++ trail s -> overlap s s'.

(** The episode is a call of the document's operation. *)
Record call_of (d : openapi) (o : doc_op) {V W} (e : episode V W) : Prop := CallOf {
  cl_document : in_document d o;
  cl_path : do_path o = show (e_path e);
  cl_verb : e_verb e = http_method_str (do_method o);
  cl_op : e_op e = do_op o }.

(** No operations of the document with the same method and different paths have a path in common. *)
Definition unambiguous (d : openapi) : Prop := forall a b ps ps', in_document d a -> in_document d b -> do_method a = do_method b ->
  strict ps -> strict ps' -> do_path a = show ps -> do_path b = show ps' -> Forall2 overlap (segments ps) (segments ps') -> do_path a = do_path b.

(** What a query parameter should contribute: OpenAPI 3.0 style=form,
    explode=true, and decoding of application/x-www-form-urlencoded. *)
From Verif Require Import Base Utf8 Dec EncodeSpec SerdeModel.

(** Scalars and their text. *)
Inductive scalar_text : sval -> str -> Prop :=
| st_true : scalar_text (VBool true) (lit "true")
| st_false : scalar_text (VBool false) (lit "false")
| st_int z : scalar_text (VInt z) (dec_Z z)
| st_float t : scalar_text (VFloat t) t
| st_char c : scalar_text (VChar c) [c]
| st_str s : scalar_text (VStr s) s
| st_unit_variant n v : scalar_text (VUnitVariant n v) v.

(** Elements of arrays and fields of objects: a scalar, possibly optional
    (absent ones contribute nothing) or wrapped. *)
Inductive item_text : sval -> option str -> Prop :=
| it_scalar v t : scalar_text v t -> item_text v (Some t)
| it_bytes bs t : from_utf8 bs = Some t -> item_text (VBytes bs) (Some t)
| it_unit_struct n : item_text (VUnitStruct n) (Some n)
| it_none : item_text VNone None
| it_some v t : item_text v t -> item_text (VSome v) t
| it_newtype n v t : item_text v t -> item_text (VNewtypeStruct n v) t.

(** Keys of maps. *)
Inductive key_text : sval -> str -> Prop :=
| kt_scalar v t : scalar_text v t -> key_text v t
| kt_bytes bs t : from_utf8 bs = Some t -> key_text (VBytes bs) t
| kt_unit_struct n : key_text (VUnitStruct n) n
| kt_newtype n v t : key_text v t -> key_text (VNewtypeStruct n v) t.

Definition pairs_of (k : str) (t : option str) : list (str * str) :=
  match t with Some t => [(k, t)] | None => [] end.

(** The form/explode encoding of a parameter called [name]. *)
Inductive form_explode (name : str) : sval -> list (str * str) -> Prop :=
| fe_scalar v t : scalar_text v t -> form_explode name v [(name, t)]
| fe_absent : form_explode name VNone []
| fe_present v ps : form_explode name v ps -> form_explode name (VSome v) ps
| fe_array vs ts :
    Forall2 item_text vs ts -> form_explode name (VSeq vs) (flat_map (pairs_of name) ts)
| fe_object n fs ts :
    Forall2 (fun f t => item_text (snd f) t) fs ts ->
    form_explode name (VStruct n fs)
      (flat_map (fun kt => pairs_of (fst kt) (snd kt)) (combine (map fst fs) ts))
| fe_map kvs ks ts :
    Forall2 (fun kv k => key_text (fst kv) k) kvs ks ->
    Forall2 (fun kv t => item_text (snd kv) t) kvs ts ->
    form_explode name (VMap kvs) (flat_map (fun kt => pairs_of (fst kt) (snd kt)) (combine ks ts))
| fe_oneof n variant v t :
    item_text v t -> form_explode name (VNewtypeVariant n variant v) (pairs_of variant t).

(** The remaining values that are accepted: they ignore the parameter name. *)
Inductive pair_form : sval -> list (str * str) -> Prop :=
| pf_none : pair_form VNone []
| pf_some v ps : pair_form v ps -> pair_form (VSome v) ps
| pf_newtype n v ps : pair_form v ps -> pair_form (VNewtypeStruct n v) ps
| pf_pair k v kt t : key_text k kt -> item_text v t -> pair_form (VTuple [k; v]) (pairs_of kt t).

Inductive top_form : sval -> list (str * str) -> Prop :=
| tf_unit : top_form VUnit []
| tf_unit_struct n : top_form (VUnitStruct n) []
| tf_none : top_form VNone []
| tf_some v ps : top_form v ps -> top_form (VSome v) ps
| tf_newtype n v ps : top_form v ps -> top_form (VNewtypeStruct n v) ps
| tf_seq vs pss : Forall2 pair_form vs pss -> top_form (VSeq vs) (concat pss)
| tf_tuple vs pss : Forall2 pair_form vs pss -> top_form (VTuple vs) (concat pss)
| tf_map kvs ks ts :
    Forall2 (fun kv k => key_text (fst kv) k) kvs ks ->
    Forall2 (fun kv t => item_text (snd kv) t) kvs ts ->
    top_form (VMap kvs) (flat_map (fun kt => pairs_of (fst kt) (snd kt)) (combine ks ts))
| tf_struct n fs ts :
    Forall2 (fun f t => item_text (snd f) t) fs ts ->
    top_form (VStruct n fs)
      (flat_map (fun kt => pairs_of (fst kt) (snd kt)) (combine (map fst fs) ts)).

(** Values outside form/explode that are nevertheless accepted: unit types,
    tuples of pairs and newtype structs of such. *)
Inductive odd_form (name : str) : sval -> list (str * str) -> Prop :=
| of_some v ps : odd_form name v ps -> odd_form name (VSome v) ps
| of_unit : odd_form name VUnit []
| of_unit_struct n : odd_form name (VUnitStruct n) []
| of_tuple vs ps : top_form (VTuple vs) ps -> odd_form name (VTuple vs) ps
| of_newtype n v ps : top_form v ps -> odd_form name (VNewtypeStruct n v) ps.

(** ** Decoding application/x-www-form-urlencoded *)

Fixpoint split_on (c : char) (s : str) : list str :=
  match s with
  | [] => [[]]
  | x :: r =>
      if N.eqb x c then [] :: split_on c r
      else match split_on c r with
           | a :: l => (x :: a) :: l
           | [] => [[x]]
           end
  end.

Fixpoint cut_at (c : char) (s : str) : str * str :=
  match s with
  | [] => ([], [])
  | x :: r => if N.eqb x c then ([], r) else let '(a, b) := cut_at c r in (x :: a, b)
  end.

Definition form_decode_part (s : str) : option str :=
  decode_segment (map (fun c => if N.eqb c (ch "+") then ch " " else c) s).

Definition form_decode_pair (s : str) : option (str * str) :=
  let '(k, v) := cut_at (ch "=") s in
  match form_decode_part k, form_decode_part v with
  | Some k, Some v => Some (k, v)
  | _, _ => None
  end.

Fixpoint all_some {A} (l : list (option A)) : option (list A) :=
  match l with
  | [] => Some []
  | Some a :: r => option_map (cons a) (all_some r)
  | None :: _ => None
  end.

(** The pairs of a query string (absent query: no pairs). *)
Definition form_decode (q : option str) : option (list (str * str)) :=
  match q with
  | None => Some []
  | Some s => all_some (map form_decode_pair (split_on (ch "&") s))
  end.

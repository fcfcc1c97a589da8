(** The conversion of the schemas of a document to JSON Schema,
    progenitor-impl/src/to_schema.rs, function by function. *)
From Coq Require Import QArith.
From Verif Require Import Base OasModel OpModel.
Local Open Scope N_scope.

(** ** The schemas of schemars 0.8.22 (external crate, schemars::schema) *)

(** schemars::schema::InstanceType (to_schema.rs:9). *)
Inductive instance :=
| INull | IBoolean | IObject | IArray | INumber | IString | IInteger.

(** schemars::schema::SingleOrVec (to_schema.rs:9). *)
Inductive single_or_vec (A : Type) := Single (a : A) | Many (l : list A).
Arguments Single {A}.
Arguments Many {A}.

(** schemars::schema::Metadata.  The field [id] is left out: to_schema.rs:110
    never sets it. *)
Record metadata := Metadata {
  m_title : option str;
  m_description : option str;
  m_default : option json;
  m_deprecated : bool;
  m_read_only : bool;
  m_write_only : bool;
  m_examples : list json }.

(** schemars::schema::SubschemaValidation.  The fields [if_schema],
    [then_schema], [else_schema] are left out: to_schema.rs never sets them (to_schema.rs:9). *)
Record subschemas (S : Type) := Subschemas {
  sv_all_of : option (list S);
  sv_any_of : option (list S);
  sv_one_of : option (list S);
  sv_not : option S }.
Arguments Subschemas {S}.
Arguments sv_all_of {S}.
Arguments sv_any_of {S}.
Arguments sv_one_of {S}.
Arguments sv_not {S}.

(** schemars::schema::NumberValidation, [f64] fields (to_schema.rs:166-173, 203-210). *)
Record number_validation := NumberValidation {
  nv_multiple_of : option Q;
  nv_maximum : option Q;
  nv_exclusive_maximum : option Q;
  nv_minimum : option Q;
  nv_exclusive_minimum : option Q }.

(** schemars::schema::StringValidation, [u32] lengths (to_schema.rs:135-139). *)
Record string_validation := StringValidation {
  stv_max_length : option N;
  stv_min_length : option N;
  stv_pattern : option str }.

(** schemars::schema::ArrayValidation.  [additional_items] and [contains] are
    left out: to_schema.rs never sets them (to_schema.rs:9). *)
Record array_validation (S : Type) := ArrayValidation {
  av_items : option (single_or_vec S);
  av_max_items : option N;
  av_min_items : option N;
  av_unique_items : option bool }.
Arguments ArrayValidation {S}.
Arguments av_items {S}.
Arguments av_max_items {S}.
Arguments av_min_items {S}.
Arguments av_unique_items {S}.

(** schemars::schema::ObjectValidation.  [pattern_properties] and
    [property_names] are left out: to_schema.rs never sets them.  [required] is
    a BTreeSet and [properties] a BTreeMap, both lists in the order of their
    keys here (to_schema.rs:9). *)
Record object_validation (S : Type) := ObjectValidation {
  ov_max_properties : option N;
  ov_min_properties : option N;
  ov_required : list str;
  ov_properties : list (str * S);
  ov_additional : option S }.
Arguments ObjectValidation {S}.
Arguments ov_max_properties {S}.
Arguments ov_min_properties {S}.
Arguments ov_required {S}.
Arguments ov_properties {S}.
Arguments ov_additional {S}.

(** schemars::schema::SchemaObject.  [const_value] is left out: to_schema.rs
    never sets it (to_schema.rs:9). *)
Record schema_object (S : Type) := SchemaObject {
  so_metadata : option metadata;
  so_instance_type : option (single_or_vec instance);
  so_format : option str;
  so_enum : option (list json);
  so_subschemas : option (subschemas S);
  so_number : option number_validation;
  so_string : option string_validation;
  so_array : option (array_validation S);
  so_object : option (object_validation S);
  so_reference : option str;
  so_extensions : list (str * json) }.
Arguments SchemaObject {S}.
Arguments so_metadata {S}.
Arguments so_instance_type {S}.
Arguments so_format {S}.
Arguments so_enum {S}.
Arguments so_subschemas {S}.
Arguments so_number {S}.
Arguments so_string {S}.
Arguments so_array {S}.
Arguments so_object {S}.
Arguments so_reference {S}.
Arguments so_extensions {S}.

(** schemars::schema::Schema (to_schema.rs:9). *)
Inductive jschema := JsBool (b : bool) | JsObject (o : schema_object jschema).


(** schemars SchemaObject::new_ref (to_schema.rs:54). *)
Definition new_ref (reference : str) : jschema :=
  JsObject (SchemaObject None None None None None None None None None (Some reference) []).

(** ** The conversions *)

(** to_schema.rs:747-751, [usize as u32]: the remainder modulo 2^32. *)
Definition as_u32 (n : N) : N := n mod 2 ^ 32.
(** to_schema.rs:747-751. *)
Definition convert_usize (o : option N) : option N := option_map as_u32 o.

(** [i64 as f64] (to_schema.rs:187-203): the nearest double, the even one of
    two equally near ones.  Of the doubles only their values are modelled. *)
Definition as_f64 (z : Z) : Z :=
  (let a := Z.abs z in
   let e := Z.log2 a - 52 in
   if e <=? 0 then z
   else
     let m := 2 ^ e in
     let q := a / m in
     let r := a mod m in
     let q' := if 2 * r <? m then q
               else if m <? 2 * r then q + 1
               else if Z.even q then q else q + 1 in
     Z.sgn z * (q' * m))%Z.
(** [i64 as f64] (to_schema.rs:189-195 and 204). *)
Definition f64_of (o : option Z) : option Q := option_map (fun z => inject_Z (as_f64 z)) o.

(** to_schema.rs:670-702, the entries of an enumeration; a JSON number is its
    value, of an [f64] (never NaN or infinite when it comes from a document,
    so that the [unwrap] of line 682 is not reached) or of an [i64]. *)
Definition convert_string (o : option str) : json :=
  match o with Some s => JStr s | None => JNull end.
(** to_schema.rs:679-686. *)
Definition convert_f64 (o : option Q) : json :=
  match o with Some q => JNum q | None => JNull end.
(** to_schema.rs:687-694. *)
Definition convert_i64 (o : option Z) : json :=
  match o with Some z => JNum (inject_Z z) | None => JNull end.
(** to_schema.rs:695-702. *)
Definition convert_bool (o : option bool) : json :=
  match o with Some b => JBool b | None => JNull end.

(** to_schema.rs:37-48, [Vec<I>] to [Option<Vec<T>>]. *)
Definition convert_vec {A B} (f : A -> B) (l : list A) : option (list B) :=
  match l with [] => None | _ => Some (map f l) end.

(** to_schema.rs:624-635, VariantOrUnknownOrEmpty; 637-667, the names of the
    formats. *)
Definition convert_format {A} (name : A -> str) (v : variant_or A) : option str :=
  match v with
  | VItem a => Some (name a)
  | VUnknown s => Some s
  | VEmpty => None
  end.
(** to_schema.rs:637-648. *)
Definition string_format_name (f : string_format) : str :=
  match f with
  | SfDate => lit "date"
  | SfDateTime => lit "date-time"
  | SfPassword => lit "password"
  | SfByte => lit "byte"
  | SfBinary => lit "binary"
  end.
(** to_schema.rs:650-658. *)
Definition number_format_name (f : number_format) : str :=
  match f with NfFloat => lit "float" | NfDouble => lit "double" end.
(** to_schema.rs:660-668. *)
Definition integer_format_name (f : integer_format) : str :=
  match f with IfInt32 => lit "int32" | IfInt64 => lit "int64" end.

(** to_schema.rs:704-713, [instance_type]. *)
Definition instance_type (t : instance) (nullable : bool) : option (single_or_vec instance) :=
  if nullable then Some (Many [t; INull]) else Some (Single t).

(** to_schema.rs:715-745, [oneof_nullable_wrapper]. *)
Definition null_schema : jschema :=
  JsObject (SchemaObject None (Some (Single INull)) None None None None None None None None []).
(** to_schema.rs:715-745. *)
Definition oneof_nullable_wrapper (o : schema_object jschema) (nullable : bool)
  : schema_object jschema :=
  if nullable then
    SchemaObject (so_metadata o) None None None
      (Some (Subschemas None None
        (Some [null_schema;
               JsObject (SchemaObject None (so_instance_type o) (so_format o) (so_enum o)
                 (so_subschemas o) (so_number o) (so_string o) (so_array o) (so_object o)
                 (so_reference o) [])])
        None))
      None None None None None (so_extensions o)
  else o.

(** to_schema.rs:759-763, a BTreeSet collected from a list. *)
Definition convert_required (l : list str) : list str :=
  map fst (bt_inserts (map (fun r => (r, tt)) l) []).

(** to_schema.rs:800-815, [reduce]: what equals the default is left out. *)
Definition is_none {A} (o : option A) : bool := match o with None => true | Some _ => false end.
(** [Vec::is_empty] in comparisons with the default (to_schema.rs:809-814). *)
Definition is_nil {A} (l : list A) : bool := match l with [] => true | _ => false end.
(** to_schema.rs:120 with 805-815. *)
Definition reduce_metadata (m : metadata) : option metadata :=
  if is_none (m_title m) && is_none (m_description m) && is_none (m_default m)
     && negb (m_deprecated m) && negb (m_read_only m) && negb (m_write_only m)
     && is_nil (m_examples m)
  then None else Some m.
(** to_schema.rs:173 and 210 with 805-815. *)
Definition reduce_number (n : number_validation) : option number_validation :=
  if is_none (nv_multiple_of n) && is_none (nv_maximum n) && is_none (nv_exclusive_maximum n)
     && is_none (nv_minimum n) && is_none (nv_exclusive_minimum n)
  then None else Some n.
(** to_schema.rs:140 with 805-815. *)
Definition reduce_string (s : string_validation) : option string_validation :=
  if is_none (stv_max_length s) && is_none (stv_min_length s) && is_none (stv_pattern s)
  then None else Some s.
(** to_schema.rs:257 with 805-815. *)
Definition reduce_array (a : array_validation jschema) : option (array_validation jschema) :=
  if is_none (av_items a) && is_none (av_max_items a) && is_none (av_min_items a)
     && is_none (av_unique_items a)
  then None else Some a.
(** to_schema.rs:234 with 805-815. *)
Definition reduce_object (o : object_validation jschema) : option (object_validation jschema) :=
  if is_none (ov_max_properties o) && is_none (ov_min_properties o) && is_nil (ov_required o)
     && is_nil (ov_properties o) && is_none (ov_additional o)
  then None else Some o.

(** to_schema.rs:94-121, the metadata and the extensions of a schema; the
    discriminator and the external documentation are dropped there. *)
Definition option_list {A} (o : option A) : list A :=
  match o with Some a => [a] | None => [] end.
(** to_schema.rs:109-120. *)
Definition metadata_of (d : schema_data) : option metadata :=
  reduce_metadata
    (Metadata (sd_title d) (sd_description d) (sd_default d) (sd_deprecated d)
       (sd_read_only d) (sd_write_only d) (option_list (sd_example d))).
(** to_schema.rs:121. *)
Definition extensions_of (d : schema_data) : list (str * json) :=
  bt_inserts (sd_extensions d) [].

(** to_schema.rs:326-357: every keyword of an [AnySchema] absent but,
    possibly, the enumeration. *)
Definition any_bare {S} (a : any_schema S) : bool :=
  is_none (an_typ a) && is_none (an_pattern a) && is_none (an_multiple_of a)
  && is_none (an_exclusive_minimum a) && is_none (an_exclusive_maximum a)
  && is_none (an_minimum a) && is_none (an_maximum a)
  && is_nil (an_properties a) && is_nil (an_required a) && is_none (an_additional a)
  && is_none (an_min_properties a) && is_none (an_max_properties a)
  && is_none (an_items a) && is_none (an_min_items a) && is_none (an_max_items a)
  && is_none (an_unique_items a) && is_none (an_format a)
  && is_none (an_min_length a) && is_none (an_max_length a)
  && is_nil (an_one_of a) && is_nil (an_all_of a) && is_nil (an_any_of a) && is_none (an_not a).

(** to_schema.rs:394-395, [enumeration.len() == 1 && enumeration[0] == null]. *)
Definition only_null (l : list json) : bool :=
  match l with [JNull] => true | _ => false end.

(** to_schema.rs:463-486: a bound of an [AnySchema], as inclusive and
    exclusive bound.  An exclusive flag without a bound is a [todo!()]. *)
Definition any_bound (what : str) (bound : option Q) (exclusive : option bool)
  : outcome (option Q * option Q) :=
  match bound, exclusive with
  | None, Some true => Panic (lit "not yet implemented: exclusive_" ++ what ++ lit " set without " ++ what)
  | None, _ => Ok (None, None)
  | Some b, Some true => Ok (None, Some b)
  | Some b, _ => Ok (Some b, None)
  end.

(** [so.string()], [so.number()], ... of to_schema.rs:448-531: the validation is
    there as soon as one of its keywords is. *)
Definition any_string {S} (a : any_schema S) : option string_validation :=
  if is_none (an_pattern a) && is_none (an_min_length a) && is_none (an_max_length a)
  then None
  else Some (StringValidation (convert_usize (an_max_length a)) (convert_usize (an_min_length a))
               (an_pattern a)).
(** to_schema.rs:459-486. *)
Definition any_number {S} (a : any_schema S) : outcome (option number_validation) :=
  do mins <- any_bound (lit "minimum") (an_minimum a) (an_exclusive_minimum a);
  do maxs <- any_bound (lit "maximum") (an_maximum a) (an_exclusive_maximum a);
  Ok (if is_none (an_multiple_of a) && is_none (an_minimum a) && is_none (an_maximum a)
      then None
      else Some (NumberValidation (an_multiple_of a) (fst maxs) (snd maxs) (fst mins) (snd mins))).

(** to_schema.rs:535-560, the names of the types. *)
Definition type_named (t : str) : option instance :=
  if str_eqb t (lit "boolean") then Some IBoolean
  else if str_eqb t (lit "object") then Some IObject
  else if str_eqb t (lit "array") then Some IArray
  else if str_eqb t (lit "number") then Some INumber
  else if str_eqb t (lit "string") then Some IString
  else if str_eqb t (lit "integer") then Some IInteger
  else None.

(** to_schema.rs:568-596, the types inferred for a nullable schema that names
    none: [Array] three times. *)
Definition inferred (object array number string : bool) : option (single_or_vec instance) :=
  let l := (if object then [IObject] else []) ++ (if array then [IArray] else [])
           ++ (if number then [IArray] else []) ++ (if string then [IArray] else []) ++ [INull] in
  match l with
  | [] => None
  | [t] => Some (Single t)
  | _ => Some (Many l)
  end.

(** to_schema.rs:533-597, the type of an [AnySchema]. *)
Definition any_type (typ : option str) (nullable object array number string : bool)
  : outcome (option (single_or_vec instance)) :=
  match typ with
  | Some t =>
      match type_named t with
      | Some i => Ok (instance_type i nullable)
      | None => Panic (lit "not yet implemented: invalid type: " ++ t)
      end
  | None => Ok (if nullable then inferred object array number string else None)
  end.

(** [Option::is_some] (to_schema.rs:570-580). *)
Definition is_some {A} (o : option A) : bool := negb (is_none o).

(** [Option::map] of a conversion that may panic (to_schema.rs:248, 787). *)
Definition oconvert {A B} (f : A -> outcome B) (o : option A) : outcome (option B) :=
  match o with
  | Some a => do b <- f a; Ok (Some b)
  | None => Ok None
  end.

(** to_schema.rs:50-59, a reference or a schema. *)
Definition convert_ref_with (conv : schema -> outcome jschema) (r : ref_or schema)
  : outcome jschema :=
  match r with
  | Ref n => Ok (new_ref n)
  | Item s => conv s
  end.

(** to_schema.rs:71-622, the conversion of a schema; [todo!()] is [Panic]. *)
Fixpoint convert (s : schema) : outcome jschema :=
  match s with
  | Schema d k =>
  let nullable := sd_nullable d in
  let meta := metadata_of d in
  let exts := extensions_of d in
  match k with
  | SkString t => (* to_schema.rs:124-143 *)
      Ok (JsObject (SchemaObject meta (instance_type IString nullable)
        (convert_format string_format_name (st_format t))
        (convert_vec convert_string (st_enumeration t)) None None
        (reduce_string (StringValidation (convert_usize (st_max_length t))
           (convert_usize (st_min_length t)) (st_pattern t)))
        None None None exts))
  | SkNumber t => (* to_schema.rs:144-177 *)
      Ok (JsObject (SchemaObject meta (instance_type INumber nullable)
        (convert_format number_format_name (nt_format t))
        (convert_vec convert_f64 (nt_enumeration t)) None
        (reduce_number (NumberValidation (nt_multiple_of t)
           (if nt_exclusive_maximum t then None else nt_maximum t)
           (if nt_exclusive_maximum t then nt_maximum t else None)
           (if nt_exclusive_minimum t then None else nt_minimum t)
           (if nt_exclusive_minimum t then nt_minimum t else None)))
        None None None None exts))
  | SkInteger t => (* to_schema.rs:179-214 *)
      Ok (JsObject (SchemaObject meta (instance_type IInteger nullable)
        (convert_format integer_format_name (it_format t))
        (convert_vec convert_i64 (it_enumeration t)) None
        (reduce_number (NumberValidation (f64_of (it_multiple_of t))
           (if it_exclusive_maximum t then None else f64_of (it_maximum t))
           (if it_exclusive_maximum t then f64_of (it_maximum t) else None)
           (if it_exclusive_minimum t then None else f64_of (it_minimum t))
           (if it_exclusive_minimum t then f64_of (it_minimum t) else None)))
        None None None None exts))
  | SkObject t => (* to_schema.rs:216-237 *)
      do props <- mapM (fun kv => do j <- convert_ref_with convert (snd kv); Ok (fst kv, j))
                    (ot_properties t);
      do add <- oconvert (fun ap => match ap with
                                    | ApAny b => Ok (JsBool b)
                                    | ApSchema r => convert_ref_with convert r
                                    end) (ot_additional t);
      Ok (JsObject (SchemaObject meta (instance_type IObject nullable) None None None None None None
        (reduce_object (ObjectValidation (convert_usize (ot_max_properties t))
           (convert_usize (ot_min_properties t)) (convert_required (ot_required t))
           (bt_inserts props []) add))
        None exts))
  | SkArray t => (* to_schema.rs:239-260 *)
      do items <- oconvert (convert_ref_with convert) (at_items t);
      Ok (JsObject (SchemaObject meta (instance_type IArray nullable) None None None None None
        (reduce_array (ArrayValidation (option_map Single items) (convert_usize (at_max_items t))
           (convert_usize (at_min_items t)) (if at_unique_items t then Some true else None)))
        None None exts))
  | SkBoolean enumeration => (* to_schema.rs:262-270 *)
      Ok (JsObject (SchemaObject meta (instance_type IBoolean nullable) None
        (convert_vec convert_bool enumeration) None None None None None None exts))
  | SkOneOf l => (* to_schema.rs:272-283 *)
      do js <- mapM (convert_ref_with convert) l;
      Ok (JsObject (oneof_nullable_wrapper
        (SchemaObject meta None None None (Some (Subschemas None None (Some js) None))
           None None None None None exts) nullable))
  | SkAllOf l => (* to_schema.rs:285-296 *)
      do js <- mapM (convert_ref_with convert) l;
      Ok (JsObject (oneof_nullable_wrapper
        (SchemaObject meta None None None (Some (Subschemas (Some js) None None None))
           None None None None None exts) nullable))
  | SkAnyOf l => (* to_schema.rs:298-309 *)
      do js <- mapM (convert_ref_with convert) l;
      Ok (JsObject (oneof_nullable_wrapper
        (SchemaObject meta None None None (Some (Subschemas None (Some js) None None))
           None None None None None exts) nullable))
  | SkNot r => (* to_schema.rs:311-322 *)
      do j <- convert_ref_with convert r;
      Ok (JsObject (oneof_nullable_wrapper
        (SchemaObject meta None None None (Some (Subschemas None None None (Some j)))
           None None None None None exts) nullable))
  | SkAny a =>
      if any_bare a && is_nil (an_enumeration a) then (* to_schema.rs:324-363 *)
        Ok (JsObject (SchemaObject meta None None None None None None None None None exts))
      else if any_bare a && only_null (an_enumeration a) then (* to_schema.rs:365-406 *)
        Ok (JsObject (SchemaObject meta (Some (Single INull)) None None None None None None None
          None exts))
      else (* to_schema.rs:408-618 *)
        do number <- any_number a;
        do props <- mapM (fun kv => do j <- convert_ref_with convert (snd kv); Ok (fst kv, j))
                      (an_properties a);
        do add <- oconvert (fun ap => match ap with
                                      | ApAny b => Ok (JsBool b)
                                      | ApSchema r => convert_ref_with convert r
                                      end) (an_additional a);
        do items <- oconvert (convert_ref_with convert) (an_items a);
        do ones <- mapM (convert_ref_with convert) (an_one_of a);
        do alls <- mapM (convert_ref_with convert) (an_all_of a);
        do anys <- mapM (convert_ref_with convert) (an_any_of a);
        do no <- oconvert (convert_ref_with convert) (an_not a);
        let object :=
          if is_nil (an_properties a) && is_nil (an_required a) && is_none (an_additional a)
             && is_none (an_min_properties a) && is_none (an_max_properties a)
          then None
          else Some (ObjectValidation (convert_usize (an_max_properties a))
                 (convert_usize (an_min_properties a)) (convert_required (an_required a))
                 (bt_inserts props []) add) in
        let array :=
          if is_none (an_items a) && is_none (an_min_items a) && is_none (an_max_items a)
             && is_none (an_unique_items a)
          then None
          else Some (ArrayValidation (option_map Single items) (convert_usize (an_max_items a))
                 (convert_usize (an_min_items a)) (an_unique_items a)) in
        let subs :=
          if is_nil (an_one_of a) && is_nil (an_all_of a) && is_nil (an_any_of a)
             && is_none (an_not a)
          then None
          else Some (Subschemas (convert_vec id alls) (convert_vec id anys)
                 (convert_vec id ones) no) in
        do ty <- any_type (an_typ a) nullable (is_some object) (is_some array) (is_some number)
                   (is_some (any_string a));
        let so := fun ty => SchemaObject meta ty (an_format a) (convert_vec id (an_enumeration a))
                    subs number (any_string a) array object None exts in
        match ty with
        | Some (Single INull) =>
            if is_some subs then Ok (JsObject (oneof_nullable_wrapper (so None) nullable))
            else Ok (JsObject (so ty))
        | _ => Ok (JsObject (so ty))
        end
  end
  end.

(** to_schema.rs:50-59. *)
Definition convert_ref : ref_or schema -> outcome jschema := convert_ref_with convert.

(** to_schema.rs:16-26, [to_schema]. *)
Definition to_schema (r : ref_or schema) : outcome jschema := convert_ref r.

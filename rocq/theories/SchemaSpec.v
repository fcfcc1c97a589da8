(** What schemas mean: the values a schema of an OpenAPI 3.0 document accepts
    and the values a JSON Schema (draft 7) accepts.  Written from the two
    specifications, with no reference to the conversion. *)
From Coq Require Import QArith.
From Verif Require Import Base OasModel ToSchemaModel DoubleSpec.
Local Open Scope N_scope.

(** ** Values *)

(** Equality of JSON values: numbers by value, objects without regard to the
    order of their fields. *)
Fixpoint json_eqb (a b : json) {struct a} : bool :=
  match a, b with
  | JNull, JNull => true
  | JBool x, JBool y => Bool.eqb x y
  | JNum x, JNum y => Qeq_bool x y
  | JStr x, JStr y => str_eqb x y
  | JArr x, JArr y =>
      (fix all2 (x : list json) (y : list json) : bool :=
         match x, y with
         | [], [] => true
         | u :: x', w :: y' => json_eqb u w && all2 x' y'
         | _, _ => false
         end) x y
  | JObj x, JObj y =>
      Nat.eqb (length x) (length y)
      && forallb (fun kv => match assoc (fst kv) y with
                            | Some w => json_eqb (snd kv) w
                            | None => false
                            end) x
  | _, _ => false
  end.

Definition is_null (v : json) : bool := match v with JNull => true | _ => false end.

(** A number without fractional part. *)
Definition whole (q : Q) : bool := Pos.eqb (Qden (Qred q)) 1.

(** Of a type. *)
Definition has_type (t : instance) (v : json) : bool :=
  match t, v with
  | INull, JNull => true
  | IBoolean, JBool _ => true
  | IObject, JObj _ => true
  | IArray, JArr _ => true
  | INumber, JNum _ => true
  | IString, JStr _ => true
  | IInteger, JNum q => whole q
  | _, _ => false
  end.

Definition listed (l : list json) (v : json) : bool := existsb (fun w => json_eqb w v) l.

(** A condition that an absent keyword leaves out. *)
Definition given {A} (o : option A) (p : A -> bool) : bool :=
  match o with Some a => p a | None => true end.

Definition size_of {A} (l : list A) : N := N.of_nat (length l).

Fixpoint distinct (l : list json) : bool :=
  match l with
  | [] => true
  | v :: r => negb (listed r v) && distinct r
  end.

(** A multiple: the quotient is whole. *)
Definition multiple (m q : Q) : bool := whole (q / m).
Definition at_least (b q : Q) : bool := Qle_bool b q.
Definition above (b q : Q) : bool := negb (Qle_bool q b).
Definition at_most (b q : Q) : bool := Qle_bool q b.
Definition below (b q : Q) : bool := negb (Qle_bool b q).

(** How many of the answers are yes. *)
Definition count (l : list bool) : nat := length (filter (fun b => b) l).

Section Meaning.
(** What the references denote, what the patterns match and what the formats
    admit: the same on both sides. *)
Variable refs : str -> json -> bool.
Variable matches : str -> str -> bool.
Variable format_ok : str -> json -> bool.

(** A format constrains strings and numbers only. *)
Definition of_format (f : str) (v : json) : bool :=
  match v with
  | JStr _ | JNum _ => format_ok f v
  | _ => true
  end.

(** ** OpenAPI 3.0 *)

(** Members of an object: each by the schema of its name, the others by the
    additional properties. *)
Definition members_ok (props : list (str * (json -> bool))) (others : json -> bool)
    (fs : list (str * json)) : bool :=
  forallb (fun kv => match assoc (fst kv) props with
                     | Some p => p (snd kv)
                     | None => others (snd kv)
                     end) fs.

Definition has_fields (required : list str) (fs : list (str * json)) : bool :=
  forallb (fun r => existsb (fun kv => str_eqb r (fst kv)) fs) required.

Definition string_ok (min max : option N) (pattern : option str) (v : json) : bool :=
  match v with
  | JStr s => given min (fun n => n <=? size_of s) && given max (fun n => size_of s <=? n)
              && given pattern (fun p => matches p s)
  | _ => true
  end.

(** Bounds with a flag that makes them exclusive. *)
Definition number_ok (multiple_of minimum maximum : option Q) (exmin exmax : bool) (v : json)
  : bool :=
  match v with
  | JNum q => given multiple_of (fun m => multiple m q)
              && given minimum (fun b => if exmin then above b q else at_least b q)
              && given maximum (fun b => if exmax then below b q else at_most b q)
  | _ => true
  end.

Definition array_ok (items : option (json -> bool)) (min max : option N) (unique : bool) (v : json)
  : bool :=
  match v with
  | JArr l => given items (fun p => forallb p l)
              && given min (fun n => n <=? size_of l) && given max (fun n => size_of l <=? n)
              && (if unique then distinct l else true)
  | _ => true
  end.

Definition object_ok (props : list (str * (json -> bool))) (required : list str)
    (others : option (json -> bool)) (min max : option N) (v : json) : bool :=
  match v with
  | JObj fs => members_ok props (fun x => given others (fun p => p x)) fs
               && has_fields required fs
               && given min (fun n => n <=? size_of fs) && given max (fun n => size_of fs <=? n)
  | _ => true
  end.

Definition nonempty {A} (l : list A) (b : bool) : bool := match l with [] => true | _ => b end.

Definition null_or {A} (f : A -> json) (o : option A) : json :=
  match o with Some a => f a | None => JNull end.

Definition format_is {A} (name : A -> str) (f : variant_or A) : option str :=
  match f with VItem a => Some (name a) | VUnknown s => Some s | VEmpty => None end.

(** The names the specification gives to the formats. *)
Definition string_formats (f : string_format) : str :=
  match f with
  | SfDate => lit "date" | SfDateTime => lit "date-time" | SfPassword => lit "password"
  | SfByte => lit "byte" | SfBinary => lit "binary"
  end.
Definition number_formats (f : number_format) : str :=
  match f with NfFloat => lit "float" | NfDouble => lit "double" end.
Definition integer_formats (f : integer_format) : str :=
  match f with IfInt32 => lit "int32" | IfInt64 => lit "int64" end.

(** The six types an OpenAPI 3.0 schema can name. *)
Definition of_named_type (t : str) (v : json) : bool :=
  match v with
  | JNull => false
  | JBool _ => str_eqb t (lit "boolean")
  | JNum q => str_eqb t (lit "number") || (str_eqb t (lit "integer") && whole q)
  | JStr _ => str_eqb t (lit "string")
  | JArr _ => str_eqb t (lit "array")
  | JObj _ => str_eqb t (lit "object")
  end.

Definition flag (o : option bool) : bool := match o with Some b => b | None => false end.

(** The values a schema accepts: null when the schema is nullable, and the
    values that meet all its keywords. *)
Fixpoint accepts (s : schema) (v : json) {struct s} : bool :=
  match s with
  | Schema d k =>
  sd_nullable d && is_null v ||
  let props l := map (fun kv => (fst kv, fun x => match snd kv with
                                                  | Ref n => refs n x
                                                  | Item t => accepts t x
                                                  end)) l in
  let others o := match o with
                  | None => None
                  | Some (ApAny b) => Some (fun _ => b)
                  | Some (ApSchema r) => Some (fun x => match r with
                                                        | Ref n => refs n x
                                                        | Item t => accepts t x
                                                        end)
                  end in
  let items o := match o with
                 | None => None
                 | Some r => Some (fun x => match r with
                                            | Ref n => refs n x
                                            | Item t => accepts t x
                                            end)
                 end in
  let each l := map (fun r => match r with
                              | Ref n => refs n v
                              | Item t => accepts t v
                              end) l in
  match k with
  | SkString t =>
      has_type IString v
      && nonempty (st_enumeration t) (listed (map (null_or JStr) (st_enumeration t)) v)
      && given (format_is string_formats (st_format t)) (fun f => of_format f v)
      && string_ok (st_min_length t) (st_max_length t) (st_pattern t) v
  | SkNumber t =>
      has_type INumber v
      && nonempty (nt_enumeration t) (listed (map (null_or JNum) (nt_enumeration t)) v)
      && given (format_is number_formats (nt_format t)) (fun f => of_format f v)
      && number_ok (nt_multiple_of t) (nt_minimum t) (nt_maximum t)
           (nt_exclusive_minimum t) (nt_exclusive_maximum t) v
  | SkInteger t =>
      has_type IInteger v
      && nonempty (it_enumeration t)
           (listed (map (null_or (fun z => JNum (inject_Z z))) (it_enumeration t)) v)
      && given (format_is integer_formats (it_format t)) (fun f => of_format f v)
      && number_ok (option_map inject_Z (it_multiple_of t)) (option_map inject_Z (it_minimum t))
           (option_map inject_Z (it_maximum t))
           (it_exclusive_minimum t) (it_exclusive_maximum t) v
  | SkObject t =>
      has_type IObject v
      && object_ok (props (ot_properties t)) (ot_required t) (others (ot_additional t))
           (ot_min_properties t) (ot_max_properties t) v
  | SkArray t =>
      has_type IArray v
      && array_ok (items (at_items t)) (at_min_items t) (at_max_items t) (at_unique_items t) v
  | SkBoolean e =>
      has_type IBoolean v && nonempty e (listed (map (null_or JBool) e) v)
  | SkOneOf l => Nat.eqb (count (each l)) 1
  | SkAllOf l => forallb (fun b => b) (each l)
  | SkAnyOf l => existsb (fun b => b) (each l)
  | SkNot r => negb (match r with Ref n => refs n v | Item t => accepts t v end)
  | SkAny a =>
      given (an_typ a) (fun t => of_named_type t v)
      && nonempty (an_enumeration a) (listed (an_enumeration a) v)
      && given (an_format a) (fun f => of_format f v)
      && string_ok (an_min_length a) (an_max_length a) (an_pattern a) v
      && number_ok (an_multiple_of a) (an_minimum a) (an_maximum a)
           (flag (an_exclusive_minimum a)) (flag (an_exclusive_maximum a)) v
      && object_ok (props (an_properties a)) (an_required a) (others (an_additional a))
           (an_min_properties a) (an_max_properties a) v
      && array_ok (items (an_items a)) (an_min_items a) (an_max_items a)
           (flag (an_unique_items a)) v
      && nonempty (an_one_of a) (Nat.eqb (count (each (an_one_of a))) 1)
      && forallb (fun b => b) (each (an_all_of a))
      && nonempty (an_any_of a) (existsb (fun b => b) (each (an_any_of a)))
      && given (an_not a) (fun r => negb (match r with
                                          | Ref n => refs n v
                                          | Item t => accepts t v
                                          end))
  end
  end.

(** A reference, or a schema. *)
Definition accepts_ref (r : ref_or schema) (v : json) : bool :=
  match r with Ref n => refs n v | Item s => accepts s v end.

(** ** JSON Schema *)

(** Draft 7: beside a reference no other keyword counts. *)
Fixpoint valid (s : jschema) (v : json) {struct s} : bool :=
  match s with
  | JsBool b => b
  | JsObject o =>
  match so_reference o with
  | Some r => refs r v
  | None =>
    given (so_instance_type o)
      (fun ty => match ty with
                 | Single t => has_type t v
                 | Many l => existsb (fun t => has_type t v) l
                 end)
    && given (so_enum o) (fun l => listed l v)
    && given (so_format o) (fun f => of_format f v)
    && match so_subschemas o with
       | None => true
       | Some (Subschemas alls anys ones no) =>
           match alls with
           | None => true
           | Some l => forallb (fun t => valid t v) l
           end
           && match anys with
              | None => true
              | Some l => existsb (fun t => valid t v) l
              end
           && match ones with
              | None => true
              | Some l => Nat.eqb (count (map (fun t => valid t v) l)) 1
              end
           && match no with
              | None => true
              | Some t => negb (valid t v)
              end
       end
    && match so_number o, v with
       | Some n, JNum q =>
           given (nv_multiple_of n) (fun m => multiple m q)
           && given (nv_minimum n) (fun b => at_least b q)
           && given (nv_exclusive_minimum n) (fun b => above b q)
           && given (nv_maximum n) (fun b => at_most b q)
           && given (nv_exclusive_maximum n) (fun b => below b q)
       | _, _ => true
       end
    && match so_string o, v with
       | Some n, JStr x =>
           given (stv_min_length n) (fun n => n <=? size_of x)
           && given (stv_max_length n) (fun n => size_of x <=? n)
           && given (stv_pattern n) (fun p => matches p x)
       | _, _ => true
       end
    && match so_array o, v with
       | Some (ArrayValidation items max min unique), JArr l =>
           match items with
           | None => true
           | Some (Single t) => forallb (fun x => valid t x) l
           | Some (Many ts) =>
               (fix each (ts : list jschema) (l : list json) : bool :=
                  match ts, l with
                  | t :: ts', x :: l' => valid t x && each ts' l'
                  | _, _ => true
                  end) ts l
           end
           && given min (fun n => n <=? size_of l)
           && given max (fun n => size_of l <=? n)
           && (if flag unique then distinct l else true)
       | _, _ => true
       end
    && match so_object o, v with
       | Some (ObjectValidation max min required props others), JObj fs =>
           members_ok (map (fun kv => (fst kv, fun x => valid (snd kv) x)) props)
             (fun x => match others with None => true | Some t => valid t x end) fs
           && has_fields required fs
           && given min (fun n => n <=? size_of fs)
           && given max (fun n => size_of fs <=? n)
       | _, _ => true
       end
  end
  end.

End Meaning.

(** ** The schemas inside a schema *)

Definition optional {A} (o : option A) : list A :=
  match o with Some a => [a] | None => [] end.
Definition ref_schemas (r : ref_or schema) : list schema :=
  match r with Ref _ => [] | Item s => [s] end.
Definition additional_schemas (o : option (additional schema)) : list schema :=
  match o with Some (ApSchema r) => ref_schemas r | _ => [] end.
Definition property_schemas (l : list (str * ref_or schema)) : list schema :=
  flat_map (fun kv => ref_schemas (snd kv)) l.

Definition children (k : schema_kind schema) : list schema :=
  match k with
  | SkObject t => property_schemas (ot_properties t) ++ additional_schemas (ot_additional t)
  | SkArray t => flat_map ref_schemas (optional (at_items t))
  | SkOneOf l | SkAllOf l | SkAnyOf l => flat_map ref_schemas l
  | SkNot r => ref_schemas r
  | SkAny a =>
      property_schemas (an_properties a) ++ additional_schemas (an_additional a)
      ++ flat_map ref_schemas (optional (an_items a)) ++ flat_map ref_schemas (an_one_of a)
      ++ flat_map ref_schemas (an_all_of a) ++ flat_map ref_schemas (an_any_of a)
      ++ flat_map ref_schemas (optional (an_not a))
  | _ => []
  end.

(** [t] is [s] or occurs in [s], at any depth. *)
Inductive nested (t : schema) : schema -> Prop :=
| Nested_here : nested t t
| Nested_in s u : In u (children (s_kind s)) -> nested t u -> nested t s.

(** ** What a schema bounds *)

Definition length_bounds (k : schema_kind schema) : list N :=
  match k with
  | SkString t => optional (st_min_length t) ++ optional (st_max_length t)
  | SkObject t => optional (ot_min_properties t) ++ optional (ot_max_properties t)
  | SkArray t => optional (at_min_items t) ++ optional (at_max_items t)
  | SkAny a => optional (an_min_length a) ++ optional (an_max_length a)
      ++ optional (an_min_properties a) ++ optional (an_max_properties a)
      ++ optional (an_min_items a) ++ optional (an_max_items a)
  | _ => []
  end.
Definition integer_bounds (k : schema_kind schema) : list Z :=
  match k with
  | SkInteger t => optional (it_multiple_of t) ++ optional (it_minimum t) ++ optional (it_maximum t)
  | _ => []
  end.

(** The keys of an IndexMap, distinct always. *)
Definition property_names (k : schema_kind schema) : list str :=
  match k with
  | SkObject t => map fst (ot_properties t)
  | SkAny a => map fst (an_properties a)
  | _ => []
  end.

(** ** Nullable schemas *)

Definition present {A} (o : option A) : bool := match o with Some _ => true | None => false end.
Definition some_of {A} (l : list A) : bool := match l with [] => false | _ => true end.

(** An untyped schema with keywords for strings, numbers, objects or arrays. *)
Definition string_keywords (a : any_schema schema) : bool :=
  present (an_pattern a) || present (an_min_length a) || present (an_max_length a).
Definition number_keywords (a : any_schema schema) : bool :=
  present (an_multiple_of a) || present (an_minimum a) || present (an_maximum a).
Definition object_keywords (a : any_schema schema) : bool :=
  some_of (an_properties a) || some_of (an_required a) || present (an_additional a)
  || present (an_min_properties a) || present (an_max_properties a).
Definition array_keywords (a : any_schema schema) : bool :=
  present (an_items a) || present (an_min_items a) || present (an_max_items a)
  || present (an_unique_items a).
Definition value_keywords (a : any_schema schema) : bool :=
  string_keywords a || number_keywords a || object_keywords a || array_keywords a.
Definition combines (a : any_schema schema) : bool :=
  some_of (an_one_of a) || some_of (an_all_of a) || some_of (an_any_of a) || present (an_not a).

(** No keyword but, possibly, an enumeration and a type. *)
Definition only_lists (a : any_schema schema) : bool :=
  negb (value_keywords a) && negb (combines a) && negb (present (an_format a))
  && negb (present (an_exclusive_minimum a)) && negb (present (an_exclusive_maximum a)).

Definition plain_data : schema_data :=
  SchemaData false false false false None None None false None [].
Definition untyped (a : any_schema schema) : any_schema schema :=
  AnySchema None (an_pattern a) (an_multiple_of a) (an_exclusive_minimum a)
    (an_exclusive_maximum a) (an_minimum a) (an_maximum a) (an_properties a) (an_required a)
    (an_additional a) (an_min_properties a) (an_max_properties a) (an_items a) (an_min_items a)
    (an_max_items a) (an_unique_items a) (an_enumeration a) (an_format a) (an_min_length a)
    (an_max_length a) (an_one_of a) (an_all_of a) (an_any_of a) (an_not a).

Definition null_listed {A} (l : list (option A)) : Prop := l = [] \/ In None l.

(** Where [nullable: true] is expressible: an enumeration has to list null; a
    combination of schemas must not accept null by itself; and of the schemas
    without a type only those that combine others, say nothing at all, or
    list just null. *)
Definition nullable_sound refs matches format_ok (k : schema_kind schema) : Prop :=
  match k with
  | SkString t => null_listed (st_enumeration t)
  | SkNumber t => null_listed (nt_enumeration t)
  | SkInteger t => null_listed (it_enumeration t)
  | SkBoolean e => null_listed e
  | SkObject _ | SkArray _ => True
  | SkOneOf _ | SkAllOf _ | SkAnyOf _ | SkNot _ =>
      accepts refs matches format_ok (Schema plain_data k) JNull = false
  | SkAny a =>
      match an_typ a with
      | Some _ => accepts refs matches format_ok (Schema plain_data (SkAny (untyped a))) JNull = true
      | None =>
          value_keywords a = false
          /\ (combines a = true
              /\ accepts refs matches format_ok (Schema plain_data (SkAny a)) JNull = false
              \/ combines a = false /\ an_enumeration a = [JNull]
              \/ combines a = false /\ an_enumeration a = [] /\ an_format a = None
                 /\ an_exclusive_minimum a = None /\ an_exclusive_maximum a = None)
      end
  end.

(** A schema, by itself, that the conversion keeps: lengths below 2^32,
    integers that are doubles, and [nullable] where it can be expressed. *)
Definition kept refs matches format_ok (s : schema) : Prop :=
  let k := s_kind s in
  (forall n, In n (length_bounds k) -> n < 2 ^ 32)
  /\ (forall z, In z (integer_bounds k) -> double z)
  /\ NoDup (property_names k)
  /\ (sd_nullable (s_data s) = true -> nullable_sound refs matches format_ok k).

(** A schema with all the schemas inside it. *)
Definition all_kept refs matches format_ok (s : schema) : Prop :=
  forall t, nested t s -> kept refs matches format_ok t.

(** A schema the conversion has a translation for: a type, if any, is one of
    the six, and an exclusive bound is a bound. *)
Definition known_types : list str :=
  [lit "boolean"; lit "object"; lit "array"; lit "number"; lit "string"; lit "integer"].
Definition translatable (k : schema_kind schema) : Prop :=
  match k with
  | SkAny a =>
      (forall t, an_typ a = Some t -> In t known_types)
      /\ (an_exclusive_minimum a = Some true -> an_minimum a <> None)
      /\ (an_exclusive_maximum a = Some true -> an_maximum a <> None)
  | _ => True
  end.

(** ** Documents *)

(** References mean what the schemas of the document, or the converted
    schemas, say of their names. *)
Definition meaning_of (means : json -> bool) refs (prefix name : str) : Prop :=
  forall v, refs (prefix ++ name) v = means v.
Definition meant_by_document refs matches format_ok prefix (defs : list (str * ref_or schema)) : Prop :=
  forall name r, In (name, r) defs ->
    meaning_of (accepts_ref refs matches format_ok r) refs prefix name.
Definition meant_by_converted refs matches format_ok prefix (defs : list (str * jschema)) : Prop :=
  forall name j, In (name, j) defs ->
    meaning_of (valid refs matches format_ok j) refs prefix name.

(** ** Annotations *)

(** The metadata of a schema, absent when it has none. *)
Definition annotations (o : schema_object jschema) : metadata :=
  match so_metadata o with
  | Some m => m
  | None => Metadata None None None false false false []
  end.

(** The format a schema of the document has. *)
Definition document_format (k : schema_kind schema) : option str :=
  match k with
  | SkString t => format_is string_formats (st_format t)
  | SkNumber t => format_is number_formats (nt_format t)
  | SkInteger t => format_is integer_formats (it_format t)
  | SkAny a => an_format a
  | _ => None
  end.

(** A nullable schema without a type that combines others is converted to a
    choice between null and the combination. *)
Definition becomes_choice (s : schema) : bool :=
  match s_kind s with
  | SkOneOf _ | SkAllOf _ | SkAnyOf _ | SkNot _ => sd_nullable (s_data s)
  | SkAny a => sd_nullable (s_data s) && negb (present (an_typ a)) && negb (value_keywords a)
               && combines a
  | _ => false
  end.

(** The second of two alternatives. *)
Definition second_choice (o : schema_object jschema) : option (schema_object jschema) :=
  match so_subschemas o with
  | Some (Subschemas None None (Some [_; JsObject i]) None) => Some i
  | _ => None
  end.

(** ** Bounds *)

Definition number_bounds (o : schema_object jschema) : number_validation :=
  match so_number o with
  | Some n => n
  | None => NumberValidation None None None None None
  end.
Definition string_bounds (o : schema_object jschema) : option N * option N :=
  match so_string o with
  | Some s => (stv_min_length s, stv_max_length s)
  | None => (None, None)
  end.
Definition array_bounds (o : schema_object jschema) : option N * option N :=
  match so_array o with
  | Some a => (av_min_items a, av_max_items a)
  | None => (None, None)
  end.
Definition object_bounds (o : schema_object jschema) : option N * option N :=
  match so_object o with
  | Some a => (ov_min_properties a, ov_max_properties a)
  | None => (None, None)
  end.

(** ** Null and the converted schema *)

(** The same schema, not nullable. *)
Definition not_nullable (d : schema_data) : schema_data :=
  SchemaData false (sd_read_only d) (sd_write_only d) (sd_deprecated d) (sd_example d)
    (sd_title d) (sd_description d) (sd_discriminator d) (sd_default d) (sd_extensions d).

(** Where null can be added, said of what the converted schemas accept:
    [no_null] is the schema converted without [nullable], [no_type] the schema
    converted without its type. *)
Definition null_addable (k : schema_kind schema) (no_null_accepts_null : bool)
    (no_type_accepts_null : bool) : Prop :=
  match k with
  | SkString t => null_listed (st_enumeration t)
  | SkNumber t => null_listed (nt_enumeration t)
  | SkInteger t => null_listed (it_enumeration t)
  | SkBoolean e => null_listed e
  | SkObject _ | SkArray _ => True
  | SkOneOf _ | SkAllOf _ | SkAnyOf _ | SkNot _ => no_null_accepts_null = false
  | SkAny a =>
      match an_typ a with
      | Some _ => no_type_accepts_null = true
      | None =>
          value_keywords a = false
          /\ (combines a = true /\ no_null_accepts_null = false
              \/ combines a = false /\ an_enumeration a = [JNull]
              \/ combines a = false /\ an_enumeration a = [] /\ an_format a = None
                 /\ an_exclusive_minimum a = None /\ an_exclusive_maximum a = None)
      end
  end.

(** The kind of a schema without its type. *)
Definition no_type (k : schema_kind schema) : schema_kind schema :=
  match k with SkAny a => SkAny (untyped a) | _ => k end.

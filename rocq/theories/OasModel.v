(** The part of the openapiv3 2.0.0 document types that progenitor reads, and
    JSON values.  Numbers of the document (f64, i64) and of JSON values are
    rationals. *)
From Coq Require Import QArith.
From Verif Require Import Base.

(** serde_json::Value; the fields of an object in document order (lib.rs:34). *)
Inductive json :=
| JNull
| JBool (b : bool)
| JNum (q : Q)
| JStr (s : str)
| JArr (l : list json)
| JObj (fs : list (str * json)).

(** openapiv3::ReferenceOr (to_schema.rs:50-59, util.rs:18-33). *)
Inductive ref_or (A : Type) := Ref (reference : str) | Item (a : A).
Arguments Ref {A}.
Arguments Item {A}.

(** openapiv3::SchemaData (to_schema.rs:94-107) without the external documentation link; whether
    there is a discriminator is all that is read of it. *)
Record schema_data := SchemaData {
  sd_nullable : bool;
  sd_read_only : bool;
  sd_write_only : bool;
  sd_deprecated : bool;
  sd_example : option json;
  sd_title : option str;
  sd_description : option str;
  sd_discriminator : bool;
  sd_default : option json;
  sd_extensions : list (str * json) }.

(** openapiv3::VariantOrUnknownOrEmpty (to_schema.rs:624-635). *)
Inductive variant_or (A : Type) := VItem (a : A) | VUnknown (s : str) | VEmpty.
Arguments VItem {A}.
Arguments VUnknown {A}.
Arguments VEmpty {A}.

(** openapiv3::StringFormat (to_schema.rs:637-648). *)
Inductive string_format := SfDate | SfDateTime | SfPassword | SfByte | SfBinary.
(** openapiv3::NumberFormat (to_schema.rs:650-658). *)
Inductive number_format := NfFloat | NfDouble.
(** openapiv3::IntegerFormat (to_schema.rs:660-668). *)
Inductive integer_format := IfInt32 | IfInt64.

(** openapiv3::StringType (to_schema.rs:124-130). *)
Record string_type := StringType {
  st_format : variant_or string_format;
  st_pattern : option str;
  st_enumeration : list (option str);
  st_min_length : option N;
  st_max_length : option N }.

(** openapiv3::NumberType (to_schema.rs:144-152). *)
Record number_type := NumberType {
  nt_format : variant_or number_format;
  nt_multiple_of : option Q;
  nt_exclusive_minimum : bool;
  nt_exclusive_maximum : bool;
  nt_minimum : option Q;
  nt_maximum : option Q;
  nt_enumeration : list (option Q) }.

(** openapiv3::IntegerType, i64 fields (to_schema.rs:179-187). *)
Record integer_type := IntegerType {
  it_format : variant_or integer_format;
  it_multiple_of : option Z;
  it_exclusive_minimum : bool;
  it_exclusive_maximum : bool;
  it_minimum : option Z;
  it_maximum : option Z;
  it_enumeration : list (option Z) }.

(** openapiv3::AdditionalProperties (to_schema.rs:791-798). *)
Inductive additional (S : Type) := ApAny (b : bool) | ApSchema (s : ref_or S).
Arguments ApAny {S}.
Arguments ApSchema {S}.

(** openapiv3::ObjectType (to_schema.rs:216-222). *)
Record object_type (S : Type) := ObjectType {
  ot_properties : list (str * ref_or S);
  ot_required : list str;
  ot_additional : option (additional S);
  ot_min_properties : option N;
  ot_max_properties : option N }.
Arguments ObjectType {S}.
Arguments ot_properties {S}.
Arguments ot_required {S}.
Arguments ot_additional {S}.
Arguments ot_min_properties {S}.
Arguments ot_max_properties {S}.

(** openapiv3::ArrayType (to_schema.rs:239-244). *)
Record array_type (S : Type) := ArrayType {
  at_items : option (ref_or S);
  at_min_items : option N;
  at_max_items : option N;
  at_unique_items : bool }.
Arguments ArrayType {S}.
Arguments at_items {S}.
Arguments at_min_items {S}.
Arguments at_max_items {S}.
Arguments at_unique_items {S}.

(** openapiv3::AnySchema (to_schema.rs:408-433). *)
Record any_schema (S : Type) := AnySchema {
  an_typ : option str;
  an_pattern : option str;
  an_multiple_of : option Q;
  an_exclusive_minimum : option bool;
  an_exclusive_maximum : option bool;
  an_minimum : option Q;
  an_maximum : option Q;
  an_properties : list (str * ref_or S);
  an_required : list str;
  an_additional : option (additional S);
  an_min_properties : option N;
  an_max_properties : option N;
  an_items : option (ref_or S);
  an_min_items : option N;
  an_max_items : option N;
  an_unique_items : option bool;
  an_enumeration : list json;
  an_format : option str;
  an_min_length : option N;
  an_max_length : option N;
  an_one_of : list (ref_or S);
  an_all_of : list (ref_or S);
  an_any_of : list (ref_or S);
  an_not : option (ref_or S) }.
Arguments AnySchema {S}.
Arguments an_typ {S}.
Arguments an_pattern {S}.
Arguments an_multiple_of {S}.
Arguments an_exclusive_minimum {S}.
Arguments an_exclusive_maximum {S}.
Arguments an_minimum {S}.
Arguments an_maximum {S}.
Arguments an_properties {S}.
Arguments an_required {S}.
Arguments an_additional {S}.
Arguments an_min_properties {S}.
Arguments an_max_properties {S}.
Arguments an_items {S}.
Arguments an_min_items {S}.
Arguments an_max_items {S}.
Arguments an_unique_items {S}.
Arguments an_enumeration {S}.
Arguments an_format {S}.
Arguments an_min_length {S}.
Arguments an_max_length {S}.
Arguments an_one_of {S}.
Arguments an_all_of {S}.
Arguments an_any_of {S}.
Arguments an_not {S}.

(** openapiv3::SchemaKind and openapiv3::Type (to_schema.rs:123-408). *)
Inductive schema_kind (S : Type) :=
| SkString (t : string_type)
| SkNumber (t : number_type)
| SkInteger (t : integer_type)
| SkObject (t : object_type S)
| SkArray (t : array_type S)
| SkBoolean (enumeration : list (option bool))
| SkOneOf (l : list (ref_or S))
| SkAllOf (l : list (ref_or S))
| SkAnyOf (l : list (ref_or S))
| SkNot (s : ref_or S)
| SkAny (a : any_schema S).
Arguments SkString {S}.
Arguments SkNumber {S}.
Arguments SkInteger {S}.
Arguments SkObject {S}.
Arguments SkArray {S}.
Arguments SkBoolean {S}.
Arguments SkOneOf {S}.
Arguments SkAllOf {S}.
Arguments SkAnyOf {S}.
Arguments SkNot {S}.
Arguments SkAny {S}.

(** openapiv3::Schema (to_schema.rs:71-123). *)
Inductive schema := Schema (d : schema_data) (k : schema_kind schema).
(** openapiv3::Schema, field [schema_data] (to_schema.rs:107). *)
Definition s_data (s : schema) : schema_data := let '(Schema d _) := s in d.
(** openapiv3::Schema, field [schema_kind] (to_schema.rs:123). *)
Definition s_kind (s : schema) : schema_kind schema := let '(Schema _ k) := s in k.

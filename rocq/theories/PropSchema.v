(** Properties C44 to C47: the conversion of schemas. *)
From Coq Require Import QArith.
From Verif Require Import Base OasModel OpModel ToSchemaModel DoubleSpec SchemaSpec SchemaProofs SchemaMain SchemaCor
  SchemaAnn SchemaPanicSpec SchemaPanic SchemaNull
  SchemaWrapSpec SchemaWrap ExampleSchema.
Local Open Scope N_scope.

(** ** C44 *)

(** A value is valid for the converted schema exactly when the schema of the document accepts it, whatever
    the references, the patterns and the formats mean; of schemas all of whose parts are kept (lengths below
    2^32, integers that are doubles, [nullable] where it can be expressed). *)
Theorem C44_same_values_partial : forall refs matches format_ok s, all_kept refs matches format_ok s ->
  forall j, convert s = Ok j ->
  forall v, valid refs matches format_ok j v = accepts refs matches format_ok s v.
Proof. exact convert_kept. Qed.
Print Assumptions C44_same_values_partial.

(** An object of six properties, with references, a choice, a combination; one value it accepts and one it
    does not. *)
Example C44_ex : exists j, convert h_object = Ok j
  /\ all_kept h_refs h_matches h_format h_object
  /\ valid h_refs h_matches h_format j h_value = true
  /\ valid h_refs h_matches h_format j h_wrong = false
  /\ accepts h_refs h_matches h_format h_object h_value = true
  /\ accepts h_refs h_matches h_format h_object h_wrong = false.
Proof.
  eexists. split; [vm_compute; reflexivity|]. split; [exact h_kept|]. vm_compute. repeat split; reflexivity.
Qed.

(** A reference is converted to the same reference. *)
Theorem C44_references_partial : forall refs matches format_ok r j,
  (forall s, r = Item s -> all_kept refs matches format_ok s) -> to_schema r = Ok j ->
  forall v, valid refs matches format_ok j v = accepts_ref refs matches format_ok r v.
Proof. exact to_schema_kept. Qed.
Print Assumptions C44_references_partial.

Example C44_references_ex : exists j, to_schema (Ref (lit "#/components/schemas/Id")) = Ok j
  /\ valid h_refs h_matches h_format j (JStr (lit "x")) = true
  /\ valid h_refs h_matches h_format j (JNum 1) = false.
Proof. eexists. split; [reflexivity|]. split; reflexivity. Qed.

(** With references among the schemas of a document, recursive ones included: a meaning of the references is
    one the document gives them exactly when it is one the converted schemas give them. *)
Theorem C44_documents_partial : forall refs matches format_ok prefix defs jdefs,
  (forall name s, In (name, Item s) defs -> all_kept refs matches format_ok s) ->
  Forall2 (fun nd nj => fst nd = fst nj /\ to_schema (snd nd) = Ok (snd nj)) defs jdefs ->
  (meant_by_document refs matches format_ok prefix defs
   <-> meant_by_converted refs matches format_ok prefix jdefs).
Proof. exact documents_agree. Qed.
Print Assumptions C44_documents_partial.

(** [Id] refers to [Name], a string. *)
Example C44_documents_ex :
  meant_by_document (fun _ => has_type IString) h_matches h_format (lit "#/")
    [(lit "Id", Ref (lit "#/Name")); (lit "Name", Item (Schema plain_data
       (SkString (StringType VEmpty None [] None None))))]
  /\ all_kept (fun _ => has_type IString) h_matches h_format
       (Schema plain_data (SkString (StringType VEmpty None [] None None))).
Proof.
  split.
  - intros n r [E|[E|[]]] v; injection E as <- <-; destruct v; reflexivity.
  - intros t H. inversion H as [|? u Hu]; subst; [|destruct Hu].
    repeat split; try (intros ? []); [constructor|discriminate].
Qed.

(** The conversion of a schema ends, without a panic, exactly when every type in it is one of the six and
    every exclusive flag comes with its bound. *)
Theorem C44_converted : forall s,
  (exists j, convert s = Ok j) <-> forall t, nested t s -> translatable (s_kind t).
Proof. exact convert_total. Qed.
Print Assumptions C44_converted.

(** A property of the type [null] is a panic. *)
Example C44_converted_ex : convert h_null_type = Panic (lit "not yet implemented: invalid type: null")
  /\ exists j, convert h_object = Ok j.
Proof. split; [reflexivity|]. eexists. vm_compute. reflexivity. Qed.

(** ... and what is said otherwise: one of the schemas in it has an exclusive bound that is missing or an unknown type. *)
Theorem C44_panics : forall s m, convert s = Panic m -> exists t, nested t s /\ refusal (s_kind t) m.
Proof. exact convert_panic. Qed.
Print Assumptions C44_panics.

Example C44_panics_ex : convert h_null_type = Panic (lit "not yet implemented: invalid type: null").
Proof. reflexivity. Qed.

(** A string of 2^32 characters and more: every string is valid. *)
Theorem C44_lengths_refuted : forall refs matches format_ok, exists s j v, convert s = Ok j
  /\ valid refs matches format_ok j v = true /\ accepts refs matches format_ok s v = false.
Proof. intros. exists h_long. eexists. exists (JStr []). repeat split; reflexivity. Qed.
Print Assumptions C44_lengths_refuted.

(** At most 2^53 + 1: that number is not valid. *)
Theorem C44_integers_refuted : forall refs matches format_ok, exists s j v, convert s = Ok j
  /\ valid refs matches format_ok j v = false /\ accepts refs matches format_ok s v = true.
Proof. intros. exists h_large. eexists. exists (JNum (inject_Z (2 ^ 53 + 1))). repeat split; reflexivity. Qed.
Print Assumptions C44_integers_refuted.

(** ** C45 *)

(** Title, description, default, deprecation, read-only and write-only flags, example and extensions are
    those of the schema.  So is the format; in a choice between null and the schema it is on the latter. *)
Theorem C45_annotations : forall d k j, convert (Schema d k) = Ok j -> NoDup (map fst (sd_extensions d)) ->
  exists o, j = JsObject o
    /\ annotations o = Metadata (sd_title d) (sd_description d) (sd_default d) (sd_deprecated d)
                         (sd_read_only d) (sd_write_only d) (optional (sd_example d))
    /\ (forall n, assoc n (so_extensions o) = assoc n (sd_extensions d))
    /\ (becomes_choice (Schema d k) = false -> so_format o = document_format k)
    /\ (becomes_choice (Schema d k) = true ->
        exists i, second_choice o = Some i /\ so_format i = document_format k).
Proof. exact annotations_kept. Qed.
Print Assumptions C45_annotations.

Example C45_ex : exists o i, convert h_both = Ok (JsObject o)
  /\ becomes_choice h_both = true /\ m_title (annotations o) = Some (lit "A title")
  /\ so_extensions o = [(lit "x-one", JNum 1); (lit "x-two", JBool true)]
  /\ second_choice o = Some i /\ so_format i = Some (lit "odd").
Proof. eexists. eexists. split; [vm_compute; reflexivity|]. repeat split; reflexivity. Qed.

Example C45_flat_ex : exists o, convert h_name = Ok (JsObject o)
  /\ becomes_choice h_name = false /\ so_format o = Some (lit "date").
Proof. eexists. split; [vm_compute; reflexivity|]. split; reflexivity. Qed.

(** ** C46 *)

(** A nullable schema is converted to one that accepts null and what the schema converted without [nullable]
    accepts: when an enumeration lists null, a combination does not accept null already, and a schema
    without type has no keyword for strings, numbers, objects or arrays. *)
Theorem C46_adds_null_partial : forall refs matches format_ok d k j j' j'', sd_nullable d = true ->
  convert (Schema d k) = Ok j -> convert (Schema (not_nullable d) k) = Ok j' ->
  convert (Schema plain_data (no_type k)) = Ok j'' ->
  null_addable k (valid refs matches format_ok j' JNull) (valid refs matches format_ok j'' JNull) ->
  forall v, valid refs matches format_ok j v = is_null v || valid refs matches format_ok j' v.
Proof. exact nullable_adds_null. Qed.
Print Assumptions C46_adds_null_partial.

Example C46_ex : exists j j', convert h_choice = Ok j
  /\ convert (Schema (not_nullable (s_data h_choice)) (s_kind h_choice)) = Ok j'
  /\ null_addable (s_kind h_choice) (valid h_refs h_matches h_format j' JNull) true
  /\ valid h_refs h_matches h_format j JNull = true
  /\ valid h_refs h_matches h_format j (JArr [JNum 1; JNum 2]) = true
  /\ valid h_refs h_matches h_format j (JArr [JNum 1; JNum 1]) = false.
Proof.
  eexists. eexists. split; [vm_compute; reflexivity|]. split; [vm_compute; reflexivity|].
  vm_compute. repeat split; reflexivity.
Qed.

Example C46_typed_ex : exists j j' j'', convert h_sized = Ok j
  /\ convert (Schema (not_nullable (s_data h_sized)) (s_kind h_sized)) = Ok j'
  /\ convert (Schema plain_data (no_type (s_kind h_sized))) = Ok j''
  /\ null_addable (s_kind h_sized) (valid h_refs h_matches h_format j' JNull)
       (valid h_refs h_matches h_format j'' JNull)
  /\ valid h_refs h_matches h_format j JNull = true
  /\ valid h_refs h_matches h_format j (JStr (lit "abc")) = true
  /\ valid h_refs h_matches h_format j (JStr (lit "a")) = false.
Proof.
  eexists. eexists. eexists. do 3 (split; [vm_compute; reflexivity|]).
  vm_compute. repeat split; reflexivity.
Qed.

(** Of schemas with a type and of combinations, this is exact: the converted schema accepts null besides what
    it accepted if and only if the enumeration lists null, the combination does not accept null already, and
    null is accepted when the type of a schema with other keywords is taken away. *)
Theorem C46_adds_null_iff : forall refs matches format_ok d k j j' j'', sd_nullable d = true ->
  (forall a, k = SkAny a -> an_typ a <> None) ->
  convert (Schema d k) = Ok j -> convert (Schema (not_nullable d) k) = Ok j' ->
  convert (Schema plain_data (no_type k)) = Ok j'' ->
  (forall v, valid refs matches format_ok j v = is_null v || valid refs matches format_ok j' v)
  <-> null_addable k (valid refs matches format_ok j' JNull) (valid refs matches format_ok j'' JNull).
Proof. exact adds_null_iff. Qed.
Print Assumptions C46_adds_null_iff.

Example C46_adds_null_iff_ex : exists j j' j'', convert h_sized = Ok j
  /\ (forall a, s_kind h_sized = SkAny a -> an_typ a <> None)
  /\ convert (Schema (not_nullable (s_data h_sized)) (s_kind h_sized)) = Ok j'
  /\ convert (Schema plain_data (no_type (s_kind h_sized))) = Ok j''
  /\ valid h_refs h_matches h_format j' JNull = false
  /\ valid h_refs h_matches h_format j'' JNull = true.
Proof.
  eexists. eexists. eexists. split; [vm_compute; reflexivity|].
  split; [intros a [= <-]; discriminate|].
  do 2 (split; [vm_compute; reflexivity|]). vm_compute. auto.
Qed.

(** What a nullable schema without type is converted to: with keywords, or with nothing to combine, what the
    schema converted without [nullable] accepts is cut down to null, the objects if a keyword is about
    objects, and the arrays if a keyword is about arrays, numbers or strings; otherwise null is accepted
    exactly when it was not. *)
Theorem C46_untyped : forall refs matches format_ok d d' a j j',
  sd_nullable d = true -> sd_nullable d' = false -> an_typ a = None ->
  only_lists a = false \/ an_enumeration a <> [] /\ an_enumeration a <> [JNull] ->
  convert (Schema d (SkAny a)) = Ok j -> convert (Schema d' (SkAny a)) = Ok j' ->
  forall v, valid refs matches format_ok j v =
    (if value_keywords a || negb (combines a)
     then (object_keywords a && has_type IObject v
           || (array_keywords a || number_keywords a || string_keywords a) && has_type IArray v
           || is_null v) && valid refs matches format_ok j' v
     else xorb (is_null v) (valid refs matches format_ok j' v)).
Proof. exact untyped_nullable. Qed.
Print Assumptions C46_untyped.

Example C46_untyped_ex : exists a j, h_untyped true = Schema (s_data (h_untyped true)) (SkAny a)
  /\ only_lists a = false /\ an_typ a = None /\ convert (h_untyped true) = Ok j
  /\ valid h_refs h_matches h_format j JNull = true.
Proof. eexists. eexists. repeat split; reflexivity. Qed.

(** A least length makes a nullable schema accept no string. *)
Theorem C46_keywords_refuted : forall refs matches format_ok, exists j j',
  convert (h_untyped true) = Ok j /\ convert (h_untyped false) = Ok j'
  /\ valid refs matches format_ok j (JStr (lit "a")) = false
  /\ valid refs matches format_ok j' (JStr (lit "a")) = true
  /\ valid refs matches format_ok j (JArr []) = true.
Proof. intros. eexists. eexists. repeat split; reflexivity. Qed.
Print Assumptions C46_keywords_refuted.

(** A nullable enumeration of strings that does not list null does not accept null. *)
Theorem C46_enumeration_refuted : forall refs matches format_ok, exists j,
  convert (h_listed true) = Ok j /\ sd_nullable (s_data (h_listed true)) = true
  /\ valid refs matches format_ok j JNull = false.
Proof. intros. eexists. repeat split; reflexivity. Qed.
Print Assumptions C46_enumeration_refuted.

(** A nullable enumeration without type accepts none of its values but null. *)
Theorem C46_untyped_enumeration_refuted : forall refs matches format_ok, exists j j',
  convert (h_values true) = Ok j /\ convert (h_values false) = Ok j'
  /\ valid refs matches format_ok j (JStr (lit "a")) = false
  /\ valid refs matches format_ok j' (JStr (lit "a")) = true.
Proof. intros. eexists. eexists. repeat split; reflexivity. Qed.
Print Assumptions C46_untyped_enumeration_refuted.

(** A nullable choice, an alternative of which accepts null, does not accept null. *)
Theorem C46_choice_refuted : forall refs matches format_ok, exists j j',
  convert (h_twice true) = Ok j /\ convert (h_twice false) = Ok j'
  /\ valid refs matches format_ok j JNull = false /\ valid refs matches format_ok j' JNull = true.
Proof. intros. eexists. eexists. repeat split; reflexivity. Qed.
Print Assumptions C46_choice_refuted.

(** ** C47 *)

(** The length bounds of a converted schema are those of the schema exactly when they are below 2^32. *)
Theorem C47_string_lengths_partial : forall d t o, convert (Schema d (SkString t)) = Ok (JsObject o) ->
  (string_bounds o = (st_min_length t, st_max_length t)
   <-> forall n, In n (length_bounds (SkString t)) -> n < 2 ^ 32).
Proof. exact string_lengths. Qed.
Print Assumptions C47_string_lengths_partial.

Theorem C47_array_lengths_partial : forall d t o, convert (Schema d (SkArray t)) = Ok (JsObject o) ->
  (array_bounds o = (at_min_items t, at_max_items t)
   <-> forall n, In n (length_bounds (SkArray t)) -> n < 2 ^ 32).
Proof. exact array_lengths. Qed.
Print Assumptions C47_array_lengths_partial.

Theorem C47_object_lengths_partial : forall d t o, convert (Schema d (SkObject t)) = Ok (JsObject o) ->
  (object_bounds o = (ot_min_properties t, ot_max_properties t)
   <-> forall n, In n (length_bounds (SkObject t)) -> n < 2 ^ 32).
Proof. exact object_lengths. Qed.
Print Assumptions C47_object_lengths_partial.

Theorem C47_any_lengths_partial : forall d a o, convert (Schema d (SkAny a)) = Ok (JsObject o) ->
  (string_bounds o = (an_min_length a, an_max_length a)
   /\ object_bounds o = (an_min_properties a, an_max_properties a)
   /\ array_bounds o = (an_min_items a, an_max_items a)
   <-> forall n, In n (length_bounds (SkAny a)) -> n < 2 ^ 32).
Proof. exact any_lengths. Qed.
Print Assumptions C47_any_lengths_partial.

Example C47_lengths_ex : exists o o' o'', convert h_name = Ok (JsObject o)
  /\ string_bounds o = (Some 1, Some 63)
  /\ convert h_object = Ok (JsObject o') /\ object_bounds o' = (Some 1, Some 7)
  /\ convert h_sized = Ok (JsObject o'') /\ string_bounds o'' = (Some 2, Some 5).
Proof.
  do 3 eexists. split; [vm_compute; reflexivity|]. split; [reflexivity|].
  split; [vm_compute; reflexivity|]. split; [reflexivity|]. split; [vm_compute; reflexivity|]. reflexivity.
Qed.

Theorem C47_lengths_refuted : exists o, convert h_long = Ok (JsObject o)
  /\ string_bounds o = (Some 0, None) /\ length_bounds (s_kind h_long) = [4294967296].
Proof. eexists. repeat split; reflexivity. Qed.
Print Assumptions C47_lengths_refuted.

(** Of any other length the low 32 bits are left; a bound that is given stays given, and a schema gets no bound it
    does not have. *)
Theorem C47_lengths_cut : forall d k o, convert (Schema d k) = Ok (JsObject o) ->
  Forall2 cut (given_lengths k) (kept_lengths o).
Proof. exact lengths_cut. Qed.
Print Assumptions C47_lengths_cut.

Example C47_lengths_cut_ex : exists o o', convert h_long = Ok (JsObject o)
  /\ kept_lengths o = [Some 0; None; None; None; None; None]
  /\ convert h_object = Ok (JsObject o') /\ kept_lengths o' = [None; None; Some 1; Some 7; None; None].
Proof.
  do 2 eexists. split; [vm_compute; reflexivity|]. split; [reflexivity|].
  split; [vm_compute; reflexivity|]. reflexivity.
Qed.

(** The integer bounds of a schema are the bounds of the converted schema, exclusive ones as exclusive, exactly when they
    are doubles. *)
Theorem C47_integers_iff : forall d t o, convert (Schema d (SkInteger t)) = Ok (JsObject o) ->
  (number_bounds o =
    NumberValidation (option_map inject_Z (it_multiple_of t))
      (if it_exclusive_maximum t then None else option_map inject_Z (it_maximum t))
      (if it_exclusive_maximum t then option_map inject_Z (it_maximum t) else None)
      (if it_exclusive_minimum t then None else option_map inject_Z (it_minimum t))
      (if it_exclusive_minimum t then option_map inject_Z (it_minimum t) else None)
   <-> forall z, In z (integer_bounds (SkInteger t)) -> double z).
Proof. exact integer_bounds_iff. Qed.
Print Assumptions C47_integers_iff.

(** Any other becomes the nearest double, which is off by at most one part in 2^53. *)
Theorem C47_integers_nearest : forall d t o, convert (Schema d (SkInteger t)) = Ok (JsObject o) ->
  forall z, In z (integer_bounds (SkInteger t)) ->
  exists f : Z, nearest_double z f /\ (Z.abs (f - z) * 2 ^ 53 <= Z.abs z)%Z
    /\ (it_multiple_of t = Some z -> nv_multiple_of (number_bounds o) = Some (inject_Z f))
    /\ (it_minimum t = Some z ->
        (if it_exclusive_minimum t then nv_exclusive_minimum (number_bounds o)
         else nv_minimum (number_bounds o)) = Some (inject_Z f))
    /\ (it_maximum t = Some z ->
        (if it_exclusive_maximum t then nv_exclusive_maximum (number_bounds o)
         else nv_maximum (number_bounds o)) = Some (inject_Z f)).
Proof. exact integer_bounds_nearest. Qed.
Print Assumptions C47_integers_nearest.

Example C47_integers_ex : exists o, convert h_count = Ok (JsObject o)
  /\ integer_bounds (s_kind h_count) = [1; 4611686018427387904]%Z
  /\ number_bounds o = NumberValidation None None (Some (inject_Z 4611686018427387904)) (Some (inject_Z 1)) None.
Proof. eexists. split; [vm_compute; reflexivity|]. split; reflexivity. Qed.

Theorem C47_integers_refuted : exists o, convert h_large = Ok (JsObject o)
  /\ integer_bounds (s_kind h_large) = [9007199254740993]%Z
  /\ nv_maximum (number_bounds o) = Some (inject_Z 9007199254740992).
Proof. eexists. repeat split; reflexivity. Qed.
Print Assumptions C47_integers_refuted.

(** The bounds of numbers are kept as they are. *)
Theorem C47_numbers : forall d t o, convert (Schema d (SkNumber t)) = Ok (JsObject o) ->
  number_bounds o =
    NumberValidation (nt_multiple_of t)
      (if nt_exclusive_maximum t then None else nt_maximum t)
      (if nt_exclusive_maximum t then nt_maximum t else None)
      (if nt_exclusive_minimum t then None else nt_minimum t)
      (if nt_exclusive_minimum t then nt_minimum t else None).
Proof. exact number_bounds_kept. Qed.
Print Assumptions C47_numbers.

Example C47_numbers_ex : exists o, convert (Schema plain_data
    (SkNumber (NumberType VEmpty None true false (Some (1 # 2)%Q) (Some 3%Q) []))) = Ok (JsObject o)
  /\ number_bounds o = NumberValidation None (Some 3%Q) None None (Some (1 # 2)%Q).
Proof. eexists. split; reflexivity. Qed.

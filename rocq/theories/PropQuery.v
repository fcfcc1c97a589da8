(** Properties C08-C12: query parameters. *)
From Verif Require Import Base Utf8 Dec SerdeModel QuerySpec QueryProofs.

(** C08: a scalar contributes exactly the pair (API name, text). *)
Theorem C08_scalar_one_pair : forall name v t,
  scalar_text v t -> query_param name v = Some [(name, t)].
Proof. exact scalar_query. Qed.
Print Assumptions C08_scalar_one_pair.

(** The text determines integers. *)
Theorem C08_integer_text_injective : forall a b, dec_Z a = dec_Z b -> a = b.
Proof. exact dec_Z_inj. Qed.
Print Assumptions C08_integer_text_injective.

Example C08_ex :
  scalar_text (VInt (-42)) (lit "-42") /\
  query_param (lit "n") (VInt (-42)) = Some [(lit "n", lit "-42")] /\
  scalar_text (VUnitVariant (lit "Color") (lit "red")) (lit "red").
Proof. split; [apply (st_int (-42))|]. split; [reflexivity|constructor]. Qed.

(** C08 does not extend to scalars wrapped in a serde newtype struct (types
    not marked transparent): those are refused. *)
Theorem C08_newtype_scalar_refuted :
  exists n v t name, scalar_text v t /\ query_param name (VNewtypeStruct n v) = None.
Proof. exact newtype_scalar_refused. Qed.
Print Assumptions C08_newtype_scalar_refuted.

(** C09: options. *)
Theorem C09_absent_contributes_nothing : forall name n,
  query_param name (Nat.iter n VSome VNone) = Some [].
Proof. exact absent_query. Qed.
Print Assumptions C09_absent_contributes_nothing.

Theorem C09_present_is_bare_value : forall name n v,
  query_param name (Nat.iter n VSome v) = query_param name v.
Proof. exact present_query. Qed.
Print Assumptions C09_present_is_bare_value.

Example C09_ex :
  query_param (lit "limit") (VSome (VSome (VInt 7))) = Some [(lit "limit", lit "7")] /\
  query_param (lit "limit") (VSome VNone) = Some [].
Proof. split; reflexivity. Qed.

(** C10: the form/explode encoding is what is produced, for every value that
    has one (arrays, objects, maps, oneOf variants included). *)
Theorem C10_form_explode : forall name v ps,
  form_explode name v ps -> query_param name v = Some ps.
Proof. exact form_explode_sound. Qed.
Print Assumptions C10_form_explode.

Theorem C10_array_in_order : forall name vs ts,
  Forall2 scalar_text vs ts ->
  query_param name (VSeq vs) = Some (map (fun t => (name, t)) ts).
Proof. exact array_query. Qed.
Print Assumptions C10_array_in_order.

Theorem C10_object_by_field : forall name n fs ts,
  Forall2 scalar_text (map snd fs) ts ->
  query_param name (VStruct n fs) = Some (combine (map fst fs) ts).
Proof. exact object_query. Qed.
Print Assumptions C10_object_by_field.

Example C10_ex :
  query_param (lit "tag") (VSeq [VStr (lit "b"); VStr (lit "a"); VStr (lit "b")])
    = Some [(lit "tag", lit "b"); (lit "tag", lit "a"); (lit "tag", lit "b")] /\
  query_param (lit "q") (VStruct (lit "Point") [(lit "x", VInt 1); (lit "y", VNone)])
    = Some [(lit "x", lit "1")].
Proof. split; reflexivity. Qed.

(** C11: a value is accepted exactly when it has a form/explode encoding or is
    one of the listed name-ignoring shapes (units, tuples of pairs, newtypes);
    everything else is refused. *)
Theorem C11_accepted_iff : forall name v ps,
  query_param name v = Some ps <-> form_explode name v ps \/ odd_form name v ps.
Proof. exact query_param_iff. Qed.
Print Assumptions C11_accepted_iff.

(** One unserialisable argument puts the whole request in error state, and
    nothing else does. *)
Theorem C11_error_iff_unserialisable : forall params,
  send_queries params = None <-> exists kv, In kv params /\ query_param (fst kv) (snd kv) = None.
Proof. exact send_queries_error. Qed.
Print Assumptions C11_error_iff_unserialisable.

Example C11_ex :
  query_param (lit "a") (VSeq [VSeq [VInt 1]]) = None /\
  query_param (lit "a") (VTuple [VInt 1; VInt 2; VInt 3]) = None /\
  query_param (lit "a") (VStruct (lit "S") [(lit "f", VStruct (lit "T") [])]) = None.
Proof. repeat split; reflexivity. Qed.

(** C12: the query string decodes to the concatenation of the parameters'
    pairs. *)
Theorem C12_query_string_decodes : forall params pss,
  Forall2 (fun kv p => query_param (fst kv) (snd kv) = Some p) params pss ->
  Forall (Forall (fun p => valid_str (fst p) /\ valid_str (snd p))) pss ->
  exists q, send_queries params = Some q /\ form_decode q = Some (concat pss).
Proof. exact send_queries_decode. Qed.
Print Assumptions C12_query_string_decodes.

Example C12_ex :
  send_queries [(lit "a&b", VStr (lit "x=y&z %+")); (lit "n", VNone); (lit "l", VSeq [VInt 1; VInt 2])]
    = Some (Some (lit "a%26b=x%3Dy%26z+%25%2B&l=1&l=2")) /\
  send_queries [(lit "n", VNone)] = Some None.
Proof. split; reflexivity. Qed.

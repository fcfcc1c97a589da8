(** The serde data model, serde_urlencoded 0.7.1 and [QueryParam]
    (progenitor-client/src/progenitor_client.rs:447-664). *)
From Verif Require Import Base Utf8 Dec EncodeModel.

(** A value as seen by a serde [Serializer]: one constructor per method of
    the trait (https://serde.rs/data-model.html; the thirteen integer methods
    are merged, a float carries its text, 128-bit integers are left out). *)
Inductive sval :=
| VBool (b : bool)
| VInt (z : Z)
| VFloat (text : str)
| VChar (c : char)
| VStr (s : str)
| VBytes (bs : list N)
| VNone
| VSome (v : sval)
| VUnit
| VUnitStruct (name : str)
| VUnitVariant (name variant : str)
| VNewtypeStruct (name : str) (v : sval)
| VNewtypeVariant (name variant : str) (v : sval)
| VSeq (vs : list sval)
| VTuple (vs : list sval)
| VTupleStruct (name : str) (vs : list sval)
| VTupleVariant (name variant : str) (vs : list sval)
| VMap (kvs : list (sval * sval))
| VStruct (name : str) (fields : list (str * sval))
| VStructVariant (name variant : str) (fields : list (str * sval)).

(** serde_urlencoded ser/part.rs [serialize_bool] (called through method.rs:1096). *)
Definition bool_text (b : bool) : str := if b then lit "true" else lit "false".

(** serde_urlencoded ser/part.rs with the sink of ser/value.rs: [None] is an
    error, [Some None] writes nothing ([ValueSink::serialize_none]), [Some
    (Some t)] writes the text [t] (called through progenitor_client.rs:433-445 and method.rs:1096). *)
Fixpoint value_part (v : sval) : option (option str) :=
  match v with
  | VBool b => Some (Some (bool_text b))
  | VInt z => Some (Some (dec_Z z))
  | VFloat t => Some (Some t)
  | VChar c => Some (Some [c])
  | VStr s => Some (Some s)
  | VBytes bs => match from_utf8 bs with Some s => Some (Some s) | None => None end
  | VNone => Some None
  | VSome w => value_part w
  | VUnitStruct name => Some (Some name)
  | VUnitVariant _ variant => Some (Some variant)
  | VNewtypeStruct _ w => value_part w
  | _ => None
  end.

(** serde_urlencoded ser/part.rs with the sink of ser/key.rs (options are not
    keys) (called through progenitor_client.rs:433-445 and method.rs:1096). *)
Fixpoint key_part (v : sval) : option str :=
  match v with
  | VBool b => Some (bool_text b)
  | VInt z => Some (dec_Z z)
  | VFloat t => Some t
  | VChar c => Some [c]
  | VStr s => Some s
  | VBytes bs => from_utf8 bs
  | VUnitStruct name => Some name
  | VUnitVariant _ variant => Some variant
  | VNewtypeStruct _ w => key_part w
  | _ => None
  end.

(** Called through progenitor_client.rs:433-445 and method.rs:1096. *)
Notation kvpair := (prod (list N) (list N)) (only parsing).

(** Writing one key/value entry (called through progenitor_client.rs:433-445 and method.rs:1096). *)
Definition entry (k : option str) (v : option (option str)) : option (list kvpair) :=
  match k, v with
  | Some k, Some (Some t) => Some [(k, t)]
  | Some _, Some None => Some []
  | _, _ => None
  end.

(** serde_urlencoded ser/pair.rs (called through progenitor_client.rs:433-445 and method.rs:1096). *)
Fixpoint pair_part (v : sval) : option (list kvpair) :=
  match v with
  | VNone => Some []
  | VSome w => pair_part w
  | VNewtypeStruct _ w => pair_part w
  | VTuple [k; w] => entry (key_part k) (value_part w)
  | _ => None
  end.

(** Called through progenitor_client.rs:433-445 and method.rs:1096. *)
Fixpoint concat_opt {A} (l : list (option (list A))) : option (list A) :=
  match l with
  | [] => Some []
  | x :: r =>
      match x, concat_opt r with
      | Some a, Some b => Some (a ++ b)
      | _, _ => None
      end
  end.

(** serde_urlencoded ser/mod.rs, [Serializer]: the pairs handed to
    [form_urlencoded::Serializer::append_pair], or an error
    (called through progenitor_client.rs:433-445 and method.rs:1096). *)
Fixpoint urlencoded (v : sval) : option (list kvpair) :=
  match v with
  | VUnit | VUnitStruct _ | VNone => Some []
  | VSome w => urlencoded w
  | VNewtypeStruct _ w => urlencoded w
  | VSeq vs | VTuple vs => concat_opt (map pair_part vs)
  | VMap kvs => concat_opt (map (fun kv => entry (key_part (fst kv)) (value_part (snd kv))) kvs)
  | VStruct _ fs => concat_opt (map (fun kv => entry (Some (fst kv)) (value_part (snd kv))) fs)
  | _ => None
  end.

(** progenitor_client.rs:475-637, [QuerySerializer]: serializing [v] through
    it is serializing another value with the inner serializer [inner].
    [(&str, T)] serializes as a tuple of length two and [T; 1] as a tuple of
    length one.  640-664, [QuerySeq], is the [VSeq] case. *)
Fixpoint query_serializer {R} (inner : sval -> R) (name : str) (v : sval) : R :=
  let scalar v := inner (VTuple [VTuple [VStr name; v]]) in
  match v with
  | VBool _ | VInt _ | VFloat _ | VChar _ | VStr _ => scalar v     (* 502-514, 480-486 *)
  | VBytes _ => inner v                                            (* 516-518 *)
  | VNone => inner v                                               (* 520-522 *)
  | VSome w => query_serializer inner name w                       (* 524-531 *)
  | VUnit => inner v                                               (* 533-535 *)
  | VUnitStruct _ => inner v                                       (* 537-539 *)
  | VUnitVariant _ variant => scalar (VStr variant)                (* 541-551 *)
  | VNewtypeStruct _ _ => inner v                                  (* 553-562 *)
  | VNewtypeVariant n variant w => inner (VStruct n [(variant, w)]) (* 564-582 *)
  | VSeq vs => inner (VSeq (map (fun e => VTuple [VStr name; e]) vs)) (* 584-590, 653-659 *)
  | VTuple _ => inner v                                            (* 592-594 *)
  | VTupleStruct _ _ => inner v                                    (* 596-602 *)
  | VTupleVariant _ _ _ => inner v                                 (* 604-613 *)
  | VMap _ => inner v                                              (* 615-617 *)
  | VStruct _ _ => inner v                                         (* 619-625 *)
  | VStructVariant _ _ _ => inner v                                (* 627-636 *)
  end.

(** progenitor_client.rs:459-473: the pairs contributed by
    [.query(&QueryParam::new(name, &v))]. *)
Definition query_param (name : str) (v : sval) : option (list kvpair) :=
  query_serializer urlencoded name v.

(** form_urlencoded::byte_serialized_unchanged
    (called through progenitor_client.rs:433-445 and method.rs:1096). *)
Definition byte_unchanged (b : N) : bool :=
  ((b =? ch "*") || (b =? ch "-") || (b =? ch ".") || ((48 <=? b) && (b <=? 57))
   || ((65 <=? b) && (b <=? 90)) || (b =? ch "_") || ((97 <=? b) && (b <=? 122)))%N.

(** form_urlencoded::byte_serialize (called through progenitor_client.rs:433-445 and method.rs:1096). *)
Definition byte_serialize (bs : list N) : str :=
  flat_map (fun b => if byte_unchanged b then [b]
                     else if N.eqb b (ch " ") then [ch "+"]
                     else percent_encode_byte b) bs.

(** form_urlencoded::append_pair on a target that holds only the query
    (called through progenitor_client.rs:433-445 and method.rs:1096). *)
Definition append_pair (target : str) (p : kvpair) : str :=
  (match target with [] => [] | _ => target ++ [ch "&"] end)
  ++ byte_serialize (utf8 (fst p)) ++ [ch "="] ++ byte_serialize (utf8 (snd p)).

(** Called through progenitor_client.rs:433-445 and method.rs:1096. *)
Definition append_pairs (target : str) (ps : list kvpair) : str := fold_left append_pair ps target.

(** reqwest::RequestBuilder::query on the query component of the URL: [None]
    for the result is a request in error state (method.rs:1096). *)
Definition request_query (q : option str) (pairs : option (list kvpair)) : option (option str) :=
  match pairs with
  | Some ps =>
      let q' := append_pairs (match q with Some s => s | None => [] end) ps in
      Some (match q' with [] => None | _ => Some q' end)
  | None => None
  end.

(** serde_urlencoded::to_string, used by [form_urlencoded]
    (progenitor_client.rs:441). *)
Definition urlencoded_to_string (v : sval) : option str :=
  option_map (append_pairs []) (urlencoded v).

(** progenitor-impl/src/method.rs:785-798 and 1096: the chain of
    [.query(&QueryParam::new(api_name, &arg))] calls, one per query parameter,
    on a URL without query. *)
Definition send_queries (params : list (str * sval)) : option (option str) :=
  fold_left (fun q kv => match q with
                         | Some q => request_query q (query_param (fst kv) (snd kv))
                         | None => None
                         end) params (Some None).

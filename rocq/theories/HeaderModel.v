(** http 1.x header names, values and maps, as far as generated clients use
    them (progenitor-impl/src/method.rs:800-860, progenitor-client). *)
From Verif Require Import Base Utf8.
Local Open Scope N_scope.

(** http::header::name, the HEADER_CHARS table (called through method.rs:809-820): token characters, upper-case
    letters folded to lower case; [None] is the table's 0 entry. *)
Definition header_char (c : N) : option N :=
  if (65 <=? c) && (c <=? 90) then Some (c + 32)
  else if ((97 <=? c) && (c <=? 122)) || ((48 <=? c) && (c <=? 57))
          || existsb (N.eqb c) (lit "!#$%&'*+-.^_`|~")
  then Some c else None.

(** http::header::name, all characters of a name (called through method.rs:809-820). *)
Fixpoint header_chars (s : str) : option str :=
  match s with
  | [] => Some []
  | c :: r =>
      match header_char c, header_chars r with
      | Some x, Some y => Some (x :: y)
      | _, _ => None
      end
  end.

(** http::header::name::parse_hdr behind [HdrName::from_static] (called through method.rs:809-820): empty names
    and names longer than 65535 bytes are invalid. *)
Definition header_name (s : str) : option str :=
  match s with
  | [] => None
  | _ => if (65535 <? N.of_nat (List.length s)) then None else header_chars s
  end.

(** http::header::value::is_visible_ascii (called through progenitor_client.rs:161). *)
Definition is_visible_ascii (b : N) : bool := ((32 <=? b) && (b <? 127)) || (b =? 9).

(** http::header::value::is_valid (called through method.rs:811, 819). *)
Definition is_valid_value_byte (b : N) : bool := ((32 <=? b) && negb (b =? 127)) || (b =? 9).

(** [HeaderValue::try_from(String)] (method.rs:811 and 819). *)
Definition header_value (s : str) : option (list N) :=
  let bs := utf8 s in
  if forallb is_valid_value_byte bs then Some bs else None.

(** [HeaderValue::from_static]: panics ([None]) on invalid text
    (method.rs:835). *)
Definition header_value_static (s : str) : option (list N) :=
  if forallb is_visible_ascii (utf8 s) then Some (utf8 s) else None.

(** [HeaderValue::to_str] (progenitor_client.rs:161). *)
Definition header_to_str (v : list N) : option str :=
  if forallb is_visible_ascii v then Some v else None.

(** http::HeaderMap: names in insertion order, each with its values (method.rs:832). *)
Notation hmap := (list (prod (list N) (list (list N)))) (only parsing).

(** [HeaderMap::append] (method.rs:809, 817, 833). *)
Fixpoint h_append (name : str) (v : list N) (h : hmap) : hmap :=
  match h with
  | [] => [(name, [v])]
  | (n, vs) :: r => if str_eqb n name then (n, vs ++ [v]) :: r else (n, vs) :: h_append name v r
  end.

(** [HeaderMap::insert], and what reqwest::util::replace_headers does with all
    the values of one name: drop what was there, keep the new values (method.rs:842). *)
Fixpoint h_set (name : str) (vs : list (list N)) (h : hmap) : hmap :=
  match h with
  | [] => [(name, vs)]
  | (n, ws) :: r => if str_eqb n name then (n, vs) :: r else (n, ws) :: h_set name vs r
  end.

(** reqwest::util::replace_headers, used by [RequestBuilder::headers] (method.rs:842). *)
Definition h_replace (dst src : hmap) : hmap :=
  fold_left (fun d e => h_set (fst e) (snd e) d) src dst.

(** All values of a name ([HeaderMap::get_all]) (method.rs:842). *)
Definition h_values (name : str) (h : hmap) : list (list N) :=
  match assoc name h with Some vs => vs | None => [] end.

(** [HeaderMap::get]: the first value (progenitor_client.rs:160). *)
Definition h_get (name : str) (h : hmap) : option (list N) :=
  match h_values name h with v :: _ => Some v | [] => None end.

(** [HeaderMap::contains_key] (method.rs:910, [RequestBuilder::json]). *)
Definition h_contains (name : str) (h : hmap) : bool :=
  match assoc name h with Some _ => true | None => false end.

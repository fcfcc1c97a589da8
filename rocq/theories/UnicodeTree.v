(** Search trees for the character tables of UnicodeData.v. *)
From Verif Require Import Base.

(** The Unicode tables the code consults are static sorted arrays (unicode-ident's tries,
    core::unicode::unicode_data); here they are balanced trees (consulted through util.rs:52-118). *)
Inductive tree (A : Type) :=
| Leaf
| Node (l : tree A) (x : A) (r : tree A).
Arguments Leaf {A}.
Arguments Node {A} l x r.

(** Consulted through util.rs:52-118. *)
Fixpoint elements {A} (t : tree A) : list A :=
  match t with
  | Leaf => []
  | Node l x r => elements l ++ x :: elements r
  end.

(** Is [c] in one of the ranges (inclusive)? (consulted through util.rs:52-118). *)
Fixpoint in_ranges (t : tree (N * N)) (c : char) : bool :=
  match t with
  | Leaf => false
  | Node l (lo, hi) r =>
      if N.ltb c lo then in_ranges l c
      else if N.ltb hi c then in_ranges r c
      else true
  end.

(** The entry of [c], if any (consulted through util.rs:52-118). *)
Fixpoint entry (t : tree (N * list N)) (c : char) : option str :=
  match t with
  | Leaf => None
  | Node l (k, v) r =>
      match N.compare c k with
      | Lt => entry l c
      | Eq => Some v
      | Gt => entry r c
      end
  end.

(** Specification of path templates, independent of the parser: a template is
    a sequence of literal characters and named placeholders. *)
From Verif Require Import Base.

Inductive piece :=
| PLit (c : char)
| PVar (n : str).

(** The text of a sequence of pieces. *)
Definition show_piece (p : piece) : str :=
  match p with
  | PLit c => [c]
  | PVar n => [ch "{"] ++ n ++ [ch "}"]
  end.
Definition show (ps : list piece) : str := flat_map show_piece ps.

Definition name_ok (n : str) : Prop :=
  ~ In (ch "/") n /\ ~ In (ch "{") n /\ ~ In (ch "}") n.

(** The documented grammar: literals are not braces. *)
Definition strict_piece (p : piece) : Prop :=
  match p with
  | PLit c => c <> ch "{" /\ c <> ch "}"
  | PVar n => name_ok n
  end.
Definition strict (ps : list piece) : Prop :=
  (exists r, ps = PLit (ch "/") :: r) /\ Forall strict_piece ps.

(** The grammar actually accepted: a literal '}' is also allowed directly
    after a placeholder. *)
Fixpoint lax_from (after_var : bool) (ps : list piece) : Prop :=
  match ps with
  | [] => True
  | PLit c :: r => c <> ch "{" /\ (c = ch "}" -> after_var = true) /\ lax_from false r
  | PVar n :: r => name_ok n /\ lax_from true r
  end.
Definition lax (ps : list piece) : Prop :=
  (exists r, ps = PLit (ch "/") :: r) /\ lax_from false ps.

(** Collapsing runs of '/' in a text: drop every '/' that directly follows
    another '/'. *)
Fixpoint squeeze_from (after_slash : bool) (s : str) : str :=
  match s with
  | [] => []
  | c :: r =>
      if N.eqb c (ch "/") then
        if after_slash then squeeze_from true r else c :: squeeze_from true r
      else c :: squeeze_from false r
  end.
Definition squeeze (s : str) : str := squeeze_from false s.

(** The same on pieces. *)
Fixpoint squeeze_pieces (after_slash : bool) (ps : list piece) : list piece :=
  match ps with
  | [] => []
  | PVar n :: r => PVar n :: squeeze_pieces false r
  | PLit c :: r =>
      if N.eqb c (ch "/") then
        if after_slash then squeeze_pieces true r else PLit c :: squeeze_pieces true r
      else PLit c :: squeeze_pieces false r
  end.

(** Placeholder names in order. *)
Definition vars (ps : list piece) : list str :=
  flat_map (fun p => match p with PVar n => [n] | PLit _ => [] end) ps.

(** Replacing every placeholder by the value a valuation gives to its name. *)
Definition expand (val : str -> str) (ps : list piece) : str :=
  flat_map (fun p => match p with PVar n => val n | PLit c => [c] end) ps.

(** No literal closing brace. *)
Definition no_stray (ps : list piece) : Prop := ~ In (PLit (ch "}")) ps.

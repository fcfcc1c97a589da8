(** Dots in the templates and values of mocks. *)
From Verif Require Import Base TemplateModel TemplateSpec MockSpec.
Local Open Scope N_scope.

(** Characters that mean themselves in a regular expression, and dots. *)
Definition dotted_char (c : char) : Prop := plain_char c \/ c = ch ".".
Definition dotted_text (s : str) : Prop := Forall dotted_char s.
Definition dotted_template (ps : list piece) : Prop := forall c, In (PLit c) ps -> dotted_char c.

(** The same character, or anything but a newline where a dot is written. *)
Definition like (c x : char) : Prop := x = c \/ (c = ch "." /\ x <> 10).
Inductive like_piece : piece -> piece -> Prop :=
| lp_lit c x : like c x -> like_piece (PLit c) (PLit x)
| lp_var n : like_piece (PVar n) (PVar n).

(** The path expands a template that differs from this one where it has dots. *)
Definition near_expansion (ps : list piece) (path : str) : Prop :=
  exists val ps', slash_free ps val /\ Forall2 like_piece (squeeze_pieces false ps) ps' /\ path = expand val ps'.

(** The path expands the template with a value that differs from [v] where it has dots. *)
Definition near_value (ps : list piece) (n v : str) (path : str) : Prop :=
  exists val, slash_free ps val /\ Forall2 like v (val n) /\ path = expand val (squeeze_pieces false ps).

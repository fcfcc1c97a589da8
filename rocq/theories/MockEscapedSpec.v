(** Values written as regular expressions that mean one text. *)
From Verif Require Import Base.

(** The characters that [regex::escape] puts a backslash before. *)
Definition escaped_chars : str := lit "\.+*?()|[]{}^$#&-~".
Definition escaped (t : str) : str := flat_map (fun c => if existsb (N.eqb c) escaped_chars then [ch "\"; c] else [c]) t.

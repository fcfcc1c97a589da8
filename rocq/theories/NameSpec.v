(** The variables a generated method body introduces. *)
From Verif Require Import Base MethodModel.

(** The variable a statement declares. *)
Definition declares (s : stmt) : list str :=
  match s with
  | SLetUrl x _ | SLetRequest x _ _ _ | SLetExecute x _ | SLetTry x _ => [x]
  | SLetHeaders _ => [lit "header_map"]
  | _ => []
  end.
Definition declared (sb : sig_body) : list str := flat_map declares (sb_body sb).

(** [x] is [name] with [k] underscores in front. *)
Fixpoint underscores (k : nat) (name : str) : str :=
  match k with O => name | S k => ch "_" :: underscores k name end.

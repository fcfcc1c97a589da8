(** Doubles (IEEE 754, binary64). *)
From Coq Require Import ZArith.
Local Open Scope Z_scope.

(** The integers that are values of doubles.  The largest doubles are far beyond the range of [i64], so that the
    exponent is not bounded here. *)
Definition double (z : Z) : Prop := exists m e, 0 <= e /\ Z.abs m < 2 ^ 53 /\ z = m * 2 ^ e.

(** [f] is the double that stands for the integer [z]: none is nearer, and if another is equally near then [f] is the
    one with the even significand.  (Doubles that are not integers are less than 2^53, where every integer is one.) *)
Definition nearest_double (z f : Z) : Prop :=
  double f /\ (forall g, double g -> Z.abs (f - z) <= Z.abs (g - z))
  /\ forall g, double g -> g <> f -> Z.abs (g - z) = Z.abs (f - z) ->
       exists k e, 0 <= e /\ 2 ^ 52 <= Z.abs (2 * k) < 2 ^ 53 /\ f = 2 * k * 2 ^ e.

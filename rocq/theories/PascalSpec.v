(** Texts that are in Pascal case already. *)
From Verif Require Import Base SanitizeModel SanitizeSpec.

(** They begin with a capital letter or a digit, and any other capital letter starts a word ([word_starts]): the last cased letter before it is
    a lower case one, or it is between a capital and a lower case letter. *)
Definition pascal_settled (U : unicode) (t : str) : Prop :=
  (forall c r, t = c :: r -> lowercase U c = false)
  /\ forall before c after, t = before ++ c :: after -> before <> [] -> uppercase U c = true -> word_starts U before c after.

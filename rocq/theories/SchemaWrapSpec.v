(** What becomes of lengths that do not fit 32 bits, for C47. *)
From Verif Require Import Base OasModel OpModel ToSchemaModel SchemaSpec.
Local Open Scope N_scope.

(** What is left of a number in 32 bits. *)
Definition low_bits (n r : N) : Prop := r < 2 ^ 32 /\ exists q, n = q * 2 ^ 32 + r.

(** A bound that is given stays given, and none is made up. *)
Inductive cut : option N -> option N -> Prop :=
  | cut_none : cut None None
  | cut_some n r : low_bits n r -> cut (Some n) (Some r).

(** The lengths a schema bounds: of strings, of objects, of arrays. *)
Definition given_lengths (k : schema_kind schema) : list (option N) :=
  match k with
  | SkString t => [st_min_length t; st_max_length t; None; None; None; None]
  | SkObject t => [None; None; ot_min_properties t; ot_max_properties t; None; None]
  | SkArray t => [None; None; None; None; at_min_items t; at_max_items t]
  | SkAny a => [an_min_length a; an_max_length a; an_min_properties a; an_max_properties a;
                an_min_items a; an_max_items a]
  | _ => [None; None; None; None; None; None]
  end.
(** The same of a converted schema. *)
Definition kept_lengths (o : schema_object jschema) : list (option N) :=
  [fst (string_bounds o); snd (string_bounds o); fst (object_bounds o); snd (object_bounds o);
   fst (array_bounds o); snd (array_bounds o)].

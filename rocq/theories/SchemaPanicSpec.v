(** What the conversion of a schema says when it gives up. *)
From Verif Require Import Base OasModel ToSchemaModel SchemaSpec.

(** Without a bound it cannot be exclusive, and types have to be known. *)
Inductive refusal : schema_kind schema -> str -> Prop :=
| Refuse_minimum a : an_minimum a = None -> an_exclusive_minimum a = Some true ->
    refusal (SkAny a) (lit "not yet implemented: exclusive_minimum set without minimum")
| Refuse_maximum a : an_maximum a = None -> an_exclusive_maximum a = Some true ->
    refusal (SkAny a) (lit "not yet implemented: exclusive_maximum set without maximum")
| Refuse_type a t : an_typ a = Some t -> ~ In t known_types ->
    refusal (SkAny a) (lit "not yet implemented: invalid type: " ++ t).

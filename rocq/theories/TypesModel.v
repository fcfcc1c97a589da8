(** typify behind the conversion of schemas: the oracles of OpModel.v and GenerateModel.v as the code
    builds them, from what typify does with JSON Schemas. *)
From Verif Require Import Base OasModel MethodModel OpModel ToSchemaModel.

(** A type space of typify after [add_ref_types] (lib.rs:320): the type it makes of a schema under a name
    ([add_type_with_name], method.rs:321, 347, 384, 469, 2126-2128), and what it says about a type
    ([get_type], method.rs:349).  Simplified: the same schema and name give the same type whenever they are
    added, and adding a type does not change others. *)
Record typify := Typify {
  ty_add : jschema -> str -> outcome type_id;
  ty_details : type_id -> option type_details }.

(** method.rs:315-321, 337-347, 374-384, 464-469, 2126-2128: the schema is converted, then added. *)
Definition space_of (ty : typify) : type_space :=
  TypeSpace (fun r n => do j <- to_schema r; ty_add ty j n) (ty_details ty).

(** lib.rs:312-320: the components are converted in their order and given to typify ([add_ref_types] gathers
    them all before it starts). *)
Definition add_converted (typify_refs : list (str * jschema) -> outcome typify)
    (schemas : list (str * ref_or schema)) : outcome type_space :=
  do js <- mapM (fun nr : str * ref_or schema => do j <- to_schema (snd nr); Ok (fst nr, j)) schemas;
  do ty <- typify_refs js;
  Ok (space_of ty).

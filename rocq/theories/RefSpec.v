(** What a component reference denotes: follow the last path segment through
    the component map until something that is not a reference. *)
From Verif Require Import Base OasModel OpModel.

(** [key] is the part of [reference] after its last '/'. *)
Definition last_segment (reference key : str) : Prop :=
  exists prefix, reference = prefix ++ ch "/" :: key /\ ~ In (ch "/") key.

Inductive resolves {A} (get : components -> list (str * ref_or A)) (comps : option components)
  : ref_or A -> A -> Prop :=
| res_item a : resolves get comps (Item a) a
| res_ref reference key c r a :
    comps = Some c -> last_segment reference key -> assoc key (get c) = Some r ->
    resolves get comps r a -> resolves get comps (Ref reference) a.

(** A reference from which some chain of references leads to an undefined
    component (or that names none). *)
Inductive dangles {A} (get : components -> list (str * ref_or A)) (comps : option components)
  : ref_or A -> Prop :=
| dg_no_slash reference : ~ In (ch "/") reference -> dangles get comps (Ref reference)
| dg_no_components reference : comps = None -> dangles get comps (Ref reference)
| dg_missing reference key c :
    comps = Some c -> last_segment reference key -> assoc key (get c) = None ->
    dangles get comps (Ref reference)
| dg_step reference key c r :
    comps = Some c -> last_segment reference key -> assoc key (get c) = Some r ->
    dangles get comps r -> dangles get comps (Ref reference).

(** [r] refers directly to [r']. *)
Definition refers {A} (get : components -> list (str * ref_or A)) (comps : option components)
    (r r' : ref_or A) : Prop :=
  exists reference key c, r = Ref reference /\ comps = Some c /\
    last_segment reference key /\ assoc key (get c) = Some r'.

(** A reference that leads to an endless chain. *)
Inductive refers_n {A} (get : components -> list (str * ref_or A)) (comps : option components)
  : nat -> ref_or A -> ref_or A -> Prop :=
| rn_zero r : refers_n get comps O r r
| rn_succ n r r' r'' : refers get comps r r' -> refers_n get comps n r' r'' ->
    refers_n get comps (S n) r r''.
Definition endless {A} (get : components -> list (str * ref_or A)) (comps : option components)
    (r : ref_or A) : Prop :=
  forall n, exists r', refers_n get comps n r r'.

(** Documents that say the same in different words: with references or what they lead to, parameters of the path or of its
    operations, in this or that order. *)
From Verif Require Import Base OasModel OpModel SanitizeModel GenerateModel RefSpec ParamSpec DocSpec SupportSpec FailSpec.
Local Open Scope N_scope.

(** Two places in two documents that lead to the same thing, or both to nothing. *)
Definition alike {A} (get : components -> list (str * ref_or A)) (comps comps' : option components) (r r' : ref_or A) : Prop :=
  forall x, resolves get comps r x <-> resolves get comps' r' x.

(** Something of one document and something of another, or nothing in both. *)
Definition both {A B} (R : A -> B -> Prop) (a : option A) (b : option B) : Prop :=
  match a, b with Some x, Some y => R x y | None, None => True | _, _ => False end.

(** All the parameters are there. *)
Definition all_there (comps : option components) (l : list (ref_or parameter)) : Prop :=
  forall r, In r l -> exists p, resolves co_parameters comps r p.

(** The operations [op], on a path with the parameters [shared], and [op'] with [shared'] say the same. *)
Record operation_alike (comps comps' : option components) (shared shared' : list (ref_or parameter)) (op op' : operation) : Prop := {
  oa_id : op_id op = op_id op';
  oa_tagged : op_tags op = op_tags op';
  oa_summary : op_summary op = op_summary op';
  oa_described : op_description op = op_description op';
  oa_extended : op_extensions op = op_extensions op';
  oa_there : all_there comps (shared ++ op_parameters op) <-> all_there comps' (shared' ++ op_parameters op');
  oa_counts : forall p, counts comps shared (op_parameters op) p <-> counts comps' shared' (op_parameters op') p;
  oa_body : both (alike co_request_bodies comps comps') (op_request_body op) (op_request_body op');
  oa_default : both (alike co_responses comps comps') (op_default op) (op_default op');
  oa_answers : Forall2 (fun a b => fst a = fst b /\ alike co_responses comps comps' (snd a) (snd b)) (op_responses op) (op_responses op') }.

(** The operations of two paths, one by one. *)
Definition item_alike (comps comps' : option components) (i i' : path_item) : Prop :=
  Forall (fun verb : path_item -> option operation =>
    both (operation_alike comps comps' (pi_parameters i) (pi_parameters i')) (verb i) (verb i'))
    [pi_get; pi_put; pi_post; pi_delete; pi_options; pi_head; pi_patch; pi_trace].

Record document_alike (d d' : openapi) : Prop := {
  da_openapi : oa_openapi d = oa_openapi d';
  da_title : oa_title d = oa_title d';
  da_description : oa_description d = oa_description d';
  da_terms : oa_terms_of_service d = oa_terms_of_service d';
  da_version : oa_version d = oa_version d';
  da_tags : oa_tags d = oa_tags d';
  da_schemas : component_schemas d = component_schemas d';
  da_paths : Forall2 (fun p p' => fst p = fst p' /\
    match snd p, snd p' with
    | Item i, Item i' => item_alike (oa_components d) (oa_components d') i i'
    | Ref _, Ref _ => True
    | _, _ => False
    end) (oa_paths d) (oa_paths d') }.

(** The same result, the same error, or a panic in both (a panic may tell which reference is wrong). *)
Definition same_outcome {A} (x y : outcome A) : Prop :=
  match x, y with
  | Ok a, Ok b => a = b
  | Err e, Err e' => e = e'
  | Panic _, Panic _ => True
  | _, _ => False
  end.

(** In particular: some references are replaced by what they lead to. *)
Inductive written_out {A} (get : components -> list (str * ref_or A)) (comps : option components) : ref_or A -> ref_or A -> Prop :=
| wo_kept r : written_out get comps r r
| wo_target r x : resolves get comps r x -> written_out get comps r (Item x).

Record operation_written (comps : option components) (op op' : operation) : Prop := {
  ow_id : op_id op = op_id op';
  ow_tags : op_tags op = op_tags op';
  ow_summary : op_summary op = op_summary op';
  ow_description : op_description op = op_description op';
  ow_extensions : op_extensions op = op_extensions op';
  ow_parameters : Forall2 (written_out co_parameters comps) (op_parameters op) (op_parameters op');
  ow_body : both (written_out co_request_bodies comps) (op_request_body op) (op_request_body op');
  ow_default : both (written_out co_responses comps) (op_default op) (op_default op');
  ow_answers : Forall2 (fun a b => fst a = fst b /\ written_out co_responses comps (snd a) (snd b)) (op_responses op) (op_responses op') }.

Record item_written (comps : option components) (i i' : path_item) : Prop := {
  iw_parameters : Forall2 (written_out co_parameters comps) (pi_parameters i) (pi_parameters i');
  iw_operations : Forall (fun verb : path_item -> option operation => both (operation_written comps) (verb i) (verb i'))
    [pi_get; pi_put; pi_post; pi_delete; pi_options; pi_head; pi_patch; pi_trace] }.

Inductive document_written (d : openapi) : openapi -> Prop :=
| dw_paths paths : Forall2 (fun p p' => fst p = fst p' /\
    match snd p, snd p' with
    | Item i, Item i' => item_written (oa_components d) i i'
    | Ref _, Ref _ => True
    | _, _ => False
    end) (oa_paths d) paths ->
  document_written d (OpenApi (oa_openapi d) (oa_title d) (oa_description d) (oa_terms_of_service d) (oa_version d) paths (oa_components d) (oa_tags d)).

(** A macro and a build script that say the same. *)
From Coq Require Import Permutation.
From Verif Require Import Base OasModel OpModel BuilderModel MethodModel GenerateModel SanitizeModel MacroModel MacroSpec SettingsModel SettingsSpec
  ScriptModel ScriptSpec.
Local Open Scope N_scope.

Section Agree.
Context {T V I Sch : Type}.
Variable text : T -> str.
Variable U : unicode.
Variable semver : str -> option V.
Variable closure_body : list tree -> (list tree * list tree) + list tree.
Variable path : list tree -> option (list tree * list tree).
Variable stream : list tree -> T.
Variable path_text : type_path -> str.
Variable impl_of : str -> option I.
Variable default_impls : list I.
Notation entry := (entry T Sch).
Notation call := (call T V I Sch).

(** What a patch says: a new name first, then derives. *)
Definition patch_says (a : macro_patch T) : list patch_call :=
  match mp_rename T a with Some r => [PatchRename r] | None => [] end ++ map (fun d => PatchDerive (text d)) (mp_derives T a).

(** Every option of the macro is what the last call about the same thing says, and there are no others. *)
Record agrees (es : list entry) (calls : list call) : Prop := {
  ag_interface : forall i, chosen (fun e i => e = EnInterface _ _ i) Positional es i ->
    settled (fun c i => c = SetInterface _ _ _ _ i) Positional calls i;
  ag_tag : forall t, chosen (fun e t => e = EnTags _ _ t) Merged es t -> settled (fun c t => c = SetTag _ _ _ _ t) Merged calls t;
  ag_inner : forall o, chosen_opt (fun e t => e = EnInnerType _ _ t) es o -> settled_opt (fun c t => c = SetInnerType _ _ _ _ t) calls o;
  ag_pre : forall o, chosen_opt (fun e t => exists ts, e = EnPreHook _ _ ts /\ hook_given closure_body path stream ts t) es o ->
    settled_opt (fun c t => c = SetPreHook _ _ _ _ t) calls o;
  ag_pre_async : forall o, chosen_opt (fun e t => exists ts, e = EnPreHookAsync _ _ ts /\ hook_given closure_body path stream ts t) es o ->
    settled_opt (fun c t => c = SetPreHookAsync _ _ _ _ t) calls o;
  ag_post : forall o, chosen_opt (fun e t => exists ts, e = EnPostHook _ _ ts /\ hook_given closure_body path stream ts t) es o ->
    settled_opt (fun c t => c = SetPostHook _ _ _ _ t) calls o;
  ag_post_async : forall o, chosen_opt (fun e t => exists ts, e = EnPostHookAsync _ _ ts /\ hook_given closure_body path stream ts t) es o ->
    settled_opt (fun c t => c = SetPostHookAsync _ _ _ _ t) calls o;
  ag_derives : forall l, chosen (fun e l => exists ts, e = EnDerives _ _ ts /\ l = map text ts) [] es l -> derives_added calls = l;
  ag_unknown : forall p, chosen (fun e p => e = EnUnknownCrates _ _ p) PolicyGenerate es p ->
    settled (fun c p => c = SetUnknownCrates _ _ _ _ p) PolicyGenerate calls p;
  ag_map : forall o, chosen_opt (fun e t => exists x, e = EnMapType _ _ x /\ t = text x) es o ->
    settled_opt (fun c t => c = SetMapType _ _ _ _ t) calls o;
  ag_crate : forall n v r, last_said (fun c a => c = SetCrate _ _ _ _ n (fst a) (snd a)) calls (v, r) <->
    exists l k s, In (EnCrates _ _ l) es /\ last_in k l s /\ configures U semver (k, s) n v r;
  ag_patch : forall n p, last_said (fun c p => c = SetPatch _ _ _ _ n p) calls p <->
    exists l a, In (EnPatch _ _ l) es /\ last_in n l a /\ p = patch_says a;
  ag_replace : forall n r i, last_said (fun c a => c = SetReplacement _ _ _ _ n (fst a) (snd a)) calls (r, i) ->
    exists l ts, In (EnReplace _ _ l) es /\ last_in n l ts /\ type_means path_text impl_of default_impls ts r i;
  ag_replace_all : forall l n ts, In (EnReplace _ _ l) es -> last_in n l ts ->
    exists a, last_said (fun c a => c = SetReplacement _ _ _ _ n (fst a) (snd a)) calls a;
  ag_convert : chosen (fun e l => exists w, e = EnConvert _ _ w
      /\ Forall2 (fun x c => fst x = fst (fst c) /\ type_means path_text impl_of default_impls (snd x) (snd (fst c)) (snd c)) w l) [] es
    (conversions_added calls)
}.

(** The same for the generator of code, hooks included. *)
Definition same_for_generator (s s' : gen_settings T V I Sch) : Prop :=
  gs_interface _ _ _ _ s = gs_interface _ _ _ _ s' /\ gs_tag _ _ _ _ s = gs_tag _ _ _ _ s'
  /\ gs_inner_type _ _ _ _ s = gs_inner_type _ _ _ _ s'
  /\ gs_pre_hook _ _ _ _ s = gs_pre_hook _ _ _ _ s' /\ gs_pre_hook_async _ _ _ _ s = gs_pre_hook_async _ _ _ _ s'
  /\ gs_post_hook _ _ _ _ s = gs_post_hook _ _ _ _ s' /\ gs_post_hook_async _ _ _ _ s = gs_post_hook_async _ _ _ _ s'.
End Agree.

(** What a build script (example-build/build.rs:12-19, with settings as in cargo-progenitor/src/main.rs:119-125) generates for a document. *)
Definition script_code {T V I Sch : Type} (U : unicode) (add_ref_types : list (type_call V I Sch) -> list (str * ref_or schema) -> outcome type_space)
    (types : list (type_call V I Sch) -> type_id -> option type_info) (op orr : hash_order) (calls : list (call T V I Sch)) (d : openapi) : outcome generated_code :=
  let g := generator_new T V I Sch op orr (settings_after T V I Sch calls) in
  generate_tokens U (add_ref_types (gn_calls _ _ _ _ g)) (types (gn_calls _ _ _ _ g)) (read_settings _ _ _ _ (gn_settings _ _ _ _ g)) d.

(** The options that can be given to cargo-progenitor too, ... *)
Definition command_entries (T Sch : Type) (spec : str) (i : interface_style) (t : tag_style) : list (entry T Sch) :=
  [EnSpec _ _ spec; EnInterface _ _ i; EnTags _ _ t].
(** ... and what it calls with them (cargo-progenitor/src/main.rs:120-122). *)
Definition command_calls (T V I Sch : Type) (i : interface_style) (t : tag_style) : list (call T V I Sch) :=
  [SetInterface _ _ _ _ i; SetTag _ _ _ _ t].

(** Model of the settings as a build script makes them: calls of the methods of [GenerationSettings], one after the other
    (progenitor-impl/src/lib.rs:115-244). *)
From Verif Require Import Base OasModel OpModel BuilderModel GenerateModel MacroModel SettingsModel.
Local Open Scope N_scope.

Section Script.
(** As in SettingsModel (progenitor-impl/src/lib.rs:60-76). *)
Variables T V I Sch : Type.

(** progenitor-impl/src/lib.rs:121-243, one method each; what is collected from iterators is given as a list. *)
Inductive call :=
| SetInterface (i : interface_style)                              (* 121 *)
| SetTag (t : tag_style)                                          (* 127 *)
| SetInnerType (t : T)                                            (* 133 *)
| SetPreHook (t : T)                                              (* 139 *)
| SetPreHookAsync (t : T)                                         (* 145 *)
| SetPostHook (t : T)                                             (* 151 *)
| SetPostHookAsync (t : T)                                        (* 157 *)
| AddDerive (d : str)                                             (* 163 *)
| SetPatch (type_name : str) (patch : list patch_call)            (* 170 *)
| SetReplacement (type_name replace_name : str) (impls : list I)  (* 178 *)
| AddConversion (schema : Sch) (type_name : str) (impls : list I) (* 193 *)
| SetUnknownCrates (p : unknown_policy)                           (* 207 *)
| SetCrate (name : str) (v : crate_vers V) (rename : option str)  (* 216 *)
| SetMapType (t : str).                                           (* 240 *)

(** progenitor-impl/src/lib.rs:213-231. *)
Definition with_one_crate (name : str) (v : crate_vers V) (rename : option str) (s : gen_settings T V I Sch) : gen_settings T V I Sch :=
  GenSettings _ _ _ _ (gs_interface _ _ _ _ s) (gs_tag _ _ _ _ s) (gs_inner_type _ _ _ _ s) (gs_pre_hook _ _ _ _ s)
    (gs_pre_hook_async _ _ _ _ s) (gs_post_hook _ _ _ _ s) (gs_post_hook_async _ _ _ _ s) (gs_extra_derives _ _ _ _ s)
    (gs_map_type _ _ _ _ s) (gs_unknown_crates _ _ _ _ s) (with_crate (gs_crates _ _ _ _ s) name v rename) (gs_patch _ _ _ _ s)
    (gs_replace _ _ _ _ s) (gs_convert _ _ _ _ s).

(** progenitor-impl/src/lib.rs:121-243. *)
Definition apply_call (c : call) (s : gen_settings T V I Sch) : gen_settings T V I Sch :=
  match c with
  | SetInterface i => with_interface _ _ _ _ i s
  | SetTag t => with_tag _ _ _ _ t s
  | SetInnerType t => with_inner_type _ _ _ _ t s
  | SetPreHook t => with_pre_hook _ _ _ _ t s
  | SetPreHookAsync t => with_pre_hook_async _ _ _ _ t s
  | SetPostHook t => with_post_hook _ _ _ _ t s
  | SetPostHookAsync t => with_post_hook_async _ _ _ _ t s
  | AddDerive d => with_derive _ _ _ _ d s
  | SetPatch n p => with_patch _ _ _ _ n p s
  | SetReplacement n r i => with_replacement _ _ _ _ n r i s
  | AddConversion h n i => with_conversion _ _ _ _ h n i s
  | SetUnknownCrates p => with_unknown_crates _ _ _ _ p s
  | SetCrate n v r => with_one_crate n v r s
  | SetMapType t => with_map_type _ _ _ _ t s
  end.

(** progenitor-impl/src/lib.rs:116-119 and 121-243: what [GenerationSettings::new()] is after some calls. *)
Definition settings_after (calls : list call) : gen_settings T V I Sch :=
  fold_left (fun s c => apply_call c s) calls (default_settings _ _ _ _).
End Script.

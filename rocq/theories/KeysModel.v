(** The keys of [generate_api!] as they are written. *)
From Verif Require Import Base OasModel BuilderModel OpModel GenerateModel MacroModel SettingsModel.

(** How the values of the fields are read (progenitor-macro/src/lib.rs:130-157): by syn and serde_tokenstream,
    which are external crates.  A value that cannot be read is [None]; hooks, crates, replacements and conversions
    are read further by [from_tokenstream]. *)
Record readers (W T Sch : Type) := Readers {
  r_string : W -> option str;                            (* ParseWrapper<LitStr>, 130 *)
  r_variant : W -> option str;                           (* the name of a variant, 132, 134, 148 *)
  r_type : W -> option T;                                (* ParseWrapper<syn::Type>, 136, 142 *)
  r_hook : W -> option (list tree);                      (* the tokens ParseWrapper<ClosureOrPath> gets, 137-140 *)
  r_paths : W -> option (list T);                        (* Vec<ParseWrapper<syn::Path>>, 145 *)
  r_policy : str -> option unknown_policy;               (* typify's UnknownPolicy, 148 *)
  r_crates : W -> option (list (str * str));             (* strings, 150 *)
  r_patch : W -> option (list (str * macro_patch T));    (* 153 *)
  r_replace : W -> option (list (str * list tok));       (* 155 *)
  r_convert : W -> option (list (Sch * list tok)) }.     (* 157 *)
Arguments r_string {W T Sch}.
Arguments r_variant {W T Sch}.
Arguments r_type {W T Sch}.
Arguments r_hook {W T Sch}.
Arguments r_paths {W T Sch}.
Arguments r_policy {W T Sch}.
Arguments r_crates {W T Sch}.
Arguments r_patch {W T Sch}.
Arguments r_replace {W T Sch}.
Arguments r_convert {W T Sch}.

Section Keys.
Variables W T Sch : Type.
Variable R : readers W T Sch.

(** The derived [Deserialize] of [InterfaceStyle] (progenitor-impl/src/lib.rs:86-92). *)
Definition interface_named (s : str) : option interface_style :=
  if str_eqb s (lit "Positional") then Some Positional
  else if str_eqb s (lit "Builder") then Some Builder
  else None.
(** The derived [Deserialize] of [TagStyle] (progenitor-impl/src/lib.rs:101-107). *)
Definition tag_named (s : str) : option tag_style :=
  if str_eqb s (lit "Merged") then Some Merged
  else if str_eqb s (lit "Separate") then Some Separate
  else None.
(** [Option::and_then] (progenitor-macro/src/lib.rs:128). *)
Definition and_then {A B} (o : option A) (f : A -> option B) : option B :=
  match o with Some a => f a | None => None end.

(** The derived [Deserialize] of [MacroSettings] on one key and its value (progenitor-macro/src/lib.rs:128-158);
    the value of a key that is no field is not looked at. *)
Definition read_entry (kw : str * W) : option (entry T Sch) :=
  let w := snd kw in
  let k := fst kw in
  if str_eqb k (lit "spec") then option_map (EnSpec T Sch) (r_string R w)
  else if str_eqb k (lit "interface") then option_map (EnInterface T Sch) (and_then (r_variant R w) interface_named)
  else if str_eqb k (lit "tags") then option_map (EnTags T Sch) (and_then (r_variant R w) tag_named)
  else if str_eqb k (lit "inner_type") then option_map (EnInnerType T Sch) (r_type R w)
  else if str_eqb k (lit "pre_hook") then option_map (EnPreHook T Sch) (r_hook R w)
  else if str_eqb k (lit "pre_hook_async") then option_map (EnPreHookAsync T Sch) (r_hook R w)
  else if str_eqb k (lit "post_hook") then option_map (EnPostHook T Sch) (r_hook R w)
  else if str_eqb k (lit "post_hook_async") then option_map (EnPostHookAsync T Sch) (r_hook R w)
  else if str_eqb k (lit "map_type") then option_map (EnMapType T Sch) (r_type R w)
  else if str_eqb k (lit "derives") then option_map (EnDerives T Sch) (r_paths R w)
  else if str_eqb k (lit "unknown_crates") then option_map (EnUnknownCrates T Sch) (and_then (r_variant R w) (r_policy R))
  else if str_eqb k (lit "crates") then option_map (EnCrates T Sch) (r_crates R w)
  else if str_eqb k (lit "patch") then option_map (EnPatch T Sch) (r_patch R w)
  else if str_eqb k (lit "replace") then option_map (EnReplace T Sch) (r_replace R w)
  else if str_eqb k (lit "convert") then option_map (EnConvert T Sch) (r_convert R w)
  else Some (EnOther T Sch k).

(** All keys, in the order they are written in (progenitor-macro/src/lib.rs:317). *)
Fixpoint read_entries (ws : list (str * W)) : option (list (entry T Sch)) :=
  match ws with
  | [] => Some []
  | w :: r =>
      match read_entry w, read_entries r with
      | Some e, Some es => Some (e :: es)
      | _, _ => None
      end
  end.

(** progenitor-macro/src/lib.rs:297-399 for the form with keys; [api] is [generate_api] of SettingsModel.v. *)
Definition generate_written (api : invocation T Sch -> expansion) (ws : list (str * W)) : expansion :=
  match read_entries ws with
  | Some es => api (InvKeys T Sch es)
  | None => CompileError None
  end.
End Keys.

(** What the keys of [generate_api!] are called, and what their values are. *)
From Verif Require Import Base OasModel BuilderModel OpModel GenerateModel MacroModel SettingsModel SettingsSpec KeysModel.

Definition option_names : list str :=
  [lit "spec"; lit "interface"; lit "tags"; lit "inner_type"; lit "pre_hook"; lit "pre_hook_async"; lit "post_hook";
   lit "post_hook_async"; lit "map_type"; lit "derives"; lit "unknown_crates"; lit "crates"; lit "patch"; lit "replace";
   lit "convert"].

Section Written.
Context {W T Sch : Type}.
Variable R : readers W T Sch.

(** [key = value] stands for the entry. *)
Inductive stands (w : W) : str -> entry T Sch -> Prop :=
| StSpec s : r_string R w = Some s -> stands w (lit "spec") (EnSpec _ _ s)
| StPositional : r_variant R w = Some (lit "Positional") -> stands w (lit "interface") (EnInterface _ _ Positional)
| StBuilder : r_variant R w = Some (lit "Builder") -> stands w (lit "interface") (EnInterface _ _ Builder)
| StMerged : r_variant R w = Some (lit "Merged") -> stands w (lit "tags") (EnTags _ _ Merged)
| StSeparate : r_variant R w = Some (lit "Separate") -> stands w (lit "tags") (EnTags _ _ Separate)
| StInner t : r_type R w = Some t -> stands w (lit "inner_type") (EnInnerType _ _ t)
| StPre ts : r_hook R w = Some ts -> stands w (lit "pre_hook") (EnPreHook _ _ ts)
| StPreAsync ts : r_hook R w = Some ts -> stands w (lit "pre_hook_async") (EnPreHookAsync _ _ ts)
| StPost ts : r_hook R w = Some ts -> stands w (lit "post_hook") (EnPostHook _ _ ts)
| StPostAsync ts : r_hook R w = Some ts -> stands w (lit "post_hook_async") (EnPostHookAsync _ _ ts)
| StMap t : r_type R w = Some t -> stands w (lit "map_type") (EnMapType _ _ t)
| StDerives l : r_paths R w = Some l -> stands w (lit "derives") (EnDerives _ _ l)
| StUnknown v p : r_variant R w = Some v -> r_policy R v = Some p -> stands w (lit "unknown_crates") (EnUnknownCrates _ _ p)
| StCrates l : r_crates R w = Some l -> stands w (lit "crates") (EnCrates _ _ l)
| StPatch l : r_patch R w = Some l -> stands w (lit "patch") (EnPatch _ _ l)
| StReplace l : r_replace R w = Some l -> stands w (lit "replace") (EnReplace _ _ l)
| StConvert l : r_convert R w = Some l -> stands w (lit "convert") (EnConvert _ _ l)
| StOther k : ~ In k option_names -> stands w k (EnOther _ _ k).

(** No option is written twice. *)
Definition written_once (ws : list (str * W)) : Prop :=
  forall k l1 v l2 w l3, In k option_names -> ws <> l1 ++ (k, v) :: l2 ++ (k, w) :: l3.
End Written.

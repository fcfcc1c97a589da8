(** C93: what a build script says on the settings is what the generator and typify are told. *)
From Coq Require Import Permutation.
From Verif Require Import Base OasModel OpModel BuilderModel GenerateModel MacroModel SettingsModel SettingsSpec ScriptModel ScriptSpec
  ScriptProofs ExampleScript GenerateModel MethodModel SettingsReadSpec SettingsRead.

(** After any calls of the methods of [GenerationSettings], in any order, the generator works with what the last call about each thing
    said, ... *)
Theorem C93_generator : forall T V I Sch (calls : list (call T V I Sch)), told_generator calls (settings_after T V I Sch calls).
Proof. exact (fun T V I Sch => @generator_told T V I Sch). Qed.
Print Assumptions C93_generator.

Example C93_generator_ex : gs_pre_hook_async _ _ _ _ (gn_settings _ _ _ _ (h_gen h_calls)) = Some (lit "hook").
Proof. exact (proj2 h_told). Qed.

(** ... and reads them so, a hook being called if it was ever set, ... *)
Theorem C93_read : forall T V I Sch (calls : list (call T V I Sch)),
  reads (settled (fun c i => c = SetInterface _ _ _ _ i) Positional calls) (settled (fun c t => c = SetTag _ _ _ _ t) Merged calls)
    (exists t, In (SetInnerType _ _ _ _ t) calls) (exists t, In (SetPreHook _ _ _ _ t) calls) (exists t, In (SetPreHookAsync _ _ _ _ t) calls)
    (exists t, In (SetPostHook _ _ _ _ t) calls) (exists t, In (SetPostHookAsync _ _ _ _ t) calls)
    (read_settings T V I Sch (settings_after T V I Sch calls)).
Proof. exact (fun T V I Sch => @script_read T V I Sch). Qed.
Print Assumptions C93_read.

Example C93_read_ex : read_settings _ _ _ _ (gn_settings _ _ _ _ (h_gen h_calls)) = Settings Builder Merged false (Hooks false true false false).
Proof. vm_compute. reflexivity. Qed.

(** ... typify is told the last word on each crate, patch and replacement, once, and all derives and conversions in order, ... *)
Theorem C93_typify : forall T V I Sch op orr (calls : list (call T V I Sch)), order_ok op -> order_ok orr ->
  told_typify calls (gn_calls T V I Sch (generator_new T V I Sch op orr (settings_after T V I Sch calls))).
Proof. exact (fun T V I Sch => @typify_told T V I Sch). Qed.
Print Assumptions C93_typify.

Example C93_typify_ex : (order_ok h_same /\ order_ok h_rev) /\ gn_calls _ _ _ _ (h_gen h_calls) =
  [CallTypeMod _ _ _ (lit "types"); CallStructBuilder _ _ _ true; CallDerive _ _ _ (lit "Hash"); CallDerive _ _ _ (lit "Ord");
   CallUnknownCrates _ _ _ PolicyGenerate; CallCrate _ _ _ (lit "rand") VersAny None; CallCrate _ _ _ (lit "uuid") VersNever (Some (lit "id"));
   CallPatch _ _ _ (lit "A") [PatchDerive (lit "Eq")]; CallReplacement _ _ _ (lit "C") (lit "D") [1%N];
   CallConversion _ _ _ 5%N (lit "E") []; CallMapType _ _ _ (lit "Map")].
Proof. exact (conj h_orders (proj1 h_told)). Qed.

(** ... and calls about different things may change places. *)
Theorem C93_order : forall T V I Sch op orr op' orr' pre (c c' : call T V I Sch) post,
  order_ok op -> order_ok orr -> order_ok op' -> order_ok orr' -> ~ same_subject c c' ->
  let g := generator_new T V I Sch op orr (settings_after T V I Sch (pre ++ c :: c' :: post)) in
  let g' := generator_new T V I Sch op' orr' (settings_after T V I Sch (pre ++ c' :: c :: post)) in
  read_settings T V I Sch (gn_settings T V I Sch g) = read_settings T V I Sch (gn_settings T V I Sch g')
  /\ Permutation (gn_calls T V I Sch g) (gn_calls T V I Sch g')
  /\ derives_in (gn_calls T V I Sch g) = derives_in (gn_calls T V I Sch g')
  /\ conversions_in (gn_calls T V I Sch g) = conversions_in (gn_calls T V I Sch g').
Proof. exact (fun T V I Sch => @swapped T V I Sch). Qed.
Print Assumptions C93_order.

Example C93_order_ex : (order_ok h_same /\ order_ok h_rev)
  /\ exists pre (c c' : h_call) post, h_calls = pre ++ c :: c' :: post /\ ~ same_subject c c'.
Proof. exact (conj h_orders h_different). Qed.

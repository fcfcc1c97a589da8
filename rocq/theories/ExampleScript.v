(** The calls of a build script. *)
From Coq Require Import Permutation.
From Verif Require Import Base OasModel OpModel BuilderModel GenerateModel MacroModel SettingsModel SettingsSpec ScriptModel ScriptSpec.
Local Open Scope N_scope.

Definition h_same : hash_order := fun A l => l.
Definition h_rev : hash_order := fun A l => rev l.
Lemma h_orders : order_ok h_same /\ order_ok h_rev.
Proof. split; intros A l; [apply Permutation_refl|apply Permutation_rev]. Qed.

Notation h_call := (call str N N N).
Definition h_calls : list h_call :=
  [SetInterface _ _ _ _ Positional; AddDerive _ _ _ _ (lit "Hash"); SetPatch _ _ _ _ (lit "A") [PatchRename (lit "B")];
   SetCrate _ _ _ _ (lit "uuid") VersAny None; SetInterface _ _ _ _ Builder; AddDerive _ _ _ _ (lit "Ord");
   SetCrate _ _ _ _ (lit "uuid") VersNever (Some (lit "id")); SetCrate _ _ _ _ (lit "rand") VersAny None;
   SetPatch _ _ _ _ (lit "A") [PatchDerive (lit "Eq")]; SetPreHookAsync _ _ _ _ (lit "hook");
   SetReplacement _ _ _ _ (lit "C") (lit "D") [1]; AddConversion _ _ _ _ 5 (lit "E") []; SetMapType _ _ _ _ (lit "Map")].

Definition h_gen (calls : list h_call) : generator str N N N := generator_new _ _ _ _ h_same h_rev (settings_after _ _ _ _ calls).

Lemma h_told : gn_calls _ _ _ _ (h_gen h_calls) =
  [CallTypeMod _ _ _ (lit "types"); CallStructBuilder _ _ _ true; CallDerive _ _ _ (lit "Hash"); CallDerive _ _ _ (lit "Ord");
   CallUnknownCrates _ _ _ PolicyGenerate; CallCrate _ _ _ (lit "rand") VersAny None; CallCrate _ _ _ (lit "uuid") VersNever (Some (lit "id"));
   CallPatch _ _ _ (lit "A") [PatchDerive (lit "Eq")]; CallReplacement _ _ _ (lit "C") (lit "D") [1];
   CallConversion _ _ _ 5 (lit "E") []; CallMapType _ _ _ (lit "Map")]
  /\ gs_pre_hook_async _ _ _ _ (gn_settings _ _ _ _ (h_gen h_calls)) = Some (lit "hook").
Proof. vm_compute. auto. Qed.

Lemma h_different : exists pre (c c' : h_call) post, h_calls = pre ++ c :: c' :: post /\ ~ same_subject c c'.
Proof.
  exists [], (SetInterface _ _ _ _ Positional), (AddDerive _ _ _ _ (lit "Hash")). eexists. split; [reflexivity|]. intro H. inversion H.
Qed.

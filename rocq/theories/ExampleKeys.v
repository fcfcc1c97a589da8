(** An invocation of [generate_api!] as it is written. *)
From Verif Require Import Base OasModel OpModel BuilderModel GenerateModel MacroModel SettingsModel SettingsSpec KeysModel KeysSpec
  KeysProofs ExampleMacro ExampleSettings.
Local Open Scope N_scope.

Inductive k_value :=
| KvString (s : str) | KvWord (s : str) | KvTokens (ts : list tree) | KvPaths (l : list (list tree))
| KvCrates (l : list (str * str)) | KvPatch (l : list (str * macro_patch (list tree)))
| KvReplace (l : list (str * list tok)) | KvConvert (l : list (str * list tok)).
Definition k_readers : readers k_value (list tree) str :=
  Readers _ _ _
    (fun v => match v with KvString s => Some s | _ => None end)
    (fun v => match v with KvWord s => Some s | _ => None end)
    (fun v => match v with KvTokens ts => Some ts | _ => None end)
    (fun v => match v with KvTokens ts => Some ts | _ => None end)
    (fun v => match v with KvPaths l => Some l | _ => None end)
    (fun s => if str_eqb s (lit "Deny") then Some PolicyDeny else None)
    (fun v => match v with KvCrates l => Some l | _ => None end)
    (fun v => match v with KvPatch l => Some l | _ => None end)
    (fun v => match v with KvReplace l => Some l | _ => None end)
    (fun v => match v with KvConvert l => Some l | _ => None end).

Definition k_written : list (str * k_value) :=
  [(lit "spec", KvString (lit "api.json")); (lit "interface", KvWord (lit "Builder")); (lit "pre_hook", KvTokens s_hook);
   (lit "post_hook", KvTokens s_path_hook);
   (lit "derives", KvPaths [s_word_of (lit "Hash"); s_word_of (lit "Ord")]);
   (lit "map_type", KvTokens (s_word_of (lit "Map"))); (lit "unknown_crates", KvWord (lit "Deny"));
   (lit "crates", KvCrates some_section);
   (lit "patch", KvPatch [(lit "A", MacroPatch _ (Some (lit "B")) [s_word_of (lit "Eq")]); (lit "C", MacroPatch _ None [])]);
   (lit "replace", KvReplace [(lit "D", [TkIdent (lit "a"); TkPathSep; TkIdent (lit "E")]); (lit "F", [TkIdent (lit "G")])]);
   (lit "convert", KvConvert [(lit "{}", [TkIdent (lit "H")])]);
   (lit "struct_builder", KvWord (lit "true"))].
Lemma k_stand : Forall2 (fun kw e => stands k_readers (snd kw) (fst kw) e) k_written s_entries.
Proof. apply read_entries_iff. vm_compute. reflexivity. Qed.
Lemma k_twice : generate_written _ _ _ k_readers (s_api s_o) (k_written ++ [(lit "struct_builder", KvWord (lit "true"))])
    = s_api s_o (InvKeys _ _ s_entries)
  /\ generate_written _ _ _ k_readers (s_api s_o) (k_written ++ [(lit "map_type", KvTokens [])]) = CompileError None
  /\ generate_written _ _ _ k_readers (s_api s_o) (k_written ++ [(lit "tags", KvWord (lit "merged"))]) = CompileError None.
Proof. vm_compute. auto. Qed.

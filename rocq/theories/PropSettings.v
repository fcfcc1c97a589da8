(** C77: the options of the macro. *)
From Coq Require Import Sorting.Permutation.
From Verif Require Import Base OasModel OpModel BuilderModel SanitizeModel GenerateModel MacroModel MacroSpec SettingsModel SettingsSpec
  SettingsProofs SettingsMain SettingsOrder SettingsOrderIff KeysModel KeysSpec KeysProofs MethodModel SettingsReadSpec SettingsRead
  ExampleMacro ExampleSettings ExampleKeys.
Local Open Scope N_scope.

(** C77: which values a hook can have and what they mean, ... *)
Theorem C77_hook : forall closure_body path, no_paren path -> forall ts out,
  closure_or_path closure_body path ts = Some out <-> hook_text closure_body path ts out.
Proof. exact hook_iff. Qed.
Print Assumptions C77_hook.

(** ... parentheses changing nothing; but values that are neither closures nor paths are accepted too, ... *)
Theorem C77_parens : forall closure_body path ts,
  closure_or_path closure_body path [TrParen ts] = closure_or_path closure_body path ts.
Proof. exact parens_transparent. Qed.
Print Assumptions C77_parens.

Theorem C77_hook_refuted : exists closure_body path ts out, no_paren path
  /\ closure_or_path closure_body path ts = Some out /\ forall out', ~ plain_hook closure_body path ts out'.
Proof.
  exact (ex_intro _ s_closure (ex_intro _ s_path (ex_intro _ s_broken (ex_intro _ s_path_hook (conj s_no_paren s_broken_read))))).
Qed.
Print Assumptions C77_hook_refuted.

Example C77_hook_ex : no_paren s_path
  /\ closure_or_path s_closure s_path [TrParen s_hook]
     = Some [TrWord (lit "move"); TrSign (ch "|"); TrWord (lit "r"); TrSign (ch "|"); TrWord (lit "f"); TrParen []]
  /\ closure_or_path s_closure s_path s_path_hook = Some s_path_hook
  /\ closure_or_path s_closure s_path s_broken = Some s_path_hook.
Proof. split; [exact s_no_paren|]. vm_compute. auto. Qed.

(** ... which lists of options are accepted, ... *)
Theorem C77_accepted : forall T V I Sch text U semver closure_body path stream path_text impl_of impl_eqb default_impls,
  no_paren path -> forall manifest_dir current_dir open json yaml error_text add_ref_types types o es,
  generate_api T V I Sch text U semver closure_body path stream path_text impl_of impl_eqb default_impls
    manifest_dir current_dir open json yaml error_text add_ref_types types o (InvKeys _ _ es) = CompileError None
  <-> ~ ((exists s, In (EnSpec _ _ s) es) /\ not_repeated es /\ Forall (readable_value U semver closure_body path) es).
Proof. exact @rejected_iff. Qed.
Print Assumptions C77_accepted.

Example C77_accepted_ex : s_api s_o (InvKeys _ _ [EnInterface _ _ Builder]) = CompileError None
  /\ s_api s_o (InvKeys _ _ (EnInterface _ _ Builder :: s_entries)) = CompileError None.
Proof. exact s_rejected. Qed.

(** ... each option being delivered to the generator or to typify, ... *)
Theorem C77_delivered : forall T V I Sch text U semver closure_body path stream path_text impl_of impl_eqb default_impls,
  no_paren path -> (forall i j : I, impl_eqb i j = true <-> i = j) -> NoDup default_impls ->
  forall o es spec s, orders_ok o ->
  read_invocation T V I Sch text U semver closure_body path stream path_text impl_of impl_eqb default_impls o (InvKeys _ _ es)
    = Some (spec, s) ->
  In (EnSpec _ _ spec) es /\ delivered_settings closure_body path stream es s
  /\ delivered_types text U semver path_text impl_of default_impls es (gs_interface _ _ _ _ s)
       (gn_calls _ _ _ _ (generator_new _ _ _ _ (o_patch_out o) (o_replace_out o) s)).
Proof. exact @delivered. Qed.
Print Assumptions C77_delivered.

Example C77_delivered_ex :
  (exists s, s_read s_o (InvKeys _ _ s_entries) = Some (lit "api.json", s))
  /\ s_calls s_o (InvKeys _ _ s_entries) =
  [CallTypeMod _ _ _ (lit "types"); CallStructBuilder _ _ _ true; CallDerive _ _ _ (lit "Hash"); CallDerive _ _ _ (lit "Ord");
   CallUnknownCrates _ _ _ PolicyDeny; CallCrate _ _ _ (lit "chrono") VersAny None; CallCrate _ _ _ (lit "rand") VersNever None;
   CallCrate _ _ _ (lit "uuid") (VersVersion (lit "1.0.0")) (Some (lit "mine"));
   CallPatch _ _ _ (lit "A") [PatchRename (lit "B"); PatchDerive (lit "Eq")]; CallPatch _ _ _ (lit "C") [];
   CallReplacement _ _ _ (lit "D") (lit "a::E") [0; 1]; CallReplacement _ _ _ (lit "F") (lit "G") [0; 1];
   CallConversion _ _ _ (lit "{}") (lit "H") [0; 1]; CallMapType _ _ _ (lit "Map")].
Proof. split; [eexists; vm_compute; reflexivity|exact s_delivered]. Qed.

(** ... and read there, a hook being called if the option is given, ... *)
Theorem C77_read : forall T V I Sch text U semver closure_body path stream path_text impl_of impl_eqb default_impls,
  no_paren path -> (forall i j : I, impl_eqb i j = true <-> i = j) -> NoDup default_impls ->
  forall o es spec s, orders_ok o ->
  read_invocation T V I Sch text U semver closure_body path stream path_text impl_of impl_eqb default_impls o (InvKeys _ _ es)
    = Some (spec, s) ->
  reads (chosen (fun e i => e = EnInterface _ _ i) Positional es) (chosen (fun e t => e = EnTags _ _ t) Merged es)
    (exists t, In (EnInnerType _ _ t) es) (exists ts, In (EnPreHook _ _ ts) es) (exists ts, In (EnPreHookAsync _ _ ts) es)
    (exists ts, In (EnPostHook _ _ ts) es) (exists ts, In (EnPostHookAsync _ _ ts) es) (read_settings T V I Sch s).
Proof. exact macro_read. Qed.
Print Assumptions C77_read.

Example C77_read_ex : exists spec s, s_read s_o (InvKeys _ _ s_entries) = Some (spec, s)
  /\ read_settings _ _ _ _ s = Settings Builder Merged false (Hooks true false true false).
Proof. eexists. eexists. split; [vm_compute; reflexivity|]. vm_compute. reflexivity. Qed.

(** ... in whatever order they are written and whatever other keys there are, ... *)
Theorem C77_key_order : forall T V I Sch text U semver closure_body path stream path_text impl_of impl_eqb default_impls
    manifest_dir current_dir open json yaml error_text add_ref_types types o es es', Permutation es es' ->
  generate_api T V I Sch text U semver closure_body path stream path_text impl_of impl_eqb default_impls
    manifest_dir current_dir open json yaml error_text add_ref_types types o (InvKeys _ _ es)
  = generate_api T V I Sch text U semver closure_body path stream path_text impl_of impl_eqb default_impls
    manifest_dir current_dir open json yaml error_text add_ref_types types o (InvKeys _ _ es').
Proof. exact @keys_any_order. Qed.
Print Assumptions C77_key_order.

Theorem C77_other_keys : forall T V I Sch text U semver closure_body path stream path_text impl_of impl_eqb default_impls
    manifest_dir current_dir open json yaml error_text add_ref_types types o a b k,
  generate_api T V I Sch text U semver closure_body path stream path_text impl_of impl_eqb default_impls
    manifest_dir current_dir open json yaml error_text add_ref_types types o (InvKeys _ _ (a ++ EnOther _ _ k :: b))
  = generate_api T V I Sch text U semver closure_body path stream path_text impl_of impl_eqb default_impls
    manifest_dir current_dir open json yaml error_text add_ref_types types o (InvKeys _ _ (a ++ b)).
Proof. exact @other_ignored. Qed.
Print Assumptions C77_other_keys.

(** ... with one string meaning the same as nothing but the document, ... *)
Theorem C77_string : forall T V I Sch text U semver closure_body path stream path_text impl_of impl_eqb default_impls
    manifest_dir current_dir open json yaml error_text add_ref_types types o o' spec, orders_ok o -> orders_ok o' ->
  generate_api T V I Sch text U semver closure_body path stream path_text impl_of impl_eqb default_impls
    manifest_dir current_dir open json yaml error_text add_ref_types types o (InvString _ _ spec)
  = generate_api T V I Sch text U semver closure_body path stream path_text impl_of impl_eqb default_impls
    manifest_dir current_dir open json yaml error_text add_ref_types types o' (InvKeys _ _ [EnSpec _ _ spec]).
Proof. exact @string_form. Qed.
Print Assumptions C77_string.

Example C77_string_ex : orders_ok s_o /\ orders_ok s_o'
  /\ s_api s_o (InvString _ _ (lit "/y")) = CompileError (Some (lit "couldn't read file /y: no such file")).
Proof. exact (conj s_o_ok (conj s_o'_ok s_missing)). Qed.

(** ... and with any order of hash maps, if no two entries of the crates section are about one crate and typify does
    not mind the order in which types are patched and replaced; ... *)
Theorem C77_order_partial : forall T V I Sch text U semver closure_body path stream path_text impl_of impl_eqb default_impls,
  no_paren path -> forall manifest_dir current_dir open json yaml error_text add_ref_types types o o' es,
  orders_ok o -> orders_ok o' -> (forall l, In (EnCrates _ _ l) es -> separate_crates U semver l) ->
  (forall cs cs', same_calls cs cs' -> add_ref_types cs = add_ref_types cs' /\ types cs = types cs') ->
  generate_api T V I Sch text U semver closure_body path stream path_text impl_of impl_eqb default_impls
    manifest_dir current_dir open json yaml error_text add_ref_types types o (InvKeys _ _ es)
  = generate_api T V I Sch text U semver closure_body path stream path_text impl_of impl_eqb default_impls
    manifest_dir current_dir open json yaml error_text add_ref_types types o' (InvKeys _ _ es).
Proof. exact @generate_order. Qed.
Print Assumptions C77_order_partial.

Example C77_order_ex : (forall l, In (EnCrates _ _ l) s_entries -> separate_crates unicode15 some_semver l)
  /\ s_calls s_o' (InvKeys _ _ s_entries) <> s_calls s_o (InvKeys _ _ s_entries).
Proof. exact (conj s_separate s_reversed). Qed.

(** ... exactly then, as entries of a hash map have different names; ... *)
Theorem C77_order_iff : forall T V I Sch text U semver closure_body path stream path_text impl_of impl_eqb default_impls,
  no_paren path -> forall es o0 r0,
  read_invocation T V I Sch text U semver closure_body path stream path_text impl_of impl_eqb default_impls o0 (InvKeys _ _ es) = Some r0 ->
  (forall l, In (EnCrates _ _ l) es -> NoDup (map fst l)) ->
  (forall o o' spec s spec' s', orders_ok o -> orders_ok o' ->
     read_invocation T V I Sch text U semver closure_body path stream path_text impl_of impl_eqb default_impls o (InvKeys _ _ es)
       = Some (spec, s) ->
     read_invocation T V I Sch text U semver closure_body path stream path_text impl_of impl_eqb default_impls o' (InvKeys _ _ es)
       = Some (spec', s') ->
     same_calls (type_calls _ _ _ _ (o_patch_out o) (o_replace_out o) s) (type_calls _ _ _ _ (o_patch_out o') (o_replace_out o') s'))
  <-> forall l, In (EnCrates _ _ l) es -> separate_crates U semver l.
Proof. exact @order_exactly. Qed.
Print Assumptions C77_order_iff.

Example C77_order_iff_ex : (exists r, s_read s_o (InvKeys _ _ s_clash) = Some r)
  /\ NoDup (map fst [(lit "a", lit "x@1.0"); (lit "b", lit "x@2.0")])
  /\ s_clash = [EnSpec _ _ (lit "api.json"); EnCrates _ _ [(lit "a", lit "x@1.0"); (lit "b", lit "x@2.0")]].
Proof.
  split; [exact s_clash_read|]. split; [|reflexivity]. repeat constructor; vm_compute; intuition discriminate.
Qed.

(** ... otherwise the order can matter. *)
Theorem C77_order_refuted : exists o o' es, orders_ok o /\ orders_ok o'
  /\ (exists r, s_read o (InvKeys _ _ es) = Some r)
  /\ ~ same_calls (s_calls o (InvKeys _ _ es)) (s_calls o' (InvKeys _ _ es)).
Proof.
  exact (ex_intro _ s_o (ex_intro _ s_o' (ex_intro _ s_clash (conj s_o_ok (conj s_o'_ok (conj s_clash_read s_clashing)))))).
Qed.
Print Assumptions C77_order_refuted.

(** What the macro expands to ... *)
Theorem C77_expanded : forall T V I Sch text U semver closure_body path stream path_text impl_of impl_eqb default_impls
    manifest_dir current_dir open json yaml error_text add_ref_types types o i code p,
  generate_api T V I Sch text U semver closure_body path stream path_text impl_of impl_eqb default_impls
    manifest_dir current_dir open json yaml error_text add_ref_types types o i = Expanded code p
  <-> exists spec s dir data d,
    read_invocation T V I Sch text U semver closure_body path stream path_text impl_of impl_eqb default_impls o i = Some (spec, s)
    /\ directory manifest_dir current_dir dir /\ located dir spec p /\ open p = inl data /\ document_in json yaml data d
    /\ generate_tokens U (add_ref_types (type_calls _ _ _ _ (o_patch_out o) (o_replace_out o) s))
         (types (type_calls _ _ _ _ (o_patch_out o) (o_replace_out o) s)) (read_settings _ _ _ _ s) d = Ok code.
Proof. exact @expanded_iff. Qed.
Print Assumptions C77_expanded.

Example C77_expanded_ex : s_api s_o (InvKeys _ _ s_entries)
  = Expanded match s_api s_o (InvKeys _ _ s_entries) with Expanded c _ => c | _ => ExampleGenerate.y_empty end (lit "/x/api.json").
Proof. exact s_expanded. Qed.

(** ... and the errors it gives. *)
Theorem C77_error : forall T V I Sch text U semver closure_body path stream path_text impl_of impl_eqb default_impls
    manifest_dir current_dir open json yaml error_text add_ref_types types o i msg,
  generate_api T V I Sch text U semver closure_body path stream path_text impl_of impl_eqb default_impls
    manifest_dir current_dir open json yaml error_text add_ref_types types o i = CompileError (Some msg)
  <-> exists spec s dir p,
    read_invocation T V I Sch text U semver closure_body path stream path_text impl_of impl_eqb default_impls o i = Some (spec, s)
    /\ directory manifest_dir current_dir dir /\ located dir spec p
    /\ ((exists e, open p = inr e /\ msg = lit "couldn't read file " ++ p ++ lit ": " ++ e)
        \/ (exists data e, open p = inl data /\ json data = None /\ yaml data = inr e
              /\ msg = lit "failed to parse " ++ p ++ lit ": " ++ e)
        \/ (exists data d e, open p = inl data /\ document_in json yaml data d
              /\ generate_tokens U (add_ref_types (type_calls _ _ _ _ (o_patch_out o) (o_replace_out o) s))
                   (types (type_calls _ _ _ _ (o_patch_out o) (o_replace_out o) s)) (read_settings _ _ _ _ s) d = Err e
              /\ msg = lit "generation error for " ++ spec ++ lit ": " ++ error_text e)).
Proof. exact @error_iff. Qed.
Print Assumptions C77_error.

Example C77_error_ex :
  s_api s_o (InvString _ _ (lit "/y")) = CompileError (Some (lit "couldn't read file /y: no such file")).
Proof. exact s_missing. Qed.

(** ... the options being called as documented, one key standing for one option ... *)
Theorem C77_key_names : forall W T Sch (R : readers W T Sch) w k e, read_entry W T Sch R (k, w) = Some e ->
  stands R w k e /\ (key T Sch e = Some k <-> In k option_names).
Proof.
  exact (fun W T Sch R w k e H => conj (read_entry_stands R k w e H) (key_names R w k e (read_entry_stands R k w e H))).
Qed.
Print Assumptions C77_key_names.

Theorem C77_written : forall W T Sch (R : readers W T Sch) api ws es,
  Forall2 (fun kw e => stands R (snd kw) (fst kw) e) ws es -> generate_written W T Sch R api ws = api (InvKeys T Sch es).
Proof. exact @written_means. Qed.
Print Assumptions C77_written.

Example C77_written_ex : Forall2 (fun kw e => stands k_readers (snd kw) (fst kw) e) k_written s_entries.
Proof. exact k_stand. Qed.

(** ... and no option being written twice. *)
Theorem C77_written_accepted : forall W T V I Sch (R : readers W T Sch) text U semver closure_body path stream path_text impl_of
    impl_eqb default_impls, no_paren path ->
  forall manifest_dir current_dir open json yaml error_text add_ref_types types o ws,
  generate_written W T Sch R (generate_api T V I Sch text U semver closure_body path stream path_text impl_of impl_eqb default_impls
    manifest_dir current_dir open json yaml error_text add_ref_types types o) ws = CompileError None
  <-> ~ (In (lit "spec") (map fst ws) /\ written_once ws
         /\ exists es, Forall2 (fun kw e => stands R (snd kw) (fst kw) e) ws es
            /\ Forall (readable_value U semver closure_body path) es).
Proof. exact @written_rejected. Qed.
Print Assumptions C77_written_accepted.

Example C77_written_accepted_ex :
  generate_written _ _ _ k_readers (s_api s_o) (k_written ++ [(lit "struct_builder", KvWord (lit "true"))])
    = s_api s_o (InvKeys _ _ s_entries)
  /\ generate_written _ _ _ k_readers (s_api s_o) (k_written ++ [(lit "map_type", KvTokens [])]) = CompileError None
  /\ generate_written _ _ _ k_readers (s_api s_o) (k_written ++ [(lit "tags", KvWord (lit "merged"))]) = CompileError None.
Proof. exact k_twice. Qed.

(** The generator without settings has the default settings, and tells typify nothing but the name of its module. *)
Theorem C77_default_generator : forall T V I Sch o o', order_ok o -> order_ok o' ->
  gn_settings T V I Sch (generator_default T V I Sch) = gn_settings T V I Sch (generator_new T V I Sch o o' (default_settings T V I Sch))
  /\ (forall c, In c (gn_calls T V I Sch (generator_default T V I Sch)) <-> c = CallTypeMod V I Sch (lit "types"))
  /\ forall c, In c (gn_calls T V I Sch (generator_new T V I Sch o o' (default_settings T V I Sch)))
       <-> c = CallTypeMod V I Sch (lit "types") \/ c = CallStructBuilder V I Sch false
           \/ c = CallUnknownCrates V I Sch PolicyGenerate.
Proof. exact @default_generator. Qed.
Print Assumptions C77_default_generator.

Example C77_default_generator_ex : order_ok s_same /\ order_ok s_back.
Proof. exact (conj (proj1 s_o_ok) (proj1 s_o'_ok)). Qed.

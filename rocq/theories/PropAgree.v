(** C94: a macro, a build script and cargo-progenitor that say the same generate the same. *)
From Coq Require Import Permutation.
From Verif Require Import Base OasModel OpModel BuilderModel MethodModel SanitizeModel GenerateModel MacroModel MacroSpec
  SettingsModel SettingsSpec ScriptModel ScriptSpec AgreeSpec AgreeProofs AgreeCode CargoModel SpaceModel CrateModel CrateSpec
  ExampleMacro ExampleSettings ExampleScript ExampleCrate ExampleAgree.
Local Open Scope N_scope.

(** If the options of the macro say what the calls of a build script say, the generator gets the same settings, and typify is told the
    same, but for what hash maps decide; ... *)
Theorem C94_settings : forall T V I Sch text U semver closure_body path stream path_text impl_of impl_eqb default_impls,
  no_paren path -> (forall i j : I, impl_eqb i j = true <-> i = j) -> NoDup default_impls ->
  forall o es spec s calls op orr, orders_ok o -> order_ok op -> order_ok orr ->
  (forall l, In (EnCrates _ _ l) es -> separate_crates U semver l) ->
  read_invocation T V I Sch text U semver closure_body path stream path_text impl_of impl_eqb default_impls o (InvKeys _ _ es)
    = Some (spec, s) ->
  agrees text U semver closure_body path stream path_text impl_of default_impls es calls ->
  same_for_generator s (settings_after T V I Sch calls)
  /\ same_calls (gn_calls _ _ _ _ (generator_new _ _ _ _ (o_patch_out o) (o_replace_out o) s))
       (gn_calls _ _ _ _ (generator_new _ _ _ _ op orr (settings_after T V I Sch calls))).
Proof. exact @script_agrees. Qed.
Print Assumptions C94_settings.

Example C94_settings_ex : (orders_ok s_o' /\ order_ok h_same /\ order_ok h_rev)
  /\ (forall l, In (EnCrates _ _ l) e_entries -> separate_crates unicode15 some_semver l)
  /\ (exists s, s_read s_o' (InvKeys _ _ e_entries) = Some (lit "api.json", s)) /\ e_agrees e_entries e_calls.
Proof.
  split; [exact (conj s_o'_ok h_orders)|]. split; [exact e_separate|]. split; [eexists; vm_compute; reflexivity|exact e_said].
Qed.

(** ... so, typify not minding the order of patches, replacements and traits, the macro expands to a code exactly if its options can be
    read and the script generates this code for the document in the file; ... *)
Theorem C94_code : forall T V I Sch text U semver closure_body path stream path_text impl_of impl_eqb default_impls,
  no_paren path -> (forall i j : I, impl_eqb i j = true <-> i = j) -> NoDup default_impls ->
  forall manifest_dir current_dir open json yaml error_text add_ref_types types,
  (forall cs cs', same_calls cs cs' -> add_ref_types cs = add_ref_types cs' /\ types cs = types cs') ->
  forall o es calls op orr code p, orders_ok o -> order_ok op -> order_ok orr ->
  (forall l, In (EnCrates _ _ l) es -> separate_crates U semver l) ->
  agrees text U semver closure_body path stream path_text impl_of default_impls es calls ->
  (generate_api T V I Sch text U semver closure_body path stream path_text impl_of impl_eqb default_impls
     manifest_dir current_dir open json yaml error_text add_ref_types types o (InvKeys _ _ es) = Expanded code p <->
   not_repeated es /\ Forall (readable_value U semver closure_body path) es
   /\ exists spec dir data d, In (EnSpec _ _ spec) es /\ directory manifest_dir current_dir dir /\ located dir spec p
        /\ open p = inl data /\ document_in json yaml data d
        /\ script_code U add_ref_types types op orr calls d = Ok code).
Proof. exact @macro_code. Qed.
Print Assumptions C94_code.

Example C94_code_ex : e_agrees e_entries e_calls
  /\ exists code, e_script (lit "ping") = Ok code /\ e_api (lit "ping") (InvKeys _ _ e_entries) = Expanded code (lit "/x/api.json").
Proof. exact (conj e_said e_code). Qed.

(** ... and gives the error of the script; ... *)
Theorem C94_error : forall T V I Sch text U semver closure_body path stream path_text impl_of impl_eqb default_impls,
  no_paren path -> (forall i j : I, impl_eqb i j = true <-> i = j) -> NoDup default_impls ->
  forall manifest_dir current_dir open json yaml error_text add_ref_types types,
  (forall cs cs', same_calls cs cs' -> add_ref_types cs = add_ref_types cs' /\ types cs = types cs') ->
  forall o es calls op orr spec dir p data d e, orders_ok o -> order_ok op -> order_ok orr ->
  (forall l, In (EnCrates _ _ l) es -> separate_crates U semver l) ->
  agrees text U semver closure_body path stream path_text impl_of default_impls es calls ->
  not_repeated es -> Forall (readable_value U semver closure_body path) es -> In (EnSpec _ _ spec) es ->
  directory manifest_dir current_dir dir -> located dir spec p -> open p = inl data -> document_in json yaml data d ->
  script_code U add_ref_types types op orr calls d = Err e ->
  generate_api T V I Sch text U semver closure_body path stream path_text impl_of impl_eqb default_impls
    manifest_dir current_dir open json yaml error_text add_ref_types types o (InvKeys _ _ es)
  = CompileError (Some (lit "generation error for " ++ spec ++ lit ": " ++ error_text e)).
Proof. exact @macro_errors. Qed.
Print Assumptions C94_error.

Example C94_error_ex : e_agrees e_entries e_calls /\ exists e, e_script (lit "get-item") = Err e
  /\ e_api (lit "get-item") (InvKeys _ _ e_entries) = CompileError (Some (lit "generation error for api.json: e")).
Proof. exact (conj e_said e_error). Qed.

(** ... and the library that cargo-progenitor writes is, formatted, what the macro with the same options expands to. *)
Theorem C94_command : forall T V I Sch text U semver closure_body path stream path_text impl_of impl_eqb default_impls,
  no_paren path -> (forall i j : I, impl_eqb i j = true <-> i = j) -> NoDup default_impls ->
  forall manifest_dir current_dir open json yaml error_text add_ref_types types,
  (forall cs cs', same_calls cs cs' -> add_ref_types cs = add_ref_types cs' /\ types cs = types cs') ->
  forall mkdir readable writes text_of uses_of rustfmt client_code windows non_release pkg_version
    a fs fs' o op orr spec dir p, orders_ok o -> order_ok op -> order_ok orr ->
  directory manifest_dir current_dir dir -> located dir spec p ->
  (forall data, content (ca_input a) fs = Some data -> open p = inl data) ->
  let told := gn_calls T V I Sch (generator_new _ _ _ _ op orr (settings_after _ _ _ _ (command_calls T V I Sch (ca_interface a) (ca_tags a)))) in
  main json (fun c => match yaml c with inl d => Some d | inr _ => None end) mkdir readable writes
    (generate_tokens U (add_ref_types told) (types told)) text_of uses_of rustfmt client_code windows non_release pkg_version a fs
    = (ExitOk, fs') ->
  exists code formatted lib,
    generate_api T V I Sch text U semver closure_body path stream path_text impl_of impl_eqb default_impls
      manifest_dir current_dir open json yaml error_text add_ref_types types o
      (InvKeys _ _ [EnSpec _ _ spec; EnInterface _ _ (ca_interface a); EnTags _ _ (ca_tags a)]) = Expanded code p
    /\ rustfmt (if ca_include_client a then lit "mod progenitor_client;" ++ [10; 10] ++ text_of code else text_of code) = Some formatted
    /\ space_out_items windows formatted = Ok lib /\ content (lib_path a) fs' = Some lib.
Proof. exact @command_code. Qed.
Print Assumptions C94_command.

Example C94_command_ex : fst e_main = ExitOk
  /\ e_read (lit "/x/api.json") = inl (lit "{}") /\ content (ca_input e_args) n_before = Some (lit "{}").
Proof. exact e_command. Qed.

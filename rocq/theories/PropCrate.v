(** C74 and C75: the crate written by cargo-progenitor. *)
From Verif Require Import Base OasModel OpModel BuilderModel MethodModel SanitizeModel GenerateModel GenerateSpec ValidateProofs
  CargoModel CargoSpec SpaceModel CrateModel TomlSpec CrateSpec CrateProofs TomlExact ExampleData ExampleGenerate ExampleCrate.
Local Open Scope N_scope.

(** C74: the manifest is readable TOML and says exactly what was asked for and what the generated code needs if and
    only if the texts given need no escaping. *)
Theorem C74_manifest_iff : forall U add_ref_types types s d g l,
  generate_tokens U add_ref_types types s d = Ok g -> operations_in_order d l ->
  forall non_release pkg_version v ts a, support_version non_release pkg_version v -> plain_text v ->
  (exists es,
    toml (manifest a (dependencies non_release pkg_version ts (ge_futures g) (ge_websockets g) (ca_include_client a))) = Some es
    /\ forall t k x, In (t, k, x) es <->
         (t = lit "package" /\ In (k, x) (package_fields a))
         \/ (t = lit "dependencies" /\ exists e, needed ts (ge_code g) (ca_include_client a) v e /\ toml e = Some [([], k, x)]))
  <-> plain_args a.
Proof. exact manifest_iff. Qed.
Print Assumptions C74_manifest_iff.

Example C74_manifest_ex :
  generate_tokens unicode15 (fun _ => Ok x_ts) y_types (y_set Positional Merged) (y_doc (lit "ping"))
    = Ok (y_gen Positional Merged (lit "ping"))
  /\ operations_in_order (y_doc (lit "ping")) (y_ops (lit "ping"))
  /\ support_version false (Some (lit "0.9.1")) (lit "0.9.1")
  /\ plain_args (n_args (lit "MIT OR Apache-2.0") false)
  /\ option_map (@length _) (toml (manifest (n_args (lit "MIT OR Apache-2.0") false)
       (dependencies false (Some (lit "0.9.1")) n_uses
          (ge_futures (y_gen Positional Merged (lit "ping"))) (ge_websockets (y_gen Positional Merged (lit "ping"))) false)))
     = Some 15%nat.
Proof.
  split; [exact y_positional|]. split; [exact (doc_ops_in_order _)|]. split; [left; auto|]. split; [apply n_plain|].
  now rewrite n_toml.
Qed.

(** C74: other texts change what the manifest says (a license here, which adds an entry of its own). *)
Theorem C74_escaping_refuted : exists a non_release pkg_version ts fu ws own es,
  toml (manifest a (dependencies non_release pkg_version ts fu ws own)) = Some es
  /\ In (lit "package", lit "license", TString (lit "MIT")) es
  /\ In (lit "package", lit "build", TString (lit "elsewhere.rs")) es
  /\ ~ In (lit "package", lit "license", TString (ca_license_name a)) es.
Proof. exists (n_args n_license true), true, None, n_uses, false, false, true. exact n_injected. Qed.
Print Assumptions C74_escaping_refuted.

(** C74: or make it unreadable. *)
Theorem C74_readable_refuted : exists a non_release pkg_version ts fu ws own,
  toml (manifest a (dependencies non_release pkg_version ts fu ws own)) = None.
Proof. exists (n_args (lit "the ""MIT"" license") true), true, None, n_uses, false, false, true. exact n_unreadable. Qed.
Print Assumptions C74_readable_refuted.

Section Main.
Variable json yaml : str -> option openapi.
Variable mkdir readable : list str -> bool.
Variable writes : list str -> write_result.
Variable generate : settings -> openapi -> outcome generated_code.
Variable text_of : generated_code -> str.
Variable uses_of : settings -> openapi -> type_uses.
Variable rustfmt : str -> option str.
Variable client_code : str.
Variable windows non_release : bool.
Variable pkg_version : option str.
Notation run := (main json yaml mkdir readable writes generate text_of uses_of rustfmt client_code windows non_release pkg_version).
(** The settings asked for: nothing but the two styles can be chosen on the command line. *)
Notation asked_for a := (Settings (ca_interface a) (ca_tags a) false (Hooks false false false false)).
Notation deps a d g := (dependencies non_release pkg_version (uses_of (asked_for a) d) (ge_futures g) (ge_websockets g) (ca_include_client a)).
Notation source a g := (if ca_include_client a then lit "mod progenitor_client;" ++ [10; 10] ++ text_of g else text_of g).
Notation input a fs d := (readable (ca_input a) = true /\ exists c, content (ca_input a) fs = Some c /\ document json yaml c d).

(** C75: a crate is written exactly when the document can be read (as JSON or else as YAML), code can be generated and
    formatted, the directories can be created and all the files be written; the new files are these. *)
Theorem C75_success_iff : forall a fs fs', run a fs = (ExitOk, fs') <->
  exists d g code lib,
    input a fs d /\ generate (asked_for a) d = Ok g
    /\ mkdir (ca_output a) = true /\ mkdir (ca_output a ++ [lit "src"]) = true
    /\ Forall (fun p => writes p = Written) (crate_paths a)
    /\ rustfmt (source a g) = Some code /\ space_out_items windows code = Ok lib
    /\ fs' = (let fs1 := put (lib_path a) lib (put (manifest_path a) (manifest a (deps a d g)) fs) in
              if ca_include_client a then put (support_path a) client_code fs1 else fs1).
Proof. exact (main_success json yaml mkdir readable writes generate text_of uses_of rustfmt client_code windows non_release pkg_version). Qed.

(** C75: what is in the files after a success. *)
Theorem C75_files : forall a fs fs', run a fs = (ExitOk, fs') ->
  exists d g code lib,
    input a fs d /\ generate (asked_for a) d = Ok g
    /\ content (manifest_path a) fs' = Some (manifest a (deps a d g))
    /\ rustfmt (source a g) = Some code
    /\ space_out_items windows code = Ok lib /\ content (lib_path a) fs' = Some lib
    /\ (ca_include_client a = true -> content (support_path a) fs' = Some client_code).
Proof. exact (main_files json yaml mkdir readable writes generate text_of uses_of rustfmt client_code windows non_release pkg_version). Qed.

(** C75: however it ends, no other file changes. *)
Theorem C75_other_files : forall a fs e fs' p, run a fs = (e, fs') -> ~ In p (crate_paths a) -> content p fs' = content p fs.
Proof. exact (main_others json yaml mkdir readable writes generate text_of uses_of rustfmt client_code windows non_release pkg_version). Qed.

(** C75: without a document or without code nothing is written, and the program does not succeed. *)
Theorem C75_nothing : forall a fs e fs', run a fs = (e, fs') ->
  (forall d, ~ input a fs d) \/ (exists d, input a fs d /\ forall g, generate (asked_for a) d <> Ok g) ->
  e <> ExitOk /\ fs' = fs.
Proof. exact (main_nothing json yaml mkdir readable writes generate text_of uses_of rustfmt client_code windows non_release pkg_version). Qed.

(** C75: when the program panics: with the generator, or, with the manifest written, if the code cannot be formatted. *)
Theorem C75_panic_iff : forall a fs fs', run a fs = (ExitPanic, fs') <->
  exists d, input a fs d
    /\ ((exists m, generate (asked_for a) d = Panic m) /\ fs' = fs
        \/ exists g, generate (asked_for a) d = Ok g
             /\ mkdir (ca_output a) = true /\ writes (manifest_path a) = Written /\ mkdir (ca_output a ++ [lit "src"]) = true
             /\ rustfmt (source a g) = None /\ fs' = put (manifest_path a) (manifest a (deps a d g)) fs).
Proof. exact (main_panic json yaml mkdir readable writes generate text_of uses_of rustfmt client_code windows non_release pkg_version). Qed.

(** C75: however it ends, files are written one after the other, each a beginning of what it ought to be, and none
    is touched before the ones written earlier are complete. *)
Theorem C75_order : forall a fs e fs', run a fs = (e, fs') ->
  fs' = fs
  \/ exists d g,
       input a fs d /\ generate (asked_for a) d = Ok g
       /\ (exists n, content (manifest_path a) fs' = Some (firstn n (manifest a (deps a d g))))
       /\ ((content (lib_path a) fs' = content (lib_path a) fs /\ content (support_path a) fs' = content (support_path a) fs)
           \/ exists code lib,
                content (manifest_path a) fs' = Some (manifest a (deps a d g))
                /\ rustfmt (source a g) = Some code /\ space_out_items windows code = Ok lib
                /\ (exists n, content (lib_path a) fs' = Some (firstn n lib))
                /\ (content (support_path a) fs' = content (support_path a) fs
                    \/ ca_include_client a = true /\ content (lib_path a) fs' = Some lib
                       /\ exists n, content (support_path a) fs' = Some (firstn n client_code))).
Proof. exact (main_order json yaml mkdir readable writes generate text_of uses_of rustfmt client_code windows non_release pkg_version). Qed.

(** C75: writing the crate again changes nothing, if the document is not one of its files. *)
Theorem C75_again : forall a fs fs', ~ In (ca_input a) (crate_paths a) ->
  run a fs = (ExitOk, fs') -> run a fs' = (ExitOk, fs').
Proof. exact (main_again json yaml mkdir readable writes generate text_of uses_of rustfmt client_code windows non_release pkg_version). Qed.
End Main.
Print Assumptions C75_success_iff.
Print Assumptions C75_files.
Print Assumptions C75_other_files.
Print Assumptions C75_nothing.
Print Assumptions C75_panic_iff.
Print Assumptions C75_order.
Print Assumptions C75_again.

(** A run that succeeds (C75_success_iff, C75_files, C75_other_files, C75_order), after which the file other is as before. *)
Example C75_ex : exists fs, n_main true n_before = (ExitOk, fs)
  /\ content [lit "out"; lit "sample"; lit "src"; lit "lib.rs"] fs
     = Some (lit "mod progenitor_client;" ++ [10; 10] ++ lit "pub struct A {" ++ [10] ++ lit "}" ++ [10; 10] ++ lit "pub struct B;")
  /\ content [lit "out"; lit "sample"; lit "src"; lit "progenitor_client.rs"] fs = Some (lit "// support")
  /\ content [lit "other"] fs = Some (lit "kept") /\ length fs = 5%nat.
Proof. exact n_run. Qed.
(** One without a document (C75_nothing). *)
Example C75_nothing_ex : n_main true [([lit "api.json"], lit "?")] = (ExitErr, [([lit "api.json"], lit "?")]).
Proof. exact n_no_document. Qed.
(** One that panics after writing the manifest (C75_panic_iff). *)
Example C75_panic_ex : exists fs,
  main n_json n_yaml (fun _ => true) (fun _ => true) (fun _ => Written) n_generate n_text
    (fun _ _ => n_uses) (fun _ => None) (lit "// support") false false (Some (lit "0.9.1"))
    (n_args (lit "MIT OR Apache-2.0") true) n_before = (ExitPanic, fs) /\ length fs = 3%nat.
Proof. exact n_panic. Qed.
(** The document is not one of the files of the crate (C75_again). *)
Example C75_again_ex : ~ In (ca_input (n_args (lit "MIT OR Apache-2.0") true)) (crate_paths (n_args (lit "MIT OR Apache-2.0") true)).
Proof. intro H. vm_compute in H. repeat (destruct H as [H|H]; [discriminate|]). exact H. Qed.

(** What the crate written by cargo-progenitor has to be. *)
From Verif Require Import Base OasModel OpModel GenerateModel CargoModel CargoSpec SpaceModel CrateModel TomlSpec.
Local Open Scope N_scope.

(** Texts that stand for themselves in double quotes. *)
Definition plain_text (s : str) : Prop := Forall (fun c => c <> 34 /\ c <> 92 /\ control c = false) s.

(** All texts given on the command line that go into the manifest are such texts. *)
Definition plain_args (a : crate_args) : Prop :=
  plain_text (ca_name a) /\ plain_text (ca_version a) /\ plain_text (ca_license_name a)
  /\ forall r, ca_registry_name a = Some r -> plain_text r.

(** What the manifest says about the package. *)
Definition package_fields (a : crate_args) : list (str * tval) :=
  [(lit "name", TString (ca_name a)); (lit "version", TString (ca_version a)); (lit "edition", TString (lit "2021"));
   (lit "license", TString (ca_license_name a))]
  ++ match ca_registry_name a with Some r => [(lit "publish", TArray [TString r])] | None => [] end.

(** The files of a crate. *)
Definition manifest_path (a : crate_args) : list str := ca_output a ++ [lit "Cargo.toml"].
Definition lib_path (a : crate_args) : list str := ca_output a ++ [lit "src"; lit "lib.rs"].
Definition support_path (a : crate_args) : list str := ca_output a ++ [lit "src"; lit "progenitor_client.rs"].
Definition crate_paths (a : crate_args) : list (list str) :=
  [manifest_path a; lib_path a] ++ if ca_include_client a then [support_path a] else [].

(** The document in a file: JSON if it can be read so, YAML otherwise. *)
Inductive document (json yaml : str -> option openapi) (c : str) (d : openapi) : Prop :=
| DocumentJson : json c = Some d -> document json yaml c d
| DocumentYaml : json c = None -> yaml c = Some d -> document json yaml c d.

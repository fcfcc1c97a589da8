(** Sample runs of cargo-progenitor. *)
From Verif Require Import Base OasModel OpModel BuilderModel MethodModel SanitizeModel GenerateModel GenerateSpec ValidateProofs
  CargoModel CargoSpec CargoProofs SpaceModel CrateModel TomlSpec CrateSpec TomlProofs CrateProofs ExampleData ExampleGenerate.
Local Open Scope N_scope.

Definition n_args (license : str) (own : bool) : crate_args :=
  CrateArgs [lit "api.json"] [lit "out"; lit "sample"] (lit "sample") (lit "0.1.0") (Some (lit "internal")) license Positional Merged own.
Definition n_uses : type_uses := TypeUses false true false true.

Lemma n_plain : forall own, plain_args (n_args (lit "MIT OR Apache-2.0") own).
Proof.
  intro own. unfold plain_args, plain_text. cbn [n_args ca_name ca_version ca_license_name ca_registry_name].
  repeat split; [| | |intros r [= <-]]; apply Forall_forall; intros c Hc; vm_compute in Hc;
  repeat (destruct Hc as [<-|Hc]; [split; [|split]; [discriminate|discriminate|reflexivity]|]); easy.
Qed.

(** What the manifest of the sample document says. *)
Lemma n_toml : toml (manifest (n_args (lit "MIT OR Apache-2.0") false)
    (dependencies false (Some (lit "0.9.1")) n_uses
       (ge_futures (y_gen Positional Merged (lit "ping"))) (ge_websockets (y_gen Positional Merged (lit "ping"))) false))
  = Some ([(lit "package", lit "name", TString (lit "sample")); (lit "package", lit "version", TString (lit "0.1.0"));
           (lit "package", lit "edition", TString (lit "2021"));
           (lit "package", lit "license", TString (lit "MIT OR Apache-2.0"));
           (lit "package", lit "publish", TArray [TString (lit "internal")]);
           (lit "dependencies", lit "base64", TString (lit "0.22")); (lit "dependencies", lit "bytes", TString (lit "1.9"));
           (lit "dependencies", lit "futures-core", TString (lit "0.3"));
           (lit "dependencies", lit "progenitor-client", TString (lit "0.9.1"));
           (lit "dependencies", lit "rand", TString (lit "0.8"));
           (lit "dependencies", lit "reqwest",
            TTable [(lit "version", TString (lit "0.12")); (lit "default-features", TBool false);
                    (lit "features", TArray [TString (lit "json"); TString (lit "stream")])]);
           (lit "dependencies", lit "serde",
            TTable [(lit "version", TString (lit "1.0")); (lit "features", TArray [TString (lit "derive")])]);
           (lit "dependencies", lit "serde_json", TString (lit "1.0"));
           (lit "dependencies", lit "serde_urlencoded", TString (lit "0.7"));
           (lit "dependencies", lit "uuid",
            TTable [(lit "version", TString (lit "1.0")); (lit "features", TArray [TString (lit "serde"); TString (lit "v4")])])]).
Proof. rewrite (proj1 y_flags), (proj2 y_flags). vm_compute. reflexivity. Qed.

(** A license with a quotation mark. *)
Definition n_license : str := lit "MIT""" ++ [10] ++ lit "build = ""elsewhere.rs".
Lemma n_injected : exists es,
  toml (manifest (n_args n_license true) (dependencies true None n_uses false false true)) = Some es
  /\ In (lit "package", lit "license", TString (lit "MIT")) es
  /\ In (lit "package", lit "build", TString (lit "elsewhere.rs")) es
  /\ ~ In (lit "package", lit "license", TString n_license) es.
Proof.
  eexists. split; [vm_compute; reflexivity|]. split; [vm_compute; tauto|]. split; [vm_compute; tauto|].
  intro H. vm_compute in H. repeat (destruct H as [H|H]; [discriminate|]). exact H.
Qed.
(** And one that makes the manifest unreadable. *)
Lemma n_unreadable : toml (manifest (n_args (lit "the ""MIT"" license") true) (dependencies true None n_uses false false true)) = None.
Proof. vm_compute. reflexivity. Qed.

(** ** Runs *)

Definition n_json (c : str) : option openapi := if str_eqb c (lit "{}") then Some (y_doc (lit "ping")) else None.
Definition n_yaml (c : str) : option openapi := None.
Definition n_generate (s : settings) (d : openapi) : outcome generated_code :=
  generate_tokens unicode15 (fun _ => Ok x_ts) y_types s d.
Definition n_text (g : generated_code) : str := lit "pub struct A {" ++ [10] ++ lit "}" ++ [10] ++ lit "pub struct B;".
Definition n_before : list (list str * str) := [([lit "api.json"], lit "{}"); ([lit "other"], lit "kept")].
Definition n_main (own : bool) := main n_json n_yaml (fun _ => true) (fun _ => true) (fun _ => Written) n_generate n_text
  (fun _ _ => n_uses) Some (lit "// support") false false (Some (lit "0.9.1")) (n_args (lit "MIT OR Apache-2.0") own).

Lemma n_run : exists fs, n_main true n_before = (ExitOk, fs)
  /\ content [lit "out"; lit "sample"; lit "src"; lit "lib.rs"] fs
     = Some (lit "mod progenitor_client;" ++ [10; 10] ++ lit "pub struct A {" ++ [10] ++ lit "}" ++ [10; 10] ++ lit "pub struct B;")
  /\ content [lit "out"; lit "sample"; lit "src"; lit "progenitor_client.rs"] fs = Some (lit "// support")
  /\ content [lit "other"] fs = Some (lit "kept") /\ length fs = 5%nat.
Proof.
  eexists. split.
  - apply main_ok. exists (y_doc (lit "ping")), (y_gen Positional Merged (lit "ping")),
      (lib_text n_text (n_args (lit "MIT OR Apache-2.0") true) (y_gen Positional Merged (lit "ping"))).
    split; [split; [reflexivity|]; exists (lit "{}"); split; [reflexivity|]; now constructor|].
    split; [exact y_positional|]. split; [reflexivity|]. split; [reflexivity|].
    split; [repeat (apply Forall_cons; [reflexivity|]); apply Forall_nil|]. split; [reflexivity|]. reflexivity.
  - split; [vm_compute; reflexivity|]. split; [vm_compute; reflexivity|]. split; vm_compute; reflexivity.
Qed.

(** A document that cannot be read. *)
Lemma n_no_document : n_main true [([lit "api.json"], lit "?")] = (ExitErr, [([lit "api.json"], lit "?")]).
Proof. vm_compute. reflexivity. Qed.
(** Code that cannot be formatted. *)
Lemma n_panic : exists fs,
  main n_json n_yaml (fun _ => true) (fun _ => true) (fun _ => Written) n_generate n_text
    (fun _ _ => n_uses) (fun _ => None) (lit "// support") false false (Some (lit "0.9.1"))
    (n_args (lit "MIT OR Apache-2.0") true) n_before = (ExitPanic, fs) /\ length fs = 3%nat.
Proof.
  eexists. split.
  - apply main_panic. exists (y_doc (lit "ping")).
    split; [split; [reflexivity|]; exists (lit "{}"); split; [reflexivity|]; now constructor|]. right.
    exists (y_gen Positional Merged (lit "ping")). split; [exact y_positional|]. repeat (split; [reflexivity|]). reflexivity.
  - vm_compute. reflexivity.
Qed.

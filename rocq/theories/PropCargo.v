(** C55: the dependencies of a generated crate. *)
From Coq Require Import Sorting.Sorted.
From Verif Require Import Base SanitizeModel GenerateModel GenerateSpec ValidateProofs CargoModel CargoSpec CargoProofs
  ExampleData ExampleGenerate.
Local Open Scope N_scope.

(** C55: the entries are sorted, of different crates, and exactly those that are needed. *)
Theorem C55_dependencies : forall U add_ref_types types s d g l,
  generate_tokens U add_ref_types types s d = Ok g -> operations_in_order d l ->
  forall non_release pkg_version v ts own, support_version non_release pkg_version v ->
  let deps := dependencies non_release pkg_version ts (ge_futures g) (ge_websockets g) own in
  StronglySorted dep_lt deps /\ NoDup (map entry_name deps)
  /\ forall e, In e deps <-> needed ts (ge_code g) own v e.
Proof. exact crate_dependencies. Qed.
Print Assumptions C55_dependencies.

Example C55_ex :
  generate_tokens unicode15 (fun _ => Ok x_ts) y_types (y_set Positional Merged) (y_doc (lit "ping"))
    = Ok (y_gen Positional Merged (lit "ping"))
  /\ operations_in_order (y_doc (lit "ping")) (y_ops (lit "ping"))
  /\ support_version false (Some (lit "0.9.1")) (lit "0.9.1")
  /\ dependencies false (Some (lit "0.9.1")) (TypeUses false true false true)
       (ge_futures (y_gen Positional Merged (lit "ping"))) (ge_websockets (y_gen Positional Merged (lit "ping"))) false
     = [lit "base64 = ""0.22"""; lit "bytes = ""1.9"""; lit "futures-core = ""0.3""";
        lit "progenitor-client = ""0.9.1"""; lit "rand = ""0.8""";
        lit "reqwest = { version = ""0.12"", default-features=false, features = [""json"", ""stream""] }";
        lit "serde = { version = ""1.0"", features = [""derive""] }"; lit "serde_json = ""1.0""";
        lit "serde_urlencoded = ""0.7""";
        lit "uuid = { version = ""1.0"", features = [""serde"", ""v4""] }"].
Proof.
  split; [exact y_positional|]. split; [exact (doc_ops_in_order _)|]. split; [left; auto|].
  rewrite (proj1 y_flags), (proj2 y_flags). vm_compute. reflexivity.
Qed.

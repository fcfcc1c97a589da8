(** Which crates a generated crate needs. *)
From Verif Require Import Base CargoModel GenerateModel GenerateSpec.
Local Open Scope N_scope.

(** The part of an entry before its first space. *)
Fixpoint entry_name (l : str) : str :=
  match l with
  | [] => []
  | c :: r => if c =? ch " " then [] else c :: entry_name r
  end.

(** [needed ts code own version l]: the crate with types using [ts] and client [code], containing the
    support code itself if [own], needs the entry [l]; [version] is that of the support crate. *)
Inductive needed (ts : type_uses) (code : operation_code) (own : bool) (version : str) : str -> Prop :=
| NeedBase l : In l [lit "bytes = ""1.9"""; lit "futures-core = ""0.3""";
                     lit "reqwest = { version = ""0.12"", default-features=false, features = [""json"", ""stream""] }";
                     lit "serde = { version = ""1.0"", features = [""derive""] }";
                     lit "serde_urlencoded = ""0.7"""] -> needed ts code own version l
| NeedSupport : own = false ->
    needed ts code own version (lit "progenitor-client = """ ++ version ++ lit """")
| NeedPercent : own = true -> needed ts code own version (lit "percent-encoding = ""2.3""")
| NeedJson : own = true \/ uses_serde_json ts = true -> needed ts code own version (lit "serde_json = ""1.0""")
| NeedRegress : uses_regress ts = true -> needed ts code own version (lit "regress = ""0.10""")
| NeedUuid : uses_uuid ts = true ->
    needed ts code own version (lit "uuid = { version = ""1.0"", features = [""serde"", ""v4""] }")
| NeedChrono : uses_chrono ts = true ->
    needed ts code own version (lit "chrono = { version = ""0.4"", default-features=false, features = [""serde""] }")
| NeedFutures : streams code -> needed ts code own version (lit "futures = ""0.3""")
| NeedSockets l : Exists upgrades (bodies code) -> In l [lit "base64 = ""0.22"""; lit "rand = ""0.8"""] ->
    needed ts code own version l.

(** A release knows its version. *)
Definition support_version (non_release : bool) (pkg_version : option str) (v : str) : Prop :=
  (non_release = false /\ pkg_version = Some v) \/ ((non_release = true \/ pkg_version = None) /\ v = lit "*").

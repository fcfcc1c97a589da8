(** Model of cargo-progenitor/src/main.rs: the dependencies of the crate it writes. *)
From Verif Require Import Base.
Local Open Scope N_scope.

(** [is_non_release] and [option_env!("CARGO_PKG_VERSION")], main.rs:15-17 and 262-267: a debug build
    (or one without the variable) does not know its version. *)
Definition crate_version (non_release : bool) (pkg_version : option str) : str :=
  match non_release, pkg_version with
  | false, Some value => value
  | _, _ => lit "*"
  end.

(** The answers of typify's [TypeSpace] that are asked for in main.rs:272-296. *)
Record type_uses := TypeUses {
  uses_regress : bool;
  uses_uuid : bool;
  uses_chrono : bool;
  uses_serde_json : bool
}.

(** A double quote, which is written in format strings as an escape (main.rs:244-295). *)
Definition quote_char : str := [34].
(** [name = "version"], main.rs:244, 245, 248, 256-259, 268, 273, 288, 291, 292, 295. *)
Definition plain_dep (name version : str) : str := name ++ lit " = " ++ quote_char ++ version ++ quote_char.
(** [name = { version = "version"rest }], main.rs:246, 247, 276-279, 282-285. *)
Definition table_dep (name version rest : str) : str :=
  name ++ lit " = { version = " ++ quote_char ++ version ++ quote_char ++ rest ++ lit " }".
(** [, features = ["a", "b"]], the same lines (main.rs:246, 247, 276-279, 282-285). *)
Definition features (fs : list str) : str :=
  lit ", features = [" ++
  (fix go l := match l with
     | [] => []
     | [f] => quote_char ++ f ++ quote_char
     | f :: r => quote_char ++ f ++ quote_char ++ lit ", " ++ go r
     end) fs ++ lit "]".

(** [sort_unstable] on strings, main.rs:297: the entries are different, so that all sorting algorithms
    give the same result; modelled by insertion. *)
Fixpoint insert_dep (x : str) (l : list str) : list str :=
  match l with
  | [] => [x]
  | y :: r => match str_cmp x y with Gt => y :: insert_dep x r | _ => x :: l end
  end.
(** main.rs:297. *)
Definition sort_deps (l : list str) : list str := fold_right insert_dep [] l.

(** main.rs:242-299, with the versions of main.rs:227-240. *)
Definition dependencies (non_release : bool) (pkg_version : option str) (ts : type_uses)
    (uses_futures uses_websockets : bool) (include_client : bool) : list str :=
  let deps :=
    [plain_dep (lit "bytes") (lit "1.9");
     plain_dep (lit "futures-core") (lit "0.3");
     table_dep (lit "reqwest") (lit "0.12") (lit ", default-features=false" ++ features [lit "json"; lit "stream"]);
     table_dep (lit "serde") (lit "1.0") (features [lit "derive"]);
     plain_dep (lit "serde_urlencoded") (lit "0.7")] in
  let '(deps, needs_serde_json) :=
    if include_client then (deps ++ [plain_dep (lit "percent-encoding") (lit "2.3")], true)
    else (deps ++ [plain_dep (lit "progenitor-client") (crate_version non_release pkg_version)], false) in
  let deps := if uses_regress ts then deps ++ [plain_dep (lit "regress") (lit "0.10")] else deps in
  let deps := if uses_uuid ts then deps ++ [table_dep (lit "uuid") (lit "1.0") (features [lit "serde"; lit "v4"])]
              else deps in
  let deps := if uses_chrono ts
              then deps ++ [table_dep (lit "chrono") (lit "0.4") (lit ", default-features=false" ++ features [lit "serde"])]
              else deps in
  let deps := if uses_futures then deps ++ [plain_dep (lit "futures") (lit "0.3")] else deps in
  let deps := if uses_websockets
              then deps ++ [plain_dep (lit "base64") (lit "0.22")] ++ [plain_dep (lit "rand") (lit "0.8")] else deps in
  let deps := if uses_serde_json ts || needs_serde_json then deps ++ [plain_dep (lit "serde_json") (lit "1.0")]
              else deps in
  sort_deps deps.

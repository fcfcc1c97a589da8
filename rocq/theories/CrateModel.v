(** Model of cargo-progenitor/src/main.rs: reading the document and writing the crate. *)
From Verif Require Import Base OasModel OpModel BuilderModel MethodModel SanitizeModel GenerateModel CargoModel SpaceModel.
Local Open Scope N_scope.

(** main.rs:27-57, [Args]; a path is the list of its components. *)
Record crate_args := CrateArgs {
  ca_input : list str;
  ca_output : list str;
  ca_name : str;
  ca_version : str;
  ca_registry_name : option str;
  ca_license_name : str;
  ca_interface : interface_style;   (* main.rs:59-72, [InterfaceArg] *)
  ca_tags : tag_style;              (* main.rs:74-87, [TagArg] *)
  ca_include_client : bool
}.

(** main.rs:150-157, the head of the manifest. *)
Definition manifest_package (name version license_name : str) : str :=
  lit "[package]" ++ [10]
  ++ lit "name = " ++ quote_char ++ name ++ quote_char ++ [10]
  ++ lit "version = " ++ quote_char ++ version ++ quote_char ++ [10]
  ++ lit "edition = " ++ quote_char ++ lit "2021" ++ quote_char ++ [10]
  ++ lit "license = " ++ quote_char ++ license_name ++ quote_char ++ [10].
(** main.rs:158-160. *)
Definition manifest_publish (registry_name : option str) : str :=
  match registry_name with
  | Some r => lit "publish = [" ++ quote_char ++ r ++ quote_char ++ lit "]" ++ [10]
  | None => []
  end.
(** main.rs:161-170. *)
Definition manifest_dependencies (deps : list str) : str :=
  [10] ++ lit "[dependencies]" ++ [10] ++ join_str [10] deps ++ [10] ++ [10].
(** main.rs:150-170. *)
Definition manifest (a : crate_args) (deps : list str) : str :=
  manifest_package (ca_name a) (ca_version a) (ca_license_name a)
  ++ manifest_publish (ca_registry_name a) ++ manifest_dependencies deps.

(** ** Files *)

(** The files there are, by path (read at main.rs:305-310, written at 103-109). *)
Notation files := (list (prod (list (list N)) (list N))) (only parsing).
(** How writing a file ends (main.rs:103-109): it cannot be opened; it is opened, and only a prefix of the data
    is written; or all is well. *)
Inductive write_result := CannotOpen | WrittenUpTo (n : nat) | Written.

(** Equality of paths (main.rs:103-107 open by path). *)
Fixpoint path_eqb (a b : list str) : bool :=
  match a, b with
  | [], [] => true
  | x :: a', y :: b' => str_eqb x y && path_eqb a' b'
  | _, _ => false
  end.
(** Reading a path (main.rs:305, 309). *)
Fixpoint content (p : list str) (fs : files) : option str :=
  match fs with
  | [] => None
  | (q, c) :: r => if path_eqb p q then Some c else content p r
  end.
(** [create(true).truncate(true).write(true)] and then writing (main.rs:103-109). *)
Fixpoint put (p : list str) (data : str) (fs : files) : files :=
  match fs with
  | [] => [(p, data)]
  | (q, c) :: r => if path_eqb p q then (q, data) :: r else (q, c) :: put p data r
  end.

(** The end of the program: success, an error (main.rs:200-203 and the operators [?]), or a panic. *)
Inductive exit := ExitOk | ExitErr | ExitPanic.

Section Main.
(** The parsers of serde_json and serde_yaml for documents (main.rs:306, 310). *)
Variable json : str -> option openapi.
Variable yaml : str -> option openapi.
(** The operating system: which directories can be created (main.rs:144, 177), which files can be opened for
    reading (305, 309), how writing ends (103-109). *)
Variable mkdir : list str -> bool.
Variable readable : list str -> bool.
Variable writes : list str -> write_result.
(** The generator (main.rs:119-125), the text of what it generates ([api_code.to_string()], 180-183), what typify
    says of the types (272-296), rustfmt (95), [progenitor_client::code()] (193), and the build (15-17, 262). *)
Variable generate : settings -> openapi -> outcome generated_code.
Variable text_of : generated_code -> str.
Variable uses_of : settings -> openapi -> type_uses.
Variable rustfmt : str -> option str.
Variable client_code : str.
Variable windows non_release : bool.
Variable pkg_version : option str.

(** main.rs:301-314, [load_api]. *)
Definition load_api (p : list str) (fs : files) : option openapi :=
  if readable p then
    match content p fs with
    | None => None
    | Some c => match json c with Some d => Some d | None => yaml c end
    end
  else None.

(** main.rs:89-96, [reformat_code]. *)
Definition reformat_code (input : str) : outcome str :=
  match rustfmt input with
  | Some code => space_out_items windows code
  | None => Panic (lit "called `Result::unwrap()` on an `Err` value")
  end.

(** main.rs:98-111, [save]: whether all went well, and the files afterwards. *)
Definition save (p : list str) (data : str) (fs : files) : bool * files :=
  match writes p with
  | CannotOpen => (false, fs)
  | WrittenUpTo n => (false, put p (firstn n data) fs)
  | Written => (true, put p data fs)
  end.

(** main.rs:119-123, the settings (those of [GenerationSettings::default()] otherwise). *)
Definition crate_settings (a : crate_args) : settings := Settings (ca_interface a) (ca_tags a) false (Hooks false false false false).

(** main.rs:180-184. *)
Definition lib_text (a : crate_args) (g : generated_code) : str :=
  if ca_include_client a then lit "mod progenitor_client;" ++ [10; 10] ++ text_of g else text_of g.

(** main.rs:113-207, [main].  What is printed is left out. *)
Definition main (a : crate_args) (fs : files) : exit * files :=
  match load_api (ca_input a) fs with
  | None => (ExitErr, fs)
  | Some api =>
      match generate (crate_settings a) api with
      | Panic _ => (ExitPanic, fs)
      | Err _ => (ExitErr, fs)
      | Ok g =>
          let root := ca_output a in
          if negb (mkdir root) then (ExitErr, fs)
          else
            let deps := dependencies non_release pkg_version (uses_of (crate_settings a) api)
                          (ge_futures g) (ge_websockets g) (ca_include_client a) in
            let '(ok, fs) := save (root ++ [lit "Cargo.toml"]) (manifest a deps) fs in
            if negb ok then (ExitErr, fs)
            else
              let src := root ++ [lit "src"] in
              if negb (mkdir src) then (ExitErr, fs)
              else
                match reformat_code (lib_text a g) with
                | Panic _ => (ExitPanic, fs)
                | Err _ => (ExitPanic, fs)
                | Ok lib_code =>
                    let '(ok, fs) := save (src ++ [lit "lib.rs"]) lib_code fs in
                    if negb ok then (ExitErr, fs)
                    else if ca_include_client a then
                      let '(ok, fs) := save (src ++ [lit "progenitor_client.rs"]) client_code fs in
                      (if ok then ExitOk else ExitErr, fs)
                    else (ExitOk, fs)
                end
      end
  end.
End Main.

(** Model of parts of progenitor-macro/src: the crates section and the types of the replace and convert
    sections of [generate_api!]. *)
From Verif Require Import Base OasModel OpModel SanitizeModel.
Local Open Scope N_scope.

(** ** Crates *)

(** typify's [CrateVers]; [V] stands for semver's [Version] (lib.rs:230, 255). *)
Inductive crate_vers (V : Type) :=
| VersVersion (v : V)
| VersAny
| VersNever.
Arguments VersVersion {V} v.
Arguments VersAny {V}.
Arguments VersNever {V}.

(** typify's [CrateVers::parse]; [semver] stands for [semver::Version::parse] (lib.rs:255). *)
Definition vers_parse {V} (semver : str -> option V) (s : str) : option (crate_vers V) :=
  if str_eqb s (lit "!") then Some VersNever
  else if str_eqb s (lit "*") then Some VersAny
  else match semver s with Some v => Some (VersVersion v) | None => None end.

(** progenitor-macro/src/lib.rs:286-288. *)
Definition is_crate (U : unicode) (s : str) : bool :=
  negb (existsb (fun cc => negb (alphanumeric U cc) && negb (cc =? ch "_") && negb (cc =? ch "-")) s).

(** [s.find('@')], as the text before and after (lib.rs:240-242). *)
Fixpoint split_at_sign (s : str) : option (str * str) :=
  match s with
  | [] => None
  | c :: r =>
      if c =? ch "@" then Some ([], r)
      else match split_at_sign r with Some (a, b) => Some (c :: a, b) | None => None end
  end.

(** lib.rs:228-231. *)
Record macro_crate_spec (V : Type) := MacroCrateSpec { mc_original : option str; mc_version : crate_vers V }.
Arguments MacroCrateSpec {V}.
Arguments mc_original {V}.
Arguments mc_version {V}.

(** lib.rs:233-264; [None] stands for the error of the deserializer. *)
Definition parse_crate_spec {V} (U : unicode) (semver : str -> option V) (ss : str) : option (macro_crate_spec V) :=
  match (match split_at_sign ss with
         | Some (original_str, rest) => if is_crate U original_str then Some (Some original_str, rest) else None
         | None => Some (None, ss)
         end) with
  | Some (original, vers_str) =>
      match vers_parse semver vers_str with
      | Some version => Some (MacroCrateSpec original version)
      | None => None
      end
  | None => None
  end.

(** lib.rs:266-284. *)
Definition parse_crate_name (U : unicode) (ss : str) : option str := if is_crate U ss then Some ss else None.

(** The entries of the section (lib.rs:150), each of which is deserialized. *)
Fixpoint parse_crates {V} (U : unicode) (semver : str -> option V) (l : list (str * str))
    : option (list (str * macro_crate_spec V)) :=
  match l with
  | [] => Some []
  | (k, v) :: r =>
      match parse_crate_name U k, parse_crate_spec U semver v, parse_crates U semver r with
      | Some name, Some spec, Some rest => Some ((name, spec) :: rest)
      | _, _, _ => None
      end
  end.

(** progenitor-impl/src/lib.rs:79-83. *)
Record crate_spec (V : Type) := CrateSpec { cs_version : crate_vers V; cs_rename : option str }.
Arguments CrateSpec {V}.
Arguments cs_version {V}.
Arguments cs_rename {V}.

(** [with_crate], progenitor-impl/src/lib.rs:217-231, into the [BTreeMap] of progenitor-impl/src/lib.rs:72. *)
Definition with_crate {V} (crates : list (str * crate_spec V)) (crate_name : str) (version : crate_vers V)
    (rename : option str) : list (str * crate_spec V) :=
  bt_insert crate_name (CrateSpec version rename) crates.

(** The loop of lib.rs:331-339 over the [HashMap], whose order is that of the list. *)
Definition apply_crates {V} (entries : list (str * macro_crate_spec V)) (crates : list (str * crate_spec V))
    : list (str * crate_spec V) :=
  fold_left (fun crates e =>
    match mc_original (snd e) with
    | Some original_crate => with_crate crates original_crate (mc_version (snd e)) (Some (fst e))
    | None => with_crate crates (fst e) (mc_version (snd e)) None
    end) entries crates.

(** ** Types with traits *)

(** Tokens as far as they matter; [::] is one token here.  Generic arguments of paths are not modelled
    (token_utils.rs:50-74). *)
Inductive tok :=
| TkIdent (s : str)
| TkPathSep
| TkColon
| TkPlus
| TkQuestion
| TkOther (c : char).

(** syn's [TraitBoundModifier] (token_utils.rs:86). *)
Inductive bound_modifier := BmNone | BmMaybe.

(** progenitor-macro/src/token_utils.rs:84-89; [I] is [TypeImpl]. *)
Record impl_trait (I : Type) := ImplTrait { it_modifier : bound_modifier; it_ident : str; it_name : option I }.
Arguments ImplTrait {I}.
Arguments it_modifier {I}.
Arguments it_ident {I}.
Arguments it_name {I}.

(** A path: whether it begins with [::], and its segments (token_utils.rs:17). *)
Record type_path := TypePath { tp_leading : bool; tp_first : str; tp_rest : list str }.

(** token_utils.rs:15-20; the colon is [None] in [ti_impls] if there is none. *)
Record type_and_impls (I : Type) := TypeAndImpls { ti_name : type_path; ti_impls : option (list (impl_trait I)) }.
Arguments TypeAndImpls {I}.
Arguments ti_name {I}.
Arguments ti_impls {I}.

(** The segments after the first: pairs of [::] and an identifier (token_utils.rs:52). *)
Fixpoint parse_segments (n : nat) (ts : list tok) : option (list str * list tok) :=
  match n, ts with
  | S n', TkPathSep :: TkIdent s :: r =>
      match parse_segments n' r with Some (l, r') => Some (s :: l, r') | None => None end
  | S _, TkPathSep :: _ => None
  | S _, _ => Some ([], ts)
  | O, _ => None
  end.
(** syn's parser for [Path], token_utils.rs:52. *)
Definition parse_path (ts : list tok) : option (type_path * list tok) :=
  let '(leading, ts) := match ts with TkPathSep :: r => (true, r) | _ => (false, ts) end in
  match ts with
  | TkIdent s :: r =>
      match parse_segments (S (length r)) r with
      | Some (l, r') => Some (TypePath leading s l, r')
      | None => None
      end
  | _ => None
  end.

Section Impls.
Context {I : Type}.
(** [TypeImpl]'s [FromStr], token_utils.rs:95. *)
Variable impl_of : str -> option I.
Variable impl_eqb : I -> I -> bool.

(** token_utils.rs:91-103. *)
Definition parse_impl_trait (ts : list tok) : option (impl_trait I * list tok) :=
  let '(modifier, ts) := match ts with TkQuestion :: r => (BmMaybe, r) | _ => (BmNone, ts) end in
  match ts with
  | TkIdent s :: r => Some (ImplTrait modifier s (impl_of s), r)
  | _ => None
  end.

(** The loop of token_utils.rs:57-65. *)
Fixpoint parse_impls (n : nat) (ts : list tok) : option (list (impl_trait I) * list tok) :=
  match n with
  | O => None
  | S n' =>
      match parse_impl_trait ts with
      | None => None
      | Some (value, TkPlus :: r) =>
          match parse_impls n' r with Some (l, r') => Some (value :: l, r') | None => None end
      | Some (value, r) => Some ([value], r)
      end
  end.

(** token_utils.rs:50-74. *)
Definition parse_type_and_impls (ts : list tok) : option (type_and_impls I * list tok) :=
  match parse_path ts with
  | None => None
  | Some (type_name, TkColon :: r) =>
      match parse_impls (S (length r)) r with
      | Some (impls, r') => Some (TypeAndImpls type_name (Some impls), r')
      | None => None
      end
  | Some (type_name, r) => Some (TypeAndImpls type_name None, r)
  end.

(** [syn::parse2], which uses token_utils.rs:50-74: nothing may be left. *)
Definition parse_all (ts : list tok) : option (type_and_impls I) :=
  match parse_type_and_impls ts with
  | Some (t, []) => Some t
  | _ => None
  end.

(** [ToTokens]: token_utils.rs:76-82 and 105-110, and syn's for paths. *)
Definition path_tokens (p : type_path) : list tok :=
  (if tp_leading p then [TkPathSep] else []) ++ TkIdent (tp_first p) :: flat_map (fun s => [TkPathSep; TkIdent s]) (tp_rest p).
(** token_utils.rs:105-110. *)
Definition impl_tokens (i : impl_trait I) : list tok :=
  match it_modifier i with BmMaybe => [TkQuestion] | BmNone => [] end ++ [TkIdent (it_ident i)].
(** token_utils.rs:80, syn [Punctuated::to_tokens]. *)
Fixpoint impls_tokens (l : list (impl_trait I)) : list tok :=
  match l with
  | [] => []
  | [i] => impl_tokens i
  | i :: r => impl_tokens i ++ TkPlus :: impls_tokens r
  end.
(** token_utils.rs:76-82. *)
Definition type_tokens (t : type_and_impls I) : list tok :=
  path_tokens (ti_name t) ++ match ti_impls t with Some l => TkColon :: impls_tokens l | None => [] end.

(** [HashSet::insert] and [HashSet::remove] on the list of elements (token_utils.rs:41). *)
Definition set_remove (i : I) (l : list I) : list I := filter (fun j => negb (impl_eqb i j)) l.
(** token_utils.rs:40. *)
Definition set_insert (i : I) (l : list I) : list I := if existsb (impl_eqb i) l then l else i :: l.

(** token_utils.rs:23-47, the traits; the defaults are [FromStr] and [Display]. *)
Definition impls_of (defaults : list I) (t : type_and_impls I) : list I :=
  fold_left (fun impls i =>
    match it_name i with
    | Some impl_name =>
        match it_modifier i with
        | BmNone => set_insert impl_name impls
        | BmMaybe => set_remove impl_name impls
        end
    | None => impls
    end) (match ti_impls t with Some l => l | None => [] end) defaults.

End Impls.

(** What the sections of the macro mean. *)
From Verif Require Import Base SanitizeModel MacroModel.
Local Open Scope N_scope.

(** ** Crates *)

(** Names of crates. *)
Definition plain_name (U : unicode) (s : str) : Prop :=
  Forall (fun c => alphanumeric U c = true \/ c = ch "_" \/ c = ch "-") s.

(** Versions. *)
Inductive version_text {V} (semver : str -> option V) : str -> crate_vers V -> Prop :=
| VtNever : version_text semver (lit "!") VersNever
| VtAny : version_text semver (lit "*") VersAny
| VtVersion s v : s <> lit "!" -> s <> lit "*" -> semver s = Some v -> version_text semver s (VersVersion v).

(** A value of the section: a version, or a crate and a version. *)
Inductive value_text {V} (U : unicode) (semver : str -> option V) : str -> option str -> crate_vers V -> Prop :=
| VxPlain s v : ~ In (ch "@") s -> version_text semver s v -> value_text U semver s None v
| VxRename o s v : ~ In (ch "@") o -> plain_name U o -> version_text semver s v ->
    value_text U semver (o ++ [ch "@"] ++ s) (Some o) v.

(** [configures e c version rename]: the entry says that [version] of [c] is used, called [rename]. *)
Inductive configures {V} (U : unicode) (semver : str -> option V) : str * str -> str -> crate_vers V -> option str -> Prop :=
| CfPlain k s v : value_text U semver s None v -> configures U semver (k, s) k v None
| CfRename k s o v : value_text U semver s (Some o) v -> configures U semver (k, s) o v (Some k).

(** A section that can be read. *)
Definition readable {V} (U : unicode) (semver : str -> option V) (l : list (str * str)) : Prop :=
  Forall (fun e => plain_name U (fst e) /\ exists c v r, configures U semver e c v r) l.

(** No two entries are about one crate. *)
Definition separate_crates {V} (U : unicode) (semver : str -> option V) (l : list (str * str)) : Prop :=
  forall l1 e l2 e' l3 c v r v' r', l = l1 ++ e :: l2 ++ e' :: l3 ->
    configures U semver e c v r -> configures U semver e' c v' r' -> False.

(** ** Traits *)

(** A written type with traits: a path, and each trait with or without a question mark. *)
Fixpoint written_path (segments : list str) : list tok :=
  match segments with
  | [] => []
  | [s] => [TkIdent s]
  | s :: r => [TkIdent s; TkPathSep] ++ written_path r
  end.
Definition written_trait (w : bool * str) : list tok :=
  if fst w then [TkQuestion; TkIdent (snd w)] else [TkIdent (snd w)].
Fixpoint written_traits (ws : list (bool * str)) : list tok :=
  match ws with
  | [] => []
  | [w] => written_trait w
  | w :: r => written_trait w ++ [TkPlus] ++ written_traits r
  end.
Definition written (leading : bool) (segments : list str) (ws : list (bool * str)) : list tok :=
  (if leading then [TkPathSep] else []) ++ written_path segments
  ++ match ws with [] => [] | _ => [TkColon] ++ written_traits ws end.

(** The last mention of a trait decides, otherwise the default. *)
Definition decided {I} (impl_of : str -> option I) (defaults : list I) (ws : list (bool * str)) (i : I) : Prop :=
  (exists l1 s l2, ws = l1 ++ (false, s) :: l2 /\ impl_of s = Some i /\ Forall (fun w => impl_of (snd w) <> Some i) l2)
  \/ (Forall (fun w => impl_of (snd w) <> Some i) ws /\ In i defaults).

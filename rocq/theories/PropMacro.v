(** C57, C58, C69, C70: the sections of the macro. *)
From Coq Require Import Sorting.Permutation.
From Verif Require Import Base SanitizeModel MacroModel MacroSpec MacroProofs ExampleMacro.
Local Open Scope N_scope.

(** C57: which values are accepted and what they mean, ... *)
Theorem C57_value : forall V U (semver : str -> option V) s original version,
  parse_crate_spec U semver s = Some (MacroCrateSpec original version) <-> value_text U semver s original version.
Proof. exact @spec_iff. Qed.
Print Assumptions C57_value.

(** ... which names are, ... *)
Theorem C57_name : forall U s n, parse_crate_name U s = Some n <-> n = s /\ plain_name U s.
Proof. exact name_iff. Qed.
Print Assumptions C57_name.

(** ... which sections are, ... *)
Theorem C57_section : forall V U (semver : str -> option V) l,
  (exists es, parse_crates U semver l = Some es) <-> readable U semver l.
Proof. exact @crates_readable. Qed.
Print Assumptions C57_section.

(** ... and what the settings are then: what some entry says, if no two are about one crate. *)
Theorem C57_settings : forall V U (semver : str -> option V) l es,
  parse_crates U semver l = Some es -> separate_crates U semver l ->
  forall c v r, assoc c (apply_crates es []) = Some (CrateSpec v r) <-> exists e, In e l /\ configures U semver e c v r.
Proof. exact @crates_configured. Qed.
Print Assumptions C57_settings.

Example C57_ex :
  (exists es, parse_crates unicode15 some_semver some_section = Some es
     /\ apply_crates es [] = [(lit "chrono", CrateSpec VersAny None); (lit "rand", CrateSpec VersNever None);
                              (lit "uuid", CrateSpec (VersVersion (lit "1.0.0")) (Some (lit "mine")))])
  /\ parse_crate_spec unicode15 some_semver (lit "a b@1.0.0") = None
  /\ parse_crate_spec unicode15 some_semver (lit "ab@1.x") = None
  /\ parse_crate_name unicode15 (lit "a.b") = None.
Proof. split; [eexists; split; vm_compute; reflexivity|]. vm_compute. auto. Qed.

(** C58: the last mention of a trait decides, otherwise the defaults; no trait is repeated. *)
Theorem C58_traits : forall I (impl_of : str -> option I) impl_eqb, (forall i j, impl_eqb i j = true <-> i = j) ->
  forall defaults leading s l ws, NoDup defaults ->
  exists ty, parse_all impl_of (written leading (s :: l) ws) = Some ty
    /\ ti_name ty = TypePath leading s l
    /\ NoDup (impls_of impl_eqb defaults ty)
    /\ forall i, In i (impls_of impl_eqb defaults ty) <-> decided impl_of defaults ws i.
Proof. exact @traits_decided. Qed.
Print Assumptions C58_traits.

Example C58_ex :
  option_map (impls_of N.eqb [0; 1])
    (parse_all some_impl (written false [lit "a"; lit "B"]
       [(true, lit "Display"); (false, lit "Default"); (true, lit "FromStr"); (false, lit "Hash"); (false, lit "FromStr")]))
  = Some [0; 2].
Proof. vm_compute. reflexivity. Qed.

(** C69: the settings do not depend on the order in which a hash map gives the entries, if no two
    entries are about one crate. *)
Theorem C69_order_partial : forall V U (semver : str -> option V) l l' es es', Permutation l l' ->
  separate_crates U semver l -> parse_crates U semver l = Some es -> parse_crates U semver l' = Some es' ->
  apply_crates es [] = apply_crates es' [].
Proof. exact @crates_permuted. Qed.
Print Assumptions C69_order_partial.

Example C69_ex : separate_crates unicode15 some_semver some_section /\ NoDup (map fst some_section).
Proof. exact (conj some_separate some_names). Qed.

(** That is exactly when: entries of a hash map have different names. *)
Theorem C69_order_iff : forall V U (semver : str -> option V) l es, NoDup (map fst l) -> parse_crates U semver l = Some es ->
  (forall l' es', Permutation l l' -> parse_crates U semver l' = Some es' -> apply_crates es [] = apply_crates es' [])
  <-> separate_crates U semver l.
Proof. exact @order_iff. Qed.
Print Assumptions C69_order_iff.

(** Otherwise they may: two names for one crate. *)
Theorem C69_order_refuted : exists l l' es es', Permutation l l'
  /\ parse_crates unicode15 some_semver l = Some es /\ parse_crates unicode15 some_semver l' = Some es'
  /\ apply_crates es [] <> apply_crates es' [].
Proof. exact order_matters. Qed.
Print Assumptions C69_order_refuted.

(** C70: exactly the texts of the form [a::B: C + ?D] are accepted, ... *)
Theorem C70_syntax : forall I (impl_of : str -> option I) ts, (exists ty, parse_all impl_of ts = Some ty)
  <-> exists leading segments ws, segments <> [] /\ ts = written leading segments ws.
Proof. exact @syntax. Qed.
Print Assumptions C70_syntax.

(** ... and written again as they were. *)
Theorem C70_round_trip : forall I (impl_of : str -> option I) ts ty, parse_all impl_of ts = Some ty -> type_tokens ty = ts.
Proof. exact @print_read. Qed.
Print Assumptions C70_round_trip.

Example C70_ex :
  (exists ty, parse_all some_impl [TkIdent (lit "a"); TkPathSep; TkIdent (lit "B"); TkColon; TkQuestion; TkIdent (lit "Display")] = Some ty)
  /\ parse_all some_impl [TkIdent (lit "a"); TkColon] = None
  /\ parse_all some_impl [TkIdent (lit "a"); TkColon; TkIdent (lit "Display"); TkPlus] = None.
Proof. split; [eexists; vm_compute; reflexivity|]. vm_compute. auto. Qed.

(** Concrete data for the examples of PropMacro.v. *)
From Coq Require Import Sorting.Permutation.
From Verif Require Import Base SanitizeModel MacroModel MacroSpec MacroProofs.
Local Open Scope N_scope.

(** Texts of digits and dots as versions. *)
Definition some_semver (s : str) : option str :=
  if forallb (fun c => (c =? ch ".") || ((ch "0" <=? c) && (c <=? ch "9"))) s then Some s else None.
Definition some_section : list (str * str) := [(lit "mine", lit "uuid@1.0.0"); (lit "chrono", lit "*"); (lit "rand", lit "!")].

(** Traits as numbers. *)
Definition some_impl (s : str) : option N :=
  if str_eqb s (lit "FromStr") then Some 0 else if str_eqb s (lit "Display") then Some 1
  else if str_eqb s (lit "Default") then Some 2 else None.

Lemma order_matters : exists l l' es es', Permutation l l'
  /\ parse_crates unicode15 some_semver l = Some es /\ parse_crates unicode15 some_semver l' = Some es'
  /\ apply_crates es [] <> apply_crates es' [].
Proof.
  exists [(lit "a", lit "x@1.0"); (lit "b", lit "x@2.0")], [(lit "b", lit "x@2.0"); (lit "a", lit "x@1.0")].
  eexists. eexists. split; [apply perm_swap|]. split; [vm_compute; reflexivity|]. split; [vm_compute; reflexivity|].
  vm_compute. discriminate.
Qed.
Lemma some_separate : separate_crates unicode15 some_semver some_section.
Proof.
  eapply separate_nodup; [vm_compute; reflexivity|]. vm_compute.
  repeat (constructor; [vm_compute; intuition discriminate|]). constructor.
Qed.
Lemma some_names : NoDup (map fst some_section).
Proof. repeat (constructor; [vm_compute; intuition discriminate|]). constructor. Qed.

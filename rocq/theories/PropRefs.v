(** Property C38: resolution of component references. *)
From Verif Require Import Base OasModel MethodModel OpModel RefSpec RefProofs RefText ExampleData.

(** Resolution yields exactly what the reference denotes. *)
Theorem C38_resolves_iff : forall A (get : components -> list (str * ref_or A)) comps r a,
  item get comps r = Ok a <-> resolves get comps r a.
Proof. exact @item_ok_iff. Qed.
Print Assumptions C38_resolves_iff.

Theorem C38_denotes_one : forall A (get : components -> list (str * ref_or A)) comps r a b,
  resolves get comps r a -> resolves get comps r b -> a = b.
Proof. exact @resolves_fun. Qed.
Print Assumptions C38_denotes_one.

(** It fails (by a panic, never by an error value) exactly when some key on
    the way is undefined or the chain has no end. *)
Theorem C38_fails_iff : forall A (get : components -> list (str * ref_or A)) comps r,
  (exists m, item get comps r = Panic m) <-> dangles get comps r \/ endless get comps r.
Proof. exact @item_panics_iff. Qed.
Print Assumptions C38_fails_iff.

Theorem C38_never_an_error_value : forall A (get : components -> list (str * ref_or A)) comps r e,
  item get comps r <> Err e.
Proof. exact @item_never_err. Qed.
Print Assumptions C38_never_an_error_value.

(** The panic names the key that is undefined. *)
Theorem C38_missing : forall A (get : components -> list (str * ref_or A)) comps n r reference key c,
  refers_n get comps n r (Ref reference) -> comps = Some c -> last_segment reference key -> assoc key (get c) = None ->
  item get comps r = Panic (lit "key " ++ key ++ lit " is missing").
Proof. exact @item_missing. Qed.
Print Assumptions C38_missing.

Example C38_missing_ex :
  refers_n co_parameters (Some (Components [(lit "a", Ref (lit "#/components/parameters/b"))] [] [] [])) 1
    (Ref (lit "#/components/parameters/a")) (Ref (lit "#/components/parameters/b"))
  /\ last_segment (lit "#/components/parameters/b") (lit "b").
Proof.
  assert (L : forall k, k <> ch "/" -> last_segment (lit "#/components/parameters/" ++ [k]) [k]).
  { intros k Hk. exists (lit "#/components/parameters"). split; [reflexivity|]. intros [H|[]]. now apply Hk. }
  split; [|exact (L (ch "b") ltac:(discriminate))]. eapply rn_succ; [|constructor].
  eexists _, (lit "a"), _. split; [reflexivity|]. split; [reflexivity|]. split; [exact (L (ch "a") ltac:(discriminate))|reflexivity].
Qed.

(** Termination is false: the recursion is bottomless on endless chains ... *)
Theorem C38_terminates_iff_partial : forall A (get : components -> list (str * ref_or A)) comps r,
  endless get comps r <-> forall f, item_n f get comps r = None.
Proof. exact @endless_iff. Qed.
Print Assumptions C38_terminates_iff_partial.

(** ... and those exist. *)
Theorem C38_terminates_refuted : exists comps r, endless co_parameters comps r.
Proof.
  exists (Some (Components [(lit "a", Ref (lit "#/components/parameters/a"))] [] [] [])),
    (Ref (lit "#/components/parameters/a")).
  intro n. exists (Ref (lit "#/components/parameters/a")). induction n as [|n IH]; [constructor|].
  eapply rn_succ; [|exact IH].
  eexists _, (lit "a"), _. split; [reflexivity|]. split; [reflexivity|]. split; [|reflexivity].
  exists (lit "#/components/parameters"). split; [reflexivity|]. intros [H|[]]. discriminate.
Qed.
Print Assumptions C38_terminates_refuted.

(** A chain of two references, and a dangling one. *)
Definition ex_comps : option components :=
  Some (Components [(lit "a", Ref (lit "#/components/parameters/b"));
                    (lit "b", Item (ParHeader (x_param (lit "B") true)))] [] [] []).
Example C38_ex :
  item co_parameters ex_comps (Ref (lit "#/components/parameters/a")) = Ok (ParHeader (x_param (lit "B") true)) /\
  dangles co_parameters ex_comps (Ref (lit "#/components/parameters/c")) /\
  item_n 3 co_parameters ex_comps (Ref (lit "#/components/parameters/a")) <> None.
Proof.
  split; [reflexivity|]. split; [|discriminate].
  eapply dg_missing with (key := lit "c"); [reflexivity| |reflexivity].
  exists (lit "#/components/parameters"). split; [reflexivity|]. intros [H|[]]. discriminate.
Qed.

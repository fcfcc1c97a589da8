(** Facts about CargoModel.v. *)
From Coq Require Import Sorting.Sorted.
From Verif Require Import Base ParamProofs GenerateModel GenerateSpec GenerateCor CargoModel CargoSpec.
Local Open Scope N_scope.

Definition dep_lt (a b : str) : Prop := str_cmp a b = Lt.

(** What is needed, as a function of flags. *)
Definition flags (ts : type_uses) (fu ws own : bool) (version : str) : list (bool * str) :=
  [(ws, lit "base64 = ""0.22""");
   (true, lit "bytes = ""1.9""");
   (uses_chrono ts, lit "chrono = { version = ""0.4"", default-features=false, features = [""serde""] }");
   (fu, lit "futures = ""0.3""");
   (true, lit "futures-core = ""0.3""");
   (own, lit "percent-encoding = ""2.3""");
   (negb own, lit "progenitor-client = """ ++ version ++ lit """");
   (ws, lit "rand = ""0.8""");
   (uses_regress ts, lit "regress = ""0.10""");
   (true, lit "reqwest = { version = ""0.12"", default-features=false, features = [""json"", ""stream""] }");
   (true, lit "serde = { version = ""1.0"", features = [""derive""] }");
   (uses_serde_json ts || own, lit "serde_json = ""1.0""");
   (true, lit "serde_urlencoded = ""0.7""");
   (uses_uuid ts, lit "uuid = { version = ""1.0"", features = [""serde"", ""v4""] }")].
Definition flagged (ts : type_uses) (fu ws own : bool) (version : str) : list str :=
  map snd (filter fst (flags ts fu ws own version)).

Lemma dependencies_flagged : forall nr pv ts fu ws own,
  dependencies nr pv ts fu ws own = flagged ts fu ws own (crate_version nr pv).
Proof.
  intros nr pv [r u c j] fu ws own. unfold dependencies. generalize (crate_version nr pv). intro v.
  destruct r, u, c, j, fu, ws, own; vm_compute; reflexivity.
Qed.

Lemma filter_sorted : forall {A B} (R : B -> B -> Prop) (f : A -> B) p l,
  StronglySorted R (map f l) -> StronglySorted R (map f (filter p l)).
Proof.
  induction l as [|x l IH]; cbn; intro H; auto. inversion H as [|? ? Hs Hf]; subst. specialize (IH Hs).
  destruct (p x); auto. cbn. constructor; auto. rewrite Forall_forall in *. intros y Hy.
  apply in_map_iff in Hy as (z & <- & Hz). apply filter_In in Hz as (Hz & _). apply Hf, in_map_iff. eauto.
Qed.
Lemma sorted_nodup : forall l, StronglySorted dep_lt l -> NoDup l.
Proof.
  induction 1 as [|x l H IH Hf]; constructor; auto. intro Hin. rewrite Forall_forall in Hf. specialize (Hf x Hin).
  unfold dep_lt in Hf. now rewrite str_cmp_refl in Hf.
Qed.

Lemma flagged_sorted : forall ts fu ws own v, StronglySorted dep_lt (flagged ts fu ws own v).
Proof.
  intros ts fu ws own v. apply filter_sorted, Sorted_StronglySorted.
  - intros x y z. apply str_cmp_lt_trans.
  - cbn [map snd flags]. repeat (constructor; [|constructor; reflexivity]). repeat constructor.
Qed.
Lemma flagged_names : forall ts fu ws own v, NoDup (map entry_name (flagged ts fu ws own v)).
Proof.
  intros ts fu ws own v. apply sorted_nodup. unfold flagged. rewrite map_map. apply filter_sorted, Sorted_StronglySorted.
  - intros x y z. apply str_cmp_lt_trans.
  - cbn [map snd flags]. repeat (constructor; [|constructor; reflexivity]). repeat constructor.
Qed.

Lemma flagged_needed : forall ts fu ws own v code l,
  (fu = true <-> streams code) -> (ws = true <-> Exists upgrades (bodies code)) ->
  (In l (flagged ts fu ws own v) <-> needed ts code own v l).
Proof.
  intros ts fu ws own v code l Hf Hw.
  assert (Hin : In l (flagged ts fu ws own v) <-> exists b, In (b, l) (flags ts fu ws own v) /\ b = true).
  { unfold flagged. rewrite in_map_iff. split.
    - intros ((b & l') & <- & H). apply filter_In in H. now exists b.
    - intros (b & H1 & H2). exists (b, l). split; auto. apply filter_In. auto. }
  rewrite Hin. clear Hin. split.
  - intros (b & H & Hb). unfold flags in H. cbn [In] in H.
    repeat (destruct H as [H|H]; [injection H as Eb <-|]); [..|contradiction]; subst b; try discriminate Hb;
      try (apply NeedBase; cbn [In]; tauto).
    + apply NeedSockets; [now apply Hw|cbn; tauto].
    + now apply NeedChrono.
    + apply NeedFutures. now apply Hf.
    + now apply NeedPercent.
    + apply NeedSupport. now destruct own.
    + apply NeedSockets; [now apply Hw|cbn; tauto].
    + now apply NeedRegress.
    + apply NeedJson. apply orb_prop in Hb. tauto.
    + now apply NeedUuid.
  - unfold flags. intros [l' H|H|H|H|H|H|H|H|l' H1 H2].
    + exists true. split; auto. cbn [In] in *. repeat (destruct H as [<-|H]; [tauto|]). easy.
    + exists (negb own). rewrite H. cbn [In]. tauto.
    + exists own. rewrite H. cbn [In]. tauto.
    + exists (uses_serde_json ts || own). split; [cbn [In]; tauto|apply orb_true_iff; tauto].
    + exists (uses_regress ts). cbn [In]. tauto.
    + exists (uses_uuid ts). cbn [In]. tauto.
    + exists (uses_chrono ts). cbn [In]. tauto.
    + exists fu. split; [cbn [In]; tauto|now apply Hf].
    + exists ws. split; [|now apply Hw]. cbn [In] in *. destruct H2 as [<-|[<-|[]]]; tauto.
Qed.

Lemma version_spec : forall nr pv v, support_version nr pv v <-> v = crate_version nr pv.
Proof.
  intros nr pv v. unfold support_version, crate_version. destruct nr, pv as [w|]; intuition congruence.
Qed.

Lemma crate_dependencies : forall U add_ref_types types s d g l,
  generate_tokens U add_ref_types types s d = Ok g -> operations_in_order d l ->
  forall non_release pkg_version v ts own, support_version non_release pkg_version v ->
  let deps := dependencies non_release pkg_version ts (ge_futures g) (ge_websockets g) own in
  StronglySorted dep_lt deps /\ NoDup (map entry_name deps)
  /\ forall e, In e deps <-> needed ts (ge_code g) own v e.
Proof.
  intros U add types s d g l Hg Hl nr pv v ts own Hv deps. apply version_spec in Hv. subst v.
  unfold deps. rewrite dependencies_flagged. split; [apply flagged_sorted|]. split; [apply flagged_names|].
  intro e. apply flagged_needed; [eapply futures_iff|eapply websockets_code]; eauto.
Qed.

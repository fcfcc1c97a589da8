(** The Unicode 15 tables obey the laws of SanitizeSpec. *)
From Coq Require Import ZifyBool.
From Verif Require Import Base UnicodeTree UnicodeData SanitizeModel SanitizeSpec.

Lemma entry_in t c s : entry t c = Some s -> In (c, s) (elements t).
Proof.
  induction t as [|l IHl [k v] r IHr]; cbn; [easy|].
  rewrite in_app_iff. cbn. destruct (N.compare_spec c k); intros.
  - right; left. congruence.
  - auto.
  - auto.
Qed.

Lemma in_ranges_sound t c : in_ranges t c = true ->
  exists lo hi, In (lo, hi) (elements t) /\ (lo <= c <= hi)%N.
Proof.
  induction t as [|l IHl [lo hi] r IHr]; cbn; [easy|].
  destruct (N.ltb_spec c lo); [|destruct (N.ltb_spec hi c)]; intro E.
  - destruct (IHl E) as (a & b & H1 & H2). exists a, b. rewrite in_app_iff. auto.
  - destruct (IHr E) as (a & b & H1 & H2). exists a, b. rewrite in_app_iff. cbn. auto.
  - exists lo, hi. rewrite in_app_iff. cbn. auto.
Qed.

(** No range of [t] meets [lo..hi]. *)
Fixpoint misses (lo hi : N) (t : tree (N * N)) : bool :=
  match t with
  | Leaf => true
  | Node l (a, b) r =>
      if N.ltb hi a then misses lo hi l
      else if N.ltb b lo then N.leb a b && misses lo hi r
      else false
  end.

Lemma misses_ok lo hi t c : misses lo hi t = true -> (lo <= c <= hi)%N -> in_ranges t c = false.
Proof.
  induction t as [|l IHl [a b] r IHr]; cbn; auto. intros H Hc.
  destruct (N.ltb_spec hi a); [|destruct (N.ltb_spec b lo); [|discriminate]].
  - destruct (N.ltb_spec c a); auto. lia.
  - apply andb_true_iff in H as [Hab H]. apply N.leb_le in Hab.
    destruct (N.ltb_spec c a); [|destruct (N.ltb_spec b c)]; auto; exfalso; lia.
Qed.

Definition all_ascii : list N := map N.of_nat (seq 0 128).

Lemma all_ascii_in c : (c < 128)%N -> In c all_ascii.
Proof.
  intro H. apply in_map_iff. exists (N.to_nat c). split; [lia|]. apply in_seq. lia.
Qed.

Lemma ascii_check (P : N -> bool) : forallb P all_ascii = true ->
  forall c, (c < 128)%N -> P c = true.
Proof. intros H c Hc. rewrite forallb_forall in H. apply H. now apply all_ascii_in. Qed.

Lemma unicode15_ascii : ascii_laws unicode15.
Proof.
  split; intros c Hc.
  - apply eqb_prop. revert c Hc. apply (ascii_check (fun c => eqb _ _)). vm_compute. reflexivity.
  - apply eqb_prop. revert c Hc. apply (ascii_check (fun c => eqb _ _)). vm_compute. reflexivity.
  - apply eqb_prop. revert c Hc. apply (ascii_check (fun c => eqb _ _)). vm_compute. reflexivity.
  - apply eqb_prop. revert c Hc. apply (ascii_check (fun c => eqb _ _)). vm_compute. reflexivity.
  - apply eqb_prop. revert c Hc. apply (ascii_check (fun c => eqb _ _)). vm_compute. reflexivity.
  - apply str_eqb_spec. revert c Hc. apply (ascii_check (fun c => str_eqb _ _)).
    vm_compute. reflexivity.
  - apply str_eqb_spec. revert c Hc. apply (ascii_check (fun c => str_eqb _ _)).
    vm_compute. reflexivity.
Qed.

Lemma entries_check (t : tree (N * list N)) (P : N -> str -> bool) :
  forallb (fun e => P (fst e) (snd e)) (elements t) = true ->
  forall c s, entry t c = Some s -> P c s = true.
Proof.
  intros H c s E. apply entry_in in E. rewrite forallb_forall in H. exact (H _ E).
Qed.

Definition closed_entry (c : N) (s : str) : bool :=
  negb (in_ranges xid_continue_ranges c)
  || match s with [] => false | _ => true end && forallb (in_ranges xid_continue_ranges) s.

Lemma closed_map t : 
  forallb (fun e => closed_entry (fst e) (snd e)) (elements t) = true ->
  forall c, in_ranges xid_continue_ranges c = true ->
  let s := match entry t c with Some s => s | None => [c] end in
  s <> [] /\ Forall (fun d => in_ranges xid_continue_ranges d = true) s.
Proof.
  intros H c Hc. destruct (entry t c) as [s|] eqn:E; cbn zeta.
  - pose proof (entries_check t closed_entry H c s E) as Hs. unfold closed_entry in Hs.
    rewrite Hc in Hs. cbn [negb orb] in Hs. apply andb_true_iff in Hs as [H1 H2]. split; [now destruct s|].
    apply Forall_forall. rewrite forallb_forall in H2. exact H2.
  - split; [easy|]. auto.
Qed.

Lemma unicode15_laws : unicode_laws unicode15.
Proof.
  split.
  - intros c Hc. apply (closed_map lower_entries); [vm_compute; reflexivity|exact Hc].
  - intros c Hc. apply (closed_map upper_entries); [vm_compute; reflexivity|exact Hc].
  - unfold letter. vm_compute. auto.
  - vm_compute. reflexivity.
  - intros c Hc. apply in_ranges_sound in Hc as (lo & hi & Hin & Hr).
    assert (H : forallb (fun e => misses (fst e) (snd e) uppercase_ranges)
                        (elements lowercase_ranges) = true) by (vm_compute; reflexivity).
    rewrite forallb_forall in H. apply (misses_ok lo hi); auto. exact (H _ Hin).
  - intros c Hc Hin. cbn [to_lower unicode15] in Hin.
    destruct (entry lower_entries c) as [s|] eqn:E.
    + assert (H : negb (has_char (ch "_") s) = true).
      { revert c s E Hc Hin. intros c s E _ _. revert c s E.
        apply (entries_check lower_entries (fun _ s => negb (has_char (ch "_") s))).
        vm_compute. reflexivity. }
      apply has_char_spec in Hin. rewrite Hin in H. discriminate.
    + destruct Hin as [->|[]]. vm_compute in Hc. discriminate.
Qed.

Definition settled_entry (c : N) (s : str) : bool :=
  N.eqb c 304
  || forallb (fun d => alphanumeric unicode15 d && xid_continue unicode15 d
                       && negb (uppercase unicode15 d)
                       && str_eqb (to_lower unicode15 d) [d]) s
  || negb (xid_continue unicode15 c && alphanumeric unicode15 c).

Lemma unicode15_settled c : letter unicode15 c -> c <> 304%N ->
  (uppercase unicode15 c = true -> to_lower unicode15 c <> [c]) ->
  settled unicode15 c.
Proof.
  intros [Ha Hx] Hi Hu. unfold settled.
  destruct (entry lower_entries c) as [s|] eqn:E.
  - assert (Hs : settled_entry c s = true).
    { clear - E. revert c s E. apply entries_check. vm_compute. reflexivity. }
    unfold settled_entry in Hs. rewrite Ha, Hx in Hs. cbn [andb negb] in Hs.
    apply N.eqb_neq in Hi. rewrite Hi in Hs. cbn [orb] in Hs. rewrite orb_false_r in Hs.
    rewrite forallb_forall in Hs. apply Forall_forall. intros d Hd.
    replace (to_lower unicode15 c) with s in Hd.
    2:{ unfold unicode15, to_lower. now rewrite E. }
    apply Hs in Hd. rewrite !andb_true_iff, negb_true_iff, str_eqb_spec in Hd.
    destruct Hd as (((H1 & H2) & H3) & H4). unfold letter. auto.
  - assert (El : to_lower unicode15 c = [c]).
    { unfold unicode15, to_lower. now rewrite E. }
    rewrite El in *. constructor; auto. split; [split; auto|]. split; auto.
    destruct (uppercase unicode15 c) eqn:Eu; auto. exfalso. now apply Hu.
Qed.

(** Decimal text of numbers (Rust [Display] for integers; itoa). *)
From Coq Require Import DecimalN.
From Verif Require Import Base.

(** E.g. the [to_string] of method.rs:811. *)
Fixpoint uint_str (u : Decimal.uint) : str :=
  match u with
  | Decimal.Nil => []
  | Decimal.D0 u => 48%N :: uint_str u
  | Decimal.D1 u => 49%N :: uint_str u
  | Decimal.D2 u => 50%N :: uint_str u
  | Decimal.D3 u => 51%N :: uint_str u
  | Decimal.D4 u => 52%N :: uint_str u
  | Decimal.D5 u => 53%N :: uint_str u
  | Decimal.D6 u => 54%N :: uint_str u
  | Decimal.D7 u => 55%N :: uint_str u
  | Decimal.D8 u => 56%N :: uint_str u
  | Decimal.D9 u => 57%N :: uint_str u
  end.

(** E.g. the [to_string] of method.rs:811. *)
Definition dec_N (n : N) : str := uint_str (N.to_uint n).
(** E.g. the [to_string] of method.rs:811. *)
Definition dec_Z (z : Z) : str :=
  match z with
  | Zneg p => ch "-" :: dec_N (Npos p)
  | _ => dec_N (Z.to_N z)
  end.

(** Value of a digit string, most significant first (the [parse] of progenitor_client.rs:159-163). *)
Definition digit (c : char) : bool := ((48 <=? c) && (c <? 58))%N.
(** The [parse] of progenitor_client.rs:159-163. *)
Definition digits_val (s : str) : N :=
  fold_left (fun acc c => 10 * acc + (c - 48))%N s 0%N.

Lemma uint_str_digits u : Forall (fun c => digit c = true) (uint_str u).
Proof. induction u; cbn; constructor; auto. Qed.

Lemma fold_of_uint u : forall acc,
  fold_left (fun acc c => 10 * acc + (c - 48))%N (uint_str u) (Npos acc) = Npos (Pos.of_uint_acc u acc).
Proof.
  induction u; intros acc; cbn [uint_str fold_left Pos.of_uint_acc]; auto;
    match goal with |- fold_left _ _ ?x = Npos (Pos.of_uint_acc _ ?y) =>
      replace x with (Npos y) by lia end; apply IHu.
Qed.

Lemma digits_val_uint u : digits_val (uint_str u) = N.of_uint u.
Proof.
  unfold digits_val, N.of_uint.
  induction u; cbn [uint_str fold_left Pos.of_uint]; auto;
    try (match goal with |- fold_left _ _ ?x = Npos (Pos.of_uint_acc _ ?y) =>
      replace x with (Npos y) by lia end; apply fold_of_uint).
Qed.

Lemma digits_val_dec n : digits_val (dec_N n) = n.
Proof. unfold dec_N. rewrite digits_val_uint. apply DecimalN.Unsigned.of_to. Qed.

Lemma dec_N_inj a b : dec_N a = dec_N b -> a = b.
Proof. intro H. rewrite <- (digits_val_dec a), <- (digits_val_dec b). now rewrite H. Qed.

Lemma dec_N_digits n : Forall (fun c => digit c = true) (dec_N n).
Proof. apply uint_str_digits. Qed.

Lemma dec_N_nonempty n : dec_N n <> [].
Proof.
  destruct n as [|p]; [easy|]. intro H.
  assert (E : digits_val (dec_N (Npos p)) = 0%N) by now rewrite H.
  rewrite digits_val_dec in E. easy.
Qed.

Lemma dec_Z_inj a b : dec_Z a = dec_Z b -> a = b.
Proof.
  assert (Hneg : forall n s, dec_N n <> ch "-" :: s).
  { intros n s H. pose proof (dec_N_digits n) as HF. rewrite H in HF. inversion HF; subst. easy. }
  destruct a as [|p|p], b as [|q|q]; cbn [dec_Z]; intro H; auto;
    try (exfalso; eapply Hneg; (exact H || (symmetry; exact H)));
    try (apply dec_N_inj in H; lia).
  injection H as H. apply dec_N_inj in H. congruence.
Qed.

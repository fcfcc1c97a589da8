(** The conversion of integers gives the nearest doubles. *)
From Coq Require Import Lia ZifyBool Psatz QArith.
From Verif Require Import Base OasModel ToSchemaModel DoubleSpec.
Local Open Scope Z_scope.

Lemma as_f64_nearest z : nearest_double z (as_f64 z).
Proof.
  unfold as_f64. cbv zeta. set (a := Z.abs z). set (e := Z.log2 a - 52).
  destruct (e <=? 0) eqn:E.
  - assert (Hd : double z).
    { exists z, 0. split; [lia|]. split; [|lia]. destruct (Z.eq_dec a 0) as [Ha|Ha]; [fold a; lia|].
      fold a. apply (Z.log2_lt_pow2 a 53); lia. }
    split; [exact Hd|]. split; [intros; lia|]. intros g _ Hn Ht. lia.
  - assert (He : 0 < e) by lia. set (m := 2 ^ e). assert (Hm : 0 < m) by (now apply Z.pow_pos_nonneg; lia).
    assert (Ha : 0 < a).
    { destruct (Z.eq_dec a 0) as [Ez|]; [|lia]. exfalso. unfold e in He. rewrite Ez in He. cbn in He. lia. }
    assert (Hlow : 2 ^ 52 * m <= a /\ a < 2 ^ 53 * m).
    { unfold m. rewrite <- !Z.pow_add_r by lia. unfold e.
      replace (52 + (Z.log2 a - 52)) with (Z.log2 a) by lia. replace (53 + (Z.log2 a - 52)) with (Z.succ (Z.log2 a)) by lia.
      now apply Z.log2_spec. }
    pose proof (Z.div_mod a m ltac:(lia)) as Hdm. pose proof (Z.mod_pos_bound a m Hm) as Hr.
    set (q := a / m) in *. set (r := a mod m) in *.
    assert (Hq : 2 ^ 52 <= q < 2 ^ 53) by (split; [apply Z.div_le_lower_bound|apply Z.div_lt_upper_bound]; lia).
    set (q' := if 2 * r <? m then q else if m <? 2 * r then q + 1 else if Z.even q then q else q + 1).
    assert (Hq' : (2 * r < m /\ q' = q) \/ (m < 2 * r /\ q' = q + 1) \/ (2 * r = m /\ (q' = q \/ q' = q + 1) /\ Z.even q' = true)).
    { unfold q'. destruct (2 * r <? m) eqn:E1; [lia|]. destruct (m <? 2 * r) eqn:E2; [lia|]. right. right. split; [lia|].
      destruct (Z.even q) eqn:Ev; [auto|]. split; [auto|]. now rewrite Z.even_add, Ev. }
    clearbody q'. set (s := Z.sgn z). assert (Hs : (s = 1 /\ z = a) \/ (s = -1 /\ z = - a)) by (unfold s, a in *; lia). clearbody s a.
    assert (Hf : Z.abs (s * (q' * m) - z) = Z.abs (q' * m - a)) by (destruct Hs as [(-> & ->)|(-> & ->)]; lia).
    assert (Hfd : Z.abs (s * (q' * m) - z) <= r /\ Z.abs (s * (q' * m) - z) <= m - r) by (rewrite Hf; destruct Hq' as [(? & ->)|[(? & ->)|(? & [->| ->] & _)]]; rewrite ?Z.mul_add_distr_r; lia).
    assert (Hnorm : exists k j, 0 <= j /\ 2 ^ 52 <= Z.abs k < 2 ^ 53 /\ s * (q' * m) = k * 2 ^ j /\ (Z.even q' = true -> Z.even k = true)).
    { destruct (Z.eq_dec q' (2 ^ 53)) as [->|Hn].
      - exists (s * 2 ^ 52), (e + 1). split; [lia|]. split; [destruct Hs as [(-> & _)|(-> & _)]; lia|]. split.
        + rewrite Z.pow_add_r by lia. fold m. lia.
        + intros _. destruct Hs as [(-> & _)|(-> & _)]; reflexivity.
      - exists (s * q'), e. split; [lia|]. split; [destruct Hs as [(-> & _)|(-> & _)]; lia|]. split; [fold m; lia|].
        intro. rewrite Z.even_mul. now rewrite H, orb_true_r. }
    assert (Hg : forall g, double g -> (exists k, s * g = k * m) \/ Z.abs (g - z) > r).
    { intros g (k & j & Hj & Hk & ->). destruct (Z_le_dec e j) as [Hle|Hlt].
      - left. exists (s * (k * 2 ^ (j - e))). unfold m. rewrite <- Z.mul_assoc. rewrite <- (Z.mul_assoc k). rewrite <- Z.pow_add_r by lia.
        now replace (j - e + e) with j by lia.
      - right. assert (H2 : 2 * 2 ^ j <= m).
        { unfold m. change 2 with (2 ^ 1) at 1. rewrite <- Z.pow_add_r by lia. apply Z.pow_le_mono_r; lia. }
        assert (0 < 2 ^ j) by (apply Z.pow_pos_nonneg; lia).
        assert (Z.abs (k * 2 ^ j) < 2 ^ 52 * m) 
          by (rewrite Z.abs_mul, (Z.abs_eq (2 ^ j)) by lia; apply Z.lt_le_trans with (2 ^ 53 * 2 ^ j);
              [apply Z.mul_lt_mono_pos_r; lia|change (2 ^ 53) with (2 ^ 52 * 2); rewrite <- Z.mul_assoc; apply Z.mul_le_mono_nonneg_l; lia]).
        assert (2 ^ 52 * m <= q * m) by (apply Z.mul_le_mono_nonneg_r; lia).
        destruct Hs as [(_ & ->)|(_ & ->)]; lia. }
    assert (Hdist : forall g, Z.abs (g - z) = Z.abs (s * g - a)) by (intro g; destruct Hs as [(-> & ->)|(-> & ->)]; lia).
    assert (Hfar : forall k, k <= q /\ Z.abs (k * m - a) >= r \/ q + 1 <= k /\ Z.abs (k * m - a) >= m - r).
    { intro k. destruct (Z_le_dec k q); [left|right]; (split; [lia|]).
      - assert (k * m <= q * m) by (apply Z.mul_le_mono_nonneg_r; lia). lia.
      - assert ((q + 1) * m <= k * m) by (apply Z.mul_le_mono_nonneg_r; lia). lia. }
    assert (Hfar' : forall k, k <= q - 1 /\ Z.abs (k * m - a) >= r + m \/ k = q \/ k = q + 1 \/ q + 2 <= k /\ Z.abs (k * m - a) >= m - r + m).
    { intro k. destruct (Z_le_dec k (q - 1)); [left|destruct (Z_le_dec (q + 2) k); [right; right; right|lia]]; (split; [lia|]).
      - assert (k * m <= (q - 1) * m) by (apply Z.mul_le_mono_nonneg_r; lia). lia.
      - assert ((q + 2) * m <= k * m) by (apply Z.mul_le_mono_nonneg_r; lia). lia. }
    split; [|split].
    + destruct Hnorm as (k & j & Hj & Hk & Hkj & _). exists k, j. split; [lia|]. split; [lia|]. exact Hkj.
    + intros g Hdg. destruct (Hg g Hdg) as [(k & Hk)|H]; [|lia]. rewrite (Hdist g), Hk.
      specialize (Hfar k). lia.
    + intros g Hdg Hne Ht. destruct (Hg g Hdg) as [(k & Hk)|H]; [|lia].
      assert (Hkq : k <> q').
      { intros ->. apply Hne. destruct Hs as [(-> & _)|(-> & _)]; lia. }
      rewrite (Hdist g), Hk, Hf in Ht.
      destruct Hq' as [(H1 & ->)|[(H1 & ->)|(H1 & H2 & Hev)]]; [exfalso|exfalso|].
      { specialize (Hfar' k). destruct Hfar' as [H|[->|[->|H]]]; lia. }
      { specialize (Hfar' k). destruct Hfar' as [H|[->|[->|H]]]; lia. }
      destruct Hnorm as (n & j & Hj & Hn & Hnj & Hne'). specialize (Hne' Hev). apply Z.even_spec in Hne' as (x & ->).
      exists x, j. auto.
Qed.

Lemma as_f64_iff z : as_f64 z = z <-> double z.
Proof.
  destruct (as_f64_nearest z) as (Hd & Hn & _). split; [intro E; now rewrite <- E|].
  intro H. specialize (Hn z H). lia.
Qed.

Lemma double_small z : Z.abs z <= 2 ^ 53 -> double z.
Proof.
  intro H. destruct (Z.eq_dec (Z.abs z) (2 ^ 53)) as [E|].
  - exists (Z.sgn z * 2 ^ 52), 1. split; [lia|]. split; [destruct z; reflexivity|]. change (2 ^ 1) with 2. lia.
  - exists z, 0. split; [lia|]. split; lia.
Qed.

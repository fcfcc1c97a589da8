(** UTF-8 decoding inverts encoding. *)
From Coq Require Import ZifyBool ZifyN.
From Verif Require Import Base Utf8.
Local Open Scope N_scope.
Ltac Zify.zify_post_hook ::= Z.to_euclidean_division_equations.

Lemma from_utf8_char c r : scalar c = true ->
  from_utf8 (utf8_char c ++ r) = option_map (cons c) (from_utf8 r).
Proof.
  intro Hs. unfold utf8_char.
  destruct (N.ltb_spec c 128); [|destruct (N.ltb_spec c 2048); [|destruct (N.ltb_spec c 65536)]];
    cbn [app from_utf8].
  - now rewrite (proj2 (N.ltb_lt _ _)).
  - rewrite (proj2 (N.ltb_ge _ _)) by lia.
    replace ((192 <=? 192 + c / 64) && (192 + c / 64 <? 224)) with true by lia.
    replace (cont (128 + c mod 64)) with true by (unfold cont; lia).
    replace ((192 + c / 64 - 192) * 64 + (128 + c mod 64 - 128)) with c by lia.
    replace (128 <=? c) with true by lia. reflexivity.
  - rewrite (proj2 (N.ltb_ge _ _)) by lia.
    replace ((192 <=? 224 + c / 4096) && (224 + c / 4096 <? 224)) with false by lia.
    replace ((224 <=? 224 + c / 4096) && (224 + c / 4096 <? 240)) with true by lia.
    replace (cont (128 + c mod 64)) with true by (unfold cont; lia).
    replace (cont (128 + (c / 64) mod 64)) with true by (unfold cont; lia).
    replace ((224 + c / 4096 - 224) * 4096 + (128 + (c / 64) mod 64 - 128) * 64 + (128 + c mod 64 - 128)) with c by lia.
    rewrite Hs. replace (2048 <=? c) with true by lia. reflexivity.
  - assert (c < 1114112) by (unfold scalar in Hs; lia).
    rewrite (proj2 (N.ltb_ge _ _)) by lia.
    replace ((192 <=? 240 + c / 262144) && (240 + c / 262144 <? 224)) with false by lia.
    replace ((224 <=? 240 + c / 262144) && (240 + c / 262144 <? 240)) with false by lia.
    replace ((240 <=? 240 + c / 262144) && (240 + c / 262144 <? 248)) with true by lia.
    replace (cont (128 + c mod 64)) with true by (unfold cont; lia).
    replace (cont (128 + (c / 64) mod 64)) with true by (unfold cont; lia).
    replace (cont (128 + (c / 4096) mod 64)) with true by (unfold cont; lia).
    replace ((240 + c / 262144 - 240) * 262144 + (128 + (c / 4096) mod 64 - 128) * 4096 + (128 + (c / 64) mod 64 - 128) * 64 + (128 + c mod 64 - 128)) with c by lia.
    rewrite Hs. replace (65536 <=? c) with true by lia. reflexivity.
Qed.

Lemma from_utf8_utf8 s : valid_str s -> from_utf8 (utf8 s) = Some s.
Proof.
  induction 1 as [|c s Hc _ IH]; [reflexivity|].
  cbn [utf8 flat_map]. rewrite from_utf8_char by assumption. fold (utf8 s). now rewrite IH.
Qed.

Lemma utf8_inj s t : valid_str s -> valid_str t -> utf8 s = utf8 t -> s = t.
Proof.
  intros Hs Ht E. apply from_utf8_utf8 in Hs, Ht. congruence.
Qed.

Lemma utf8_byte c b : scalar c = true -> In b (utf8_char c) -> b < 256.
Proof.
  unfold utf8_char. intros Hs.
  assert (c < 1114112) by (unfold scalar in Hs; lia).
  destruct (N.ltb_spec c 128); [|destruct (N.ltb_spec c 2048); [|destruct (N.ltb_spec c 65536)]];
    cbn [In]; intuition; subst; lia.
Qed.

Lemma utf8_bytes s : valid_str s -> Forall (fun b => b < 256) (utf8 s).
Proof.
  induction 1 as [|c s Hc _ IH]; [constructor|].
  cbn [utf8 flat_map]. apply Forall_app. split; [|exact IH].
  apply Forall_forall. intros b Hb. eapply utf8_byte; eauto.
Qed.

Lemma utf8_app s t : utf8 (s ++ t) = utf8 s ++ utf8 t.
Proof. apply flat_map_app. Qed.

Lemma utf8_ascii s : Forall (fun c => c < 128) s -> utf8 s = s.
Proof.
  induction 1 as [|c s Hc _ IH]; [reflexivity|].
  cbn [utf8 flat_map]. fold (utf8 s). rewrite IH. unfold utf8_char.
  now rewrite (proj2 (N.ltb_lt _ _)).
Qed.

Lemma utf8_char_ascii_or_high c : c < 128 /\ utf8_char c = [c] \/ 128 <= c /\ Forall (fun b => 128 <= b) (utf8_char c).
Proof.
  unfold utf8_char. destruct (N.ltb_spec c 128); [left; auto|right].
  split; [lia|].
  destruct (N.ltb_spec c 2048); [|destruct (N.ltb_spec c 65536)]; repeat constructor; lia.
Qed.

Lemma forall_byte (P : N -> bool) :
  forallb P (map N.of_nat (seq 0 256)) = true -> forall b, b < 256 -> P b = true.
Proof.
  intros H b Hb. rewrite forallb_forall in H. apply H.
  apply in_map_iff. exists (N.to_nat b). split; [lia|]. apply in_seq. lia.
Qed.

(** Facts about [unique_ident_from] (util.rs:116-131). *)
From Verif Require Import Base MethodModel.
From Verif Require Export NameSpec.
From Coq Require Import FinFun.
Local Open Scope N_scope.

Lemma underscores_snoc k s : underscores k (lit "_" ++ s) = ch "_" :: underscores k s.
Proof. induction k as [|k IH]; cbn [underscores]; [reflexivity|now rewrite IH]. Qed.

Lemma underscores_length k s : length (underscores k s) = (k + length s)%nat.
Proof. induction k; cbn; auto. Qed.

Lemma underscores_inj s j k : underscores j s = underscores k s -> j = k.
Proof. intro H. apply (f_equal (@length N)) in H. rewrite !underscores_length in H. lia. Qed.

Lemma unique_loop_spec fuel ids : forall name,
  exists k, (k <= fuel)%nat /\ unique_loop fuel name ids = underscores k name /\
    (forall j, (j < k)%nat -> In (underscores j name) ids) /\
    ((k < fuel)%nat -> ~ In (underscores k name) ids).
Proof.
  induction fuel as [|f IH]; intro name; cbn [unique_loop].
  - exists O. repeat split; auto; lia.
  - destruct (mem name ids) eqn:E.
    + apply mem_spec in E. destruct (IH (lit "_" ++ name)) as (k & Hk & -> & Hj & Hn).
      exists (S k). cbn [underscores]. rewrite <- underscores_snoc. repeat split; auto; [lia| |].
      * intros [|j] Hlt; cbn; auto. rewrite <- underscores_snoc. apply Hj. lia.
      * intro. apply Hn. lia.
    + apply mem_false in E. exists O. repeat split; auto; lia.
Qed.

Lemma seq_nodup_underscores s k : NoDup (map (fun j => underscores j s) (seq 0 k)).
Proof.
  apply Injective_map_NoDup; [|apply seq_NoDup].
  intros x y. apply underscores_inj.
Qed.

(** The name found is the first of [name], [_name], [__name], ... that is not
    taken. *)
Lemma unique_ident_spec name ids :
  exists k, unique_ident_from name ids = underscores k name /\
    ~ In (underscores k name) ids /\ forall j, (j < k)%nat -> In (underscores j name) ids.
Proof.
  unfold unique_ident_from. destruct (unique_loop_spec (length ids) ids name) as (k & Hk & -> & Hj & Hn).
  exists k. repeat split; auto. intro Hi.
  destruct (Nat.eq_dec k (length ids)) as [->|Hne]; [|apply Hn; auto; lia].
  assert (Hincl : incl (map (fun j => underscores j name) (seq 0 (S (length ids)))) ids).
  { intros x Hx. apply in_map_iff in Hx as (j & <- & Hs). apply in_seq in Hs.
    destruct (Nat.eq_dec j (length ids)) as [->|]; auto. apply Hj. lia. }
  apply NoDup_incl_length in Hincl; [|apply seq_nodup_underscores].
  rewrite map_length, seq_length in Hincl. lia.
Qed.

Lemma unique_ident_fresh name ids : ~ In (unique_ident_from name ids) ids.
Proof. destruct (unique_ident_spec name ids) as (k & -> & H & _). exact H. Qed.

(** Names found from bases that begin differently differ. *)
Lemma underscores_base j k a b :
  (forall r, a <> ch "_" :: r) -> (forall r, b <> ch "_" :: r) ->
  underscores j a = underscores k b -> a = b.
Proof.
  intros Ha Hb. revert k; induction j as [|j IH]; intros [|k] H; cbn in H; auto.
  - now apply Ha in H.
  - symmetry in H. now apply Hb in H.
  - injection H as H. eauto.
Qed.

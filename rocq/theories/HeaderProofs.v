(** Facts about header maps. *)
From Verif Require Import Base Utf8 HeaderModel RequestSpec.
From Coq Require Import ZifyBool ZifyN.
Local Open Scope N_scope.

Lemma h_values_append n name v h :
  h_values n (h_append name v h) = if str_eqb n name then h_values n h ++ [v] else h_values n h.
Proof.
  unfold h_values. induction h as [|[k vs] h IH]; cbn.
  - destruct (str_eqb n name); reflexivity.
  - destruct (str_eqb k name) eqn:E; cbn.
    + apply str_eqb_spec in E. subst k. destruct (str_eqb n name); reflexivity.
    + destruct (str_eqb n k) eqn:E2.
      * apply str_eqb_spec in E2. subst k. now rewrite E.
      * apply IH.
Qed.

Lemma h_contains_append n name v h :
  h_contains n (h_append name v h) = str_eqb n name || h_contains n h.
Proof.
  unfold h_contains. induction h as [|[k vs] h IH]; cbn.
  - destruct (str_eqb n name); reflexivity.
  - destruct (str_eqb k name) eqn:E; cbn.
    + apply str_eqb_spec in E. subst k. destruct (str_eqb n name); reflexivity.
    + destruct (str_eqb n k) eqn:E2; [now rewrite orb_true_r|apply IH].
Qed.

Lemma h_values_set n name vs h :
  h_values n (h_set name vs h) = if str_eqb n name then vs else h_values n h.
Proof.
  unfold h_values. induction h as [|[k ws] h IH]; cbn.
  - destruct (str_eqb n name); reflexivity.
  - destruct (str_eqb k name) eqn:E; cbn.
    + apply str_eqb_spec in E. subst k. destruct (str_eqb n name); reflexivity.
    + destruct (str_eqb n k) eqn:E2.
      * apply str_eqb_spec in E2. subst k. now rewrite E.
      * apply IH.
Qed.

Lemma h_contains_set n name vs h :
  h_contains n (h_set name vs h) = str_eqb n name || h_contains n h.
Proof.
  unfold h_contains. induction h as [|[k ws] h IH]; cbn.
  - destruct (str_eqb n name); reflexivity.
  - destruct (str_eqb k name) eqn:E; cbn.
    + apply str_eqb_spec in E. subst k. destruct (str_eqb n name); reflexivity.
    + destruct (str_eqb n k) eqn:E2; [now rewrite orb_true_r|apply IH].
Qed.

Lemma h_append_keys name v h :
  map fst (h_append name v h) = map fst h \/
  (map fst (h_append name v h) = map fst h ++ [name] /\ ~ In name (map fst h)).
Proof.
  induction h as [|[k vs] h IH]; cbn.
  - right. auto.
  - destruct (str_eqb k name) eqn:E; cbn; [now left|]. apply str_eqb_neq in E.
    destruct IH as [->|(-> & Hn)]; [now left|]. right. split; auto. intros [H|H]; auto.
Qed.

Lemma h_append_nodup name v h : NoDup (map fst h) -> NoDup (map fst (h_append name v h)).
Proof.
  intro H. destruct (h_append_keys name v h) as [->|(-> & Hn)]; auto.
  apply NoDup_rev in H. rewrite <- (rev_involutive (_ ++ _)). apply NoDup_rev.
  rewrite rev_app_distr. cbn. constructor; auto. now rewrite <- in_rev.
Qed.

Lemma h_contains_false n h : h_contains n h = false -> h_values n h = [].
Proof. unfold h_contains, h_values. now destruct (assoc n h). Qed.

Lemma h_replace_values n src : NoDup (map fst src) -> forall dst,
  h_values n (h_replace dst src) = if h_contains n src then h_values n src else h_values n dst.
Proof.
  unfold h_replace. induction src as [|[k vs] src IH]; cbn; intros Hnd dst; auto.
  inversion Hnd as [|? ? Hk Hnd']; subst. rewrite IH by auto. rewrite h_values_set.
  unfold h_contains at 2. cbn. destruct (str_eqb n k) eqn:E.
  - apply str_eqb_spec in E. subst k. unfold h_contains.
    destruct (assoc n src) as [ws|] eqn:Ea.
    + apply assoc_In in Ea. apply (in_map fst) in Ea. easy.
    + unfold h_values. cbn. now rewrite str_eqb_refl.
  - fold (h_contains n src). destruct (h_contains n src) eqn:Ec; auto.
    unfold h_values. cbn. now rewrite E.
Qed.

Lemma header_chars_lower s n : header_chars s = Some n -> n = lower_name s.
Proof.
  revert n; induction s as [|c s IH]; cbn; intros n H.
  - now injection H as <-.
  - destruct (header_char c) as [x|] eqn:E; [|easy]. destruct (header_chars s) as [y|]; [|easy].
    injection H as <-. rewrite (IH y eq_refl). f_equal. unfold header_char in E. unfold lower.
    destruct ((65 <=? c) && (c <=? 90)); [now injection E as <-|].
    destruct (_ || _); [|easy]. now injection E as <-.
Qed.

Lemma header_name_lower s n : header_name s = Some n -> n = lower_name s.
Proof.
  unfold header_name. destruct s; [easy|]. destruct (_ <? _); [easy|]. apply header_chars_lower.
Qed.

Lemma header_value_some s v : header_value s = Some v ->
  v = utf8 s /\ Forall (fun b => b = 9 \/ (32 <= b /\ b <> 127)) (utf8 s).
Proof.
  unfold header_value. destruct (forallb _ _) eqn:E; [|easy]. intros [= <-]. split; auto.
  apply Forall_forall. intros b Hb. rewrite forallb_forall in E. apply E in Hb.
  unfold is_valid_value_byte in Hb. lia.
Qed.

Lemma header_value_none s : header_value s = None ->
  ~ Forall (fun b => b = 9 \/ (32 <= b /\ b <> 127)) (utf8 s).
Proof.
  unfold header_value. destruct (forallb _ _) eqn:E; [easy|]. intros _ H.
  assert (forallb is_valid_value_byte (utf8 s) = true); [|congruence].
  apply forallb_forall. intros b Hb. rewrite Forall_forall in H. apply H in Hb.
  unfold is_valid_value_byte. lia.
Qed.

Lemma header_value_static_some s v : header_value_static s = Some v -> v = utf8 s.
Proof. unfold header_value_static. destruct (forallb _ _); [|easy]. now intros [= <-]. Qed.

(** The patterns of a template match its expansions. *)
From Coq Require Import ZifyBool ZifyN.
From Verif Require Import Base Utf8 TemplateModel TemplateSpec TemplateProofs EncodeSpec EncodeProofs MethodModel RunModel
  SanitizeModel MockModel MockSpec MockProofs.
Local Open Scope N_scope.

Lemma squeeze_in b ps p : In p (squeeze_pieces b ps) -> In p ps.
Proof.
  revert b. induction ps as [|[c|n] ps IH]; intros b H; cbn in *; auto.
  - destruct (c =? ch "/"); [destruct b|]; cbn in H; try (destruct H as [H|H]; auto); right; eauto.
  - destruct H as [H|H]; eauto.
Qed.

Lemma strict_braces ps : strict ps -> no_braces ps.
Proof. intros (_ & H) c Hc. rewrite Forall_forall in H. apply (H _ Hc). Qed.

Lemma squeezed_slash_free ps val : slash_free (squeeze_pieces false ps) val <-> slash_free ps val.
Proof. unfold slash_free. now rewrite vars_squeeze. Qed.

(** ** One pattern *)

Section Template.
Variable ps : list piece.
Variable p : path_template.
Hypothesis Hs : strict ps.
Hypothesis Hp : parse (show ps) = Ok p.
Hypothesis Hnd : NoDup (vars ps).
Hypothesis Hplain : plain_template ps.

Notation sq := (squeeze_pieces false ps).

Lemma pieces_squeezed : pieces_of p = sq.
Proof.
  apply strict_lax in Hs as (Hl & _). destruct (parse_complete _ Hl) as (p' & Hp' & E). congruence.
Qed.

Lemma squeezed_plain : plain_template sq.
Proof. intros c Hc. apply Hplain. eapply squeeze_in; eauto. Qed.

Lemma squeezed_braces : no_braces sq.
Proof. intros c Hc. apply (strict_braces _ Hs). eapply squeeze_in; eauto. Qed.

Definition wildcard_items : list rx_item := RxBegin :: item_list (fun _ => [anything]) sq ++ [RxEnd].

Lemma wildcard_regex : regex_new (as_wildcard p) = Some wildcard_items.
Proof.
  rewrite wildcard_texts, pieces_squeezed. apply regex_texts; [exact squeezed_plain|].
  intros n r acc _. apply rx_steps_anything.
Qed.

Lemma wildcard_match path : is_match wildcard_items path = true <->
  exists val, slash_free ps val /\ path = expand val sq.
Proof.
  unfold wildcard_items. rewrite is_match_begin.
  rewrite (items_fit (fun _ => [anything]) (fun _ v => Forall (fun x => rc_has (RcNone [47]) x = true) v)).
  2:{ intros n _. apply matches_star. }
  rewrite fits_iff by (rewrite vars_squeeze; exact Hnd). rewrite vars_squeeze.
  split; intros (val & Hv & ->); exists val; split; auto; intros n Hn.
  - apply not_slash_class. auto.
  - apply not_slash_class. now apply Hv.
Qed.

Definition param_items (n v : str) : list rx_item :=
  RxBegin :: item_list (fun q => if str_eqb q n then chars v else [dots]) sq ++ [RxEnd].

Lemma param_regex n v : In n (vars ps) -> plain_text v ->
  exists s, format_macro (as_wildcard_param p n) [v] = Some s /\ regex_new s = Some (param_items n v).
Proof.
  intros Hn Hv. rewrite wildcard_param_texts, pieces_squeezed. eexists. split.
  - apply formatted; [exact squeezed_braces| |]; rewrite vars_squeeze; assumption.
  - apply regex_texts; [exact squeezed_plain|]. intros q r acc _. destruct (str_eqb q n).
    + now apply rx_steps_plain.
    + apply rx_steps_dots.
Qed.

Lemma param_match n v path : In n (vars ps) -> (is_match (param_items n v) path = true <->
  exists val, val n = v /\ (forall m, In m (vars ps) -> m <> n -> ~ In 10 (val m)) /\ path = expand val sq).
Proof.
  intro Hn. unfold param_items. rewrite is_match_begin.
  rewrite (items_fit _ (fun q w => if str_eqb q n then v = w else Forall (fun x => rc_has RcDot x = true) w)).
  2:{ intros m _. destruct (str_eqb m n); [apply matches_chars|apply matches_star]. }
  rewrite fits_iff by (rewrite vars_squeeze; exact Hnd). rewrite vars_squeeze.
  split.
  - intros (val & Hv & ->). exists val. split; [|split; auto].
    + specialize (Hv n Hn). now rewrite str_eqb_refl in Hv.
    + intros m Hm Hmn. specialize (Hv m Hm). apply str_eqb_neq in Hmn. rewrite Hmn in Hv. now apply dot_class.
  - intros (val & <- & Hv & ->). exists val. split; auto. intros m Hm. destruct (str_eqb m n) eqn:E.
    + apply str_eqb_spec in E. now subst.
    + apply dot_class. apply Hv; auto. now apply str_eqb_neq.
Qed.

(** ** Restrictions *)

Lemma expand_in val qs c n : In n (vars qs) -> In c (val n) -> In c (expand val qs).
Proof.
  intros Hn Hc. unfold expand. apply in_flat_map. exists (PVar n). split; auto.
  unfold vars in Hn. apply in_flat_map in Hn as ([x|m] & Hm & H); cbn in H; [easy|]. destruct H as [<-|[]]. exact Hm.
Qed.

Lemma one_restriction n v path : In n (vars ps) -> ~ In (ch "/") v -> ~ In 10 path ->
  (is_match wildcard_items path = true /\ is_match (param_items n v) path = true <->
   expansion ps [(n, v)] path).
Proof.
  intros Hn Hv Hnl. rewrite wildcard_match, param_match by assumption. unfold expansion. split.
  - intros ((val & Hval & E) & val' & Hn' & _ & E'). exists val'. repeat split; auto.
    + apply squeezed_slash_free. apply slash_free_count. rewrite <- E', E. apply slash_free_count.
      now apply squeezed_slash_free.
    + intros m w [[= <- <-]|[]]. exact Hn'.
  - intros (val & Hval & Hf & ->). split; [eauto|]. exists val. split; [apply Hf; now left|]. split; auto.
    intros m Hm _ Hin. apply Hnl. eapply expand_in; eauto. now rewrite vars_squeeze.
Qed.

End Template.

(** ** Placeholders in segments of their own *)

Lemma seg_determines val val' seg : (length (vars seg) <= 1)%nat -> expand val seg = expand val' seg ->
  forall n, In n (vars seg) -> val n = val' n.
Proof.
  induction seg as [|[c|m] seg IH]; intros Hl E n Hn; [easy| |].
  - cbn [expand flat_map] in E. injection E as E. now apply IH.
  - change (vars (PVar m :: seg)) with (m :: vars seg) in *. cbn in Hl.
    assert (Hv : vars seg = []) by (destruct (vars seg); [auto|cbn in Hl; lia]).
    destruct Hn as [<-|Hn]; [|rewrite Hv in Hn; easy].
    cbn [expand flat_map] in E. change (flat_map _ seg) with (expand val seg) in E at 1.
    change (val m ++ expand val seg = val' m ++ expand val' seg) in E.
    rewrite (expand_ext val val' seg) in E by (rewrite Hv; easy). now apply app_inv_tail in E.
Qed.

Lemma seg_vars ps n : In n (vars ps) -> exists seg, In seg (split_slash ps) /\ In n (vars seg).
Proof.
  induction ps as [|q ps IH]; [easy|]. intro H.
  assert (Hgen : (q <> PLit (ch "/")) -> split_slash (q :: ps) = match split_slash ps with s :: ss => (q :: s) :: ss | [] => [[q]] end).
  { destruct q as [c|m]; intro Hq; cbn; auto. destruct (N.eqb_spec c (ch "/")); auto. subst. easy. }
  pose proof (split_slash_nonempty ps) as Hne.
  destruct q as [c|m].
  - destruct (IH H) as (seg & Hs & Hn). destruct (N.eqb_spec c (ch "/")) as [->|Hc].
    + exists seg. split; auto. cbn. now right.
    + rewrite Hgen by congruence. destruct (split_slash ps) as [|s ss]; [easy|].
      destruct Hs as [<-|Hs]; [exists (PLit c :: s)|exists seg]; split; auto; [now left|now right].
  - rewrite Hgen by congruence. destruct (split_slash ps) as [|s ss]; [easy|].
    destruct H as [<-|H]; [exists (PVar m :: s); split; now left|].
    destruct (IH H) as ([] & [E|Hs] & Hn).
    + exists (PVar m :: s). subst s. easy.
    + easy.
    + exists (PVar m :: s). subst s. split; [now left|now right].
    + eexists. split; [right; exact Hs|exact Hn].
Qed.

Lemma app_slash_inj a b r s : ~ In (ch "/") a -> ~ In (ch "/") b ->
  a ++ ch "/" :: r = b ++ ch "/" :: s -> a = b /\ r = s.
Proof.
  revert b; induction a as [|x a IH]; intros [|y b] Ha Hb E; cbn in E.
  - injection E as ->. auto.
  - injection E as <- _. exfalso. apply Hb. now left.
  - injection E as -> _. exfalso. apply Ha. now left.
  - injection E as -> E. apply IH in E as (-> & ->); auto; intro; [apply Ha|apply Hb]; now right.
Qed.

Lemma join_inj l l' : length l = length l' -> Forall (fun s => ~ In (ch "/") s) l -> Forall (fun s => ~ In (ch "/") s) l' ->
  join_slash l = join_slash l' -> l = l'.
Proof.
  revert l'; induction l as [|a l IH]; intros [|b l'] Hlen Ha Hb E; try easy.
  inversion Ha; subst. inversion Hb; subst. cbn in Hlen. injection Hlen as Hlen.
  destruct l as [|a2 l], l' as [|b2 l']; try easy.
  - cbn in E. now subst.
  - change (a ++ ch "/" :: join_slash (a2 :: l) = b ++ ch "/" :: join_slash (b2 :: l')) in E.
    apply app_slash_inj in E as (-> & E); auto. f_equal. apply IH; auto.
Qed.

Lemma segs_slash_free val ps : slash_free ps val -> Forall (fun s => ~ In (ch "/") s) (map (expand val) (split_slash ps)).
Proof.
  intro H. apply Forall_map, Forall_forall. intros seg Hseg Hin.
  unfold expand in Hin. apply in_flat_map in Hin as ([c|n] & Hp & Hc).
  - destruct (in_split_slash _ _ _ Hseg Hp) as (_ & Hne). destruct Hc as [->|[]]. easy.
  - destruct (in_split_slash _ _ _ Hseg Hp) as (Hin & _). apply (H n); auto.
    unfold vars. apply in_flat_map. exists (PVar n). split; auto. now left.
Qed.

Lemma expansion_unique ps val val' : one_per_segment ps -> slash_free ps val -> slash_free ps val' ->
  expand val ps = expand val' ps -> forall n, In n (vars ps) -> val n = val' n.
Proof.
  intros H1 Hv Hv' E n Hn. rewrite !expand_split in E.
  apply join_inj in E; [| now rewrite !map_length | now apply segs_slash_free | now apply segs_slash_free].
  destruct (seg_vars _ _ Hn) as (seg & Hseg & Hns).
  apply (seg_determines val val' seg); auto.
  - unfold one_per_segment in H1. rewrite Forall_forall in H1. now apply H1.
  - clear - E Hseg. induction (split_slash ps) as [|s ss IH]; [easy|]. cbn in E. injection E as E1 E2.
    destruct Hseg as [<-|H]; auto.
Qed.

Lemma squeeze_segments (P : list piece -> Prop) ps : exists s ss, split_slash ps = s :: ss
  /\ (forall b, exists s' ss', split_slash (squeeze_pieces b ps) = s' :: ss'
        /\ (Forall P ss -> Forall P ss') /\ (b = false -> s' = s) /\ (s' = s \/ In s' ss)).
Proof.
  induction ps as [|q ps (s & ss & E & IH)].
  - exists [], []. split; auto. intro b. exists [], []. repeat split; auto.
  - assert (Hlit : {q = PLit (ch "/")} + {q <> PLit (ch "/")}).
    { destruct q as [c|m]; [|right; congruence]. destruct (N.eq_dec c (ch "/")); [left|right]; congruence. }
    destruct Hlit as [->|Hq].
    + exists [], (s :: ss). split; [cbn; now rewrite E|]. intro b.
      destruct (IH true) as (s' & ss' & E' & H1 & _ & H3). cbn [squeeze_pieces]. change (ch "/" =? ch "/") with true. cbn iota.
      destruct b.
      * exists s', ss'. repeat split; auto; try discriminate.
        -- intro HF. inversion HF; subst. auto.
        -- right. destruct H3 as [->|H3]; [now left|now right].
      * exists [], (s' :: ss'). split; [cbn; now rewrite E'|]. repeat split; auto.
        intro HF. pose proof HF as HF0. inversion HF; subst. constructor; auto.
        destruct H3 as [->|H3]; auto. rewrite Forall_forall in H4. auto.
    + destruct (IH false) as (s' & ss' & E' & H1 & H2 & _). rewrite H2 in E' by reflexivity.
      exists (q :: s), ss. split.
      * destruct q as [c|m]; cbn [split_slash]; rewrite E; auto. destruct (N.eqb_spec c (ch "/")); auto. subst. easy.
      * intro b. exists (q :: s), ss'. split; [|repeat split; auto].
        destruct q as [c|m]; cbn [squeeze_pieces].
        -- destruct (N.eqb_spec c (ch "/")) as [->|Hc]; [easy|]. cbn [split_slash]. apply N.eqb_neq in Hc. now rewrite Hc, E'.
        -- cbn [split_slash]. now rewrite E'.
Qed.

Lemma one_per_segment_squeeze ps : one_per_segment ps -> one_per_segment (squeeze_pieces false ps).
Proof.
  unfold one_per_segment. intro H.
  destruct (squeeze_segments (fun seg => (length (vars seg) <= 1)%nat) ps) as (s & ss & E & Hb).
  destruct (Hb false) as (s' & ss' & E' & H1 & H2 & _). rewrite E'. rewrite E in H. inversion H; subst.
  rewrite H2 by reflexivity. constructor; auto.
Qed.

(** Several restrictions. *)
Lemma restrictions ps p fixed path : strict ps -> parse (show ps) = Ok p -> NoDup (vars ps) -> plain_template ps ->
  (forall n v, In (n, v) fixed -> In n (vars ps) /\ ~ In (ch "/") v) ->
  (length fixed <= 1)%nat \/ one_per_segment ps -> ~ In 10 path ->
  (is_match (wildcard_items ps) path = true
   /\ Forall (fun nv => is_match (param_items ps (fst nv) (snd nv)) path = true) fixed <->
   expansion ps fixed path).
Proof.
  intros Hs Hp Hnd Hpl Hfix Hone Hnl. split.
  - intros (H1 & H2).
    destruct fixed as [|[n v] [|nv2 rest]].
    + apply wildcard_match in H1; auto. destruct H1 as (val & Hv & E). exists val. repeat split; auto. intros n v [].
    + inversion H2; subst. destruct (Hfix n v) as (Hn & Hv); [now left|].
      apply one_restriction; auto.
    + destruct Hone as [Hone|Hone]; [cbn in Hone; lia|].
      set (fixed := (n, v) :: nv2 :: rest) in *.
      pose proof H1 as H1'. apply wildcard_match in H1'; auto. destruct H1' as (val & Hv & E).
      exists val. repeat split; auto. intros m w Hin.
      rewrite Forall_forall in H2. specialize (H2 _ Hin). cbn [fst snd] in H2. destruct (Hfix _ _ Hin) as (Hm & Hw).
      destruct (proj1 (one_restriction ps Hnd m w path Hm Hw Hnl) (conj H1 H2)) as (val' & Hv' & Hf & E').
      rewrite <- (Hf m w) by now left.
      apply (expansion_unique (squeeze_pieces false ps)); try (apply squeezed_slash_free; assumption).
      * now apply one_per_segment_squeeze.
      * congruence.
      * now rewrite vars_squeeze.
  - intros (val & Hv & Hf & ->). split.
    + apply wildcard_match; auto. eauto.
    + apply Forall_forall. intros [n v] Hin. cbn [fst snd]. destruct (Hfix _ _ Hin) as (Hn & Hw).
      apply (one_restriction ps Hnd n v _ Hn Hw Hnl). exists val. repeat split; auto.
      intros m w [[= <- <-]|[]]. auto.
Qed.

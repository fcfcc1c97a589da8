(** Proofs about query parameters. *)
From Coq Require Import ZifyBool ZifyN.
From Verif Require Import Base Utf8 Utf8Proofs Dec EncodeModel EncodeSpec EncodeProofs
  SerdeModel QuerySpec.

Lemma scalar_value_part v t : scalar_text v t -> value_part v = Some (Some t).
Proof. destruct 1; reflexivity. Qed.
Lemma scalar_key_part v t : scalar_text v t -> key_part v = Some t.
Proof. destruct 1; reflexivity. Qed.

Lemma value_part_iff v t : value_part v = Some t <-> item_text v t.
Proof.
  split.
  - revert t; induction v; cbn; intros t H; try easy;
      try (injection H as <-; repeat constructor; fail).
    + injection H as <-. destruct b; repeat constructor.
    + destruct (from_utf8 bs) eqn:E; [|easy]. injection H as <-. now constructor.
    + constructor. auto.
    + constructor. auto.
  - induction 1; cbn; auto.
    + now apply scalar_value_part.
    + now rewrite H.
Qed.

Lemma key_part_iff v t : key_part v = Some t <-> key_text v t.
Proof.
  split.
  - revert t; induction v; cbn; intros t H; try easy;
      try (injection H as <-; repeat constructor; fail).
    + injection H as <-. destruct b; repeat constructor.
    + now apply kt_bytes.
    + apply kt_newtype. auto.
  - induction 1; cbn; auto. now apply scalar_key_part.
Qed.

Lemma entry_iff k v ps : entry k v = Some ps <->
  exists kt t, k = Some kt /\ v = Some t /\ ps = pairs_of kt t.
Proof.
  destruct k as [kt|], v as [[t|]|]; cbn; split; intros H;
    try easy; try (destruct H as (? & ? & ? & ? & ?); easy).
  - injection H as <-. exists kt, (Some t). auto.
  - destruct H as (? & ? & [= <-] & [= <-] & ->). reflexivity.
  - injection H as <-. exists kt, None. auto.
  - destruct H as (? & ? & [= <-] & [= <-] & ->). reflexivity.
Qed.

Lemma pair_part_iff v ps : pair_part v = Some ps <-> pair_form v ps.
Proof.
  split.
  - revert ps; induction v; cbn [pair_part]; intros ps H; try easy.
    + injection H as <-. constructor.
    + constructor. auto.
    + constructor. auto.
    + destruct vs as [|k [|w [|]]]; try easy.
      apply entry_iff in H as (kt & t & Hk & Hw & ->).
      constructor; [now apply key_part_iff | now apply value_part_iff].
  - induction 1; cbn [pair_part]; auto. apply entry_iff.
    exists kt, t. rewrite (proj2 (key_part_iff _ _) H), (proj2 (value_part_iff _ _) H0). auto.
Qed.

Lemma concat_opt_iff {A B} (f : A -> option (list B)) (R : A -> list B -> Prop) l ps :
  (forall a b, f a = Some b <-> R a b) ->
  (concat_opt (map f l) = Some ps <-> exists pss, Forall2 R l pss /\ ps = concat pss).
Proof.
  intro HR. revert ps; induction l as [|a l IH]; intros ps; cbn.
  - split.
    + intros [= <-]. exists []. split; constructor.
    + intros (pss & HF & ->). inversion HF; subst. reflexivity.
  - split.
    + destruct (f a) as [b|] eqn:E; [|easy].
      destruct (concat_opt (map f l)) as [bs|]; [|easy].
      intros [= <-]. destruct (proj1 (IH bs) eq_refl) as (pss & HF & ->).
      exists (b :: pss). split; [|reflexivity]. constructor; auto. now apply HR.
    + intros (pss & HF & ->). inversion HF; subst. apply HR in H1. rewrite H1.
      rewrite (proj2 (IH (concat l')) (ex_intro _ l' (conj H3 eq_refl))). reflexivity.
Qed.

Lemma struct_pairs fs ps :
  concat_opt (map (fun kv => entry (Some (fst kv)) (value_part (snd kv))) fs) = Some ps <->
  exists ts, Forall2 (fun f t => item_text (snd f) t) fs ts /\
    ps = flat_map (fun kt => pairs_of (fst kt) (snd kt)) (combine (map fst fs) ts).
Proof.
  revert ps; induction fs as [|[k v] fs IH]; intros ps.
  - cbn. split.
    + intros [= <-]. exists []. split; [constructor|reflexivity].
    + intros (ts & HF & ->). reflexivity.
  - cbn [map concat_opt fst snd]. split.
    + destruct (entry (Some k) (value_part v)) as [a|] eqn:E; [|easy].
      destruct (concat_opt _) as [b|]; [|easy]. intros [= <-].
      destruct (proj1 (IH b) eq_refl) as (ts & HF & ->).
      apply entry_iff in E as (kt & t & [= <-] & Hv & ->).
      exists (t :: ts). split; [|reflexivity]. constructor; auto. now apply value_part_iff.
    + intros (ts & HF & ->). inversion HF; subst. cbn in H1. apply value_part_iff in H1.
      rewrite (proj2 (entry_iff (Some k) (value_part v) (pairs_of k y))); [|eauto].
      rewrite (proj2 (IH _) (ex_intro _ l' (conj H3 eq_refl))). reflexivity.
Qed.

Lemma map_pairs kvs ps :
  concat_opt (map (fun kv => entry (key_part (fst kv)) (value_part (snd kv))) kvs) = Some ps <->
  exists ks ts, Forall2 (fun kv k => key_text (fst kv) k) kvs ks /\
    Forall2 (fun kv t => item_text (snd kv) t) kvs ts /\
    ps = flat_map (fun kt => pairs_of (fst kt) (snd kt)) (combine ks ts).
Proof.
  revert ps; induction kvs as [|[k v] kvs IH]; intros ps.
  - cbn. split.
    + intros [= <-]. exists [], []. repeat split; constructor.
    + intros (ks & ts & HF1 & HF2 & ->). inversion HF1; subst. reflexivity.
  - cbn [map concat_opt fst snd]. split.
    + destruct (entry (key_part k) (value_part v)) as [a|] eqn:E; [|easy].
      destruct (concat_opt _) as [b|]; [|easy]. intros [= <-].
      destruct (proj1 (IH b) eq_refl) as (ks & ts & HF1 & HF2 & ->).
      apply entry_iff in E as (kt & t & Hk & Hv & ->).
      exists (kt :: ks), (t :: ts). repeat split; constructor; auto;
        [now apply key_part_iff|now apply value_part_iff].
    + intros (ks & ts & HF1 & HF2 & ->). inversion HF1 as [|? kt ? ks' Hk Hks]; subst.
      inversion HF2 as [|? t ? ts' Ht Hts]; subst.
      cbn [fst snd] in Hk, Ht. apply key_part_iff in Hk. apply value_part_iff in Ht.
      rewrite (proj2 (entry_iff (key_part k) (value_part v) (pairs_of kt t))); [|eauto].
      rewrite (proj2 (IH _) (ex_intro _ ks' (ex_intro _ ts' (conj Hks (conj Hts eq_refl))))).
      reflexivity.
Qed.

Lemma urlencoded_iff v ps : urlencoded v = Some ps <-> top_form v ps.
Proof.
  split.
  - revert ps; induction v; cbn [urlencoded]; intros ps H; try easy;
      try (injection H as <-; constructor; fail).
    + constructor; auto.
    + constructor; auto.
    + apply (concat_opt_iff pair_part pair_form) in H as (pss & HF & ->); [|apply pair_part_iff].
      now constructor.
    + apply (concat_opt_iff pair_part pair_form) in H as (pss & HF & ->); [|apply pair_part_iff].
      now constructor.
    + apply map_pairs in H as (ks & ts & H1 & H2 & ->). now constructor.
    + apply struct_pairs in H as (ts & H1 & ->). now constructor.
  - induction 1; cbn [urlencoded]; auto.
    + apply (concat_opt_iff pair_part pair_form); [apply pair_part_iff|]. eauto.
    + apply (concat_opt_iff pair_part pair_form); [apply pair_part_iff|]. eauto.
    + apply map_pairs. eauto.
    + apply struct_pairs. eauto.
Qed.

Lemma scalar_query name v t : scalar_text v t -> query_param name v = Some [(name, t)].
Proof. destruct 1; reflexivity. Qed.

Lemma seq_query name vs ps :
  query_param name (VSeq vs) = Some ps <->
  exists ts, Forall2 item_text vs ts /\ ps = flat_map (pairs_of name) ts.
Proof.
  unfold query_param. cbn [query_serializer urlencoded]. rewrite map_map.
  rewrite (concat_opt_iff _ (fun v ps => exists t, item_text v t /\ ps = pairs_of name t)).
  2:{ intros v ps'. cbn [pair_part key_part]. rewrite entry_iff. split.
      - intros (kt & t & [= <-] & Hv & ->). exists t. split; auto. now apply value_part_iff.
      - intros (t & Hv & ->). apply value_part_iff in Hv. eauto. }
  split.
  - intros (pss & HF & ->). induction HF as [|v p vs pss (t & Ht & ->) HF (ts & Hts & E)].
    + exists []. split; constructor.
    + exists (t :: ts). split; [now constructor|]. cbn. now rewrite E.
  - intros (ts & HF & ->). exists (map (pairs_of name) ts). split.
    + induction HF; constructor; eauto.
    + now rewrite flat_map_concat_map.
Qed.

Lemma form_explode_sound name v ps : form_explode name v ps -> query_param name v = Some ps.
Proof.
  induction 1.
  - now apply scalar_query.
  - reflexivity.
  - exact IHform_explode.
  - apply seq_query. eauto.
  - apply urlencoded_iff. now constructor.
  - apply urlencoded_iff. now constructor.
  - unfold query_param. cbn [query_serializer]. apply urlencoded_iff.
    replace (pairs_of variant t) with
      (flat_map (fun kt => pairs_of (fst kt) (snd kt)) (combine (map fst [(variant, v)]) [t])).
    + constructor. repeat constructor. assumption.
    + cbn. apply app_nil_r.
Qed.

Lemma odd_form_sound name v ps : odd_form name v ps -> query_param name v = Some ps.
Proof.
  induction 1.
  - exact IHodd_form.
  - reflexivity.
  - reflexivity.
  - now apply urlencoded_iff.
  - change (urlencoded v = Some ps). now apply urlencoded_iff.
Qed.

Lemma query_param_complete name v ps :
  query_param name v = Some ps -> form_explode name v ps \/ odd_form name v ps.
Proof.
  revert ps; induction v; intros ps H;
    try (left; injection H as <-; constructor; constructor; fail).
  - left. injection H as <-. destruct b; repeat constructor.
  - now cbv in H.
  - apply IHv in H as [H|H]; [left|right]; now constructor.
  - right. injection H as <-. constructor.
  - right. injection H as <-. constructor.
  - right. unfold query_param in H. cbn [query_serializer urlencoded] in H.
    apply urlencoded_iff in H. now constructor.
  - left. unfold query_param in H. cbn [query_serializer] in H.
    apply urlencoded_iff in H. inversion H as [| | | | | | | |? ? ts HF]; subst.
    inversion HF as [|? t ? ts' Ht Hts]; subst. inversion Hts; subst.
    cbn. rewrite app_nil_r. now constructor.
  - left. apply seq_query in H as (ts & HF & ->). now constructor.
  - right. unfold query_param in H. cbn [query_serializer] in H.
    apply urlencoded_iff in H. now constructor.
  - easy.
  - easy.
  - left. unfold query_param in H. cbn [query_serializer] in H.
    apply urlencoded_iff in H. inversion H; subst. now constructor.
  - left. unfold query_param in H. cbn [query_serializer] in H.
    apply urlencoded_iff in H. inversion H; subst. now constructor.
  - easy.
Qed.

Lemma query_param_iff name v ps :
  query_param name v = Some ps <-> form_explode name v ps \/ odd_form name v ps.
Proof.
  split; [apply query_param_complete|].
  intros [H|H]; [now apply form_explode_sound|now apply odd_form_sound].
Qed.

Lemma form_explode_fun name v ps qs :
  form_explode name v ps -> form_explode name v qs -> ps = qs.
Proof. intros H1%form_explode_sound H2%form_explode_sound. congruence. Qed.

(** ** The query string *)

Local Open Scope N_scope.

Definition part_byte_ok (b : N) : bool :=
  forallb (fun c => negb (c =? ch "&") && negb (c =? ch "="))
    (if byte_unchanged b then [b] else if b =? ch " " then [ch "+"] else percent_encode_byte b).

Lemma byte_serialize_chars bs c : Forall (fun b => b < 256) bs -> In c (byte_serialize bs) ->
  c <> ch "&" /\ c <> ch "=".
Proof.
  intros HF Hin. unfold byte_serialize in Hin. apply in_flat_map in Hin as (b & Hb & Hc).
  rewrite Forall_forall in HF. apply HF in Hb.
  assert (H : part_byte_ok b = true).
  { revert b Hb Hc. intros b Hb _. revert b Hb. apply forall_byte. vm_compute. reflexivity. }
  unfold part_byte_ok in H. rewrite forallb_forall in H. apply H in Hc.
  apply andb_true_iff in Hc as (H1 & H2). apply negb_true_iff in H1, H2.
  now apply N.eqb_neq in H1, H2.
Qed.

Definition unplus (c : char) : char := if c =? ch "+" then ch " " else c.

Lemma percent_decode_serialize bs : Forall (fun b => b < 256) bs ->
  percent_decode (map unplus (byte_serialize bs)) = Some bs.
Proof.
  induction 1 as [|b bs Hb _ IH]; [reflexivity|].
  cbn [byte_serialize flat_map]. fold (byte_serialize bs). rewrite map_app.
  change (b :: bs) with ([b] ++ bs). apply percent_decode_app; [|exact IH].
  assert (H : (match percent_decode (map unplus (if byte_unchanged b then [b]
                else if b =? ch " " then [ch "+"] else percent_encode_byte b)) with
               | Some [x] => x =? b | _ => false end) = true).
  { revert b Hb. apply forall_byte. vm_compute. reflexivity. }
  set (o := percent_decode _) in H. change (o = Some [b]).
  destruct o as [[|x [|]]|]; try easy. apply N.eqb_eq in H. now subst.
Qed.

Lemma form_decode_part_serialize s : valid_str s ->
  form_decode_part (byte_serialize (utf8 s)) = Some s.
Proof.
  intro Hv. unfold form_decode_part, decode_segment. fold unplus.
  rewrite percent_decode_serialize by now apply utf8_bytes. now apply from_utf8_utf8.
Qed.

Lemma cut_at_app c a b : ~ In c a -> cut_at c (a ++ c :: b) = (a, b).
Proof.
  induction a as [|x a IH]; intro H; cbn.
  - now rewrite N.eqb_refl.
  - destruct (N.eqb_spec x c); [exfalso; apply H; now left|].
    rewrite IH; auto. intro. apply H. now right.
Qed.

Lemma split_on_none c a : ~ In c a -> split_on c a = [a].
Proof.
  induction a as [|x a IH]; intro H; cbn; auto.
  destruct (N.eqb_spec x c); [exfalso; apply H; now left|].
  rewrite IH; auto. intro. apply H. now right.
Qed.

Lemma split_on_nonempty c a : split_on c a <> [].
Proof.
  destruct a as [|x a]; cbn; [easy|]. destruct (x =? c); [easy|].
  now destruct (split_on c a).
Qed.

Lemma split_on_app c a b : ~ In c b -> split_on c (a ++ c :: b) = split_on c a ++ [b].
Proof.
  intro Hb. induction a as [|x a IH]; cbn.
  - rewrite N.eqb_refl, split_on_none by assumption. reflexivity.
  - destruct (x =? c).
    + now rewrite IH.
    + rewrite IH. pose proof (split_on_nonempty c a). now destruct (split_on c a).
Qed.

Definition valid_pair (p : str * str) : Prop := valid_str (fst p) /\ valid_str (snd p).

Definition ser_pair (p : str * str) : str :=
  byte_serialize (utf8 (fst p)) ++ [ch "="] ++ byte_serialize (utf8 (snd p)).

Lemma ser_pair_no_amp p : valid_pair p -> ~ In (ch "&") (ser_pair p).
Proof.
  intros (H1 & H2) Hin. unfold ser_pair in Hin. rewrite !in_app_iff in Hin.
  destruct Hin as [Hin|[Hin|Hin]].
  - apply byte_serialize_chars in Hin; [now destruct Hin|now apply utf8_bytes].
  - now destruct Hin as [Hin|[]].
  - apply byte_serialize_chars in Hin; [now destruct Hin|now apply utf8_bytes].
Qed.

Lemma form_decode_ser_pair p : valid_pair p -> form_decode_pair (ser_pair p) = Some p.
Proof.
  intros (H1 & H2). unfold form_decode_pair, ser_pair. cbn [app].
  rewrite cut_at_app.
  - rewrite !form_decode_part_serialize by assumption. now destruct p.
  - intro Hin. apply byte_serialize_chars in Hin; [now destruct Hin|now apply utf8_bytes].
Qed.

Lemma all_some_app {A} (l1 l2 : list (option A)) a b :
  all_some l1 = Some a -> all_some l2 = Some b -> all_some (l1 ++ l2) = Some (a ++ b).
Proof.
  revert a; induction l1 as [|[x|] l1 IH]; intros a H1 H2; cbn in *; try easy.
  - injection H1 as <-. exact H2.
  - destruct (all_some l1) as [y|]; [|easy]. injection H1 as <-.
    rewrite (IH y) by auto. reflexivity.
Qed.

(** The decoded content of a query text under construction. *)
Definition query_content (target : str) (ps : list (str * str)) : Prop :=
  match target with
  | [] => ps = []
  | _ => form_decode (Some target) = Some ps
  end.

Lemma ser_pair_nonempty p : ser_pair p <> [].
Proof. unfold ser_pair. now destruct (byte_serialize (utf8 (fst p))). Qed.

Lemma append_pair_content target ps p :
  valid_pair p -> query_content target ps -> query_content (append_pair target p) (ps ++ [p]).
Proof.
  intros Hv Hc. unfold append_pair. fold (ser_pair p). destruct target as [|c t].
  - cbn [query_content] in Hc. subst ps. cbn [app].
    unfold query_content. pose proof (ser_pair_nonempty p).
    destruct (ser_pair p) eqn:E; [easy|]. rewrite <- E.
    cbn [form_decode]. rewrite split_on_none by now apply ser_pair_no_amp.
    cbn. now rewrite form_decode_ser_pair.
  - cbn [query_content] in Hc. unfold query_content.
    destruct ((c :: t) ++ [ch "&"]) eqn:E; [easy|]. cbn [app].
    change (n :: l ++ ser_pair p) with ((n :: l) ++ ser_pair p). rewrite <- E.
    cbn [form_decode] in *. rewrite <- app_assoc. cbn [app].
    change (c :: t ++ ch "&" :: ser_pair p) with ((c :: t) ++ ch "&" :: ser_pair p).
    rewrite split_on_app by now apply ser_pair_no_amp.
    rewrite map_app. apply all_some_app; [exact Hc|]. cbn.
    now rewrite form_decode_ser_pair.
Qed.

Lemma append_pairs_content qs : forall target ps,
  Forall valid_pair qs -> query_content target ps -> query_content (append_pairs target qs) (ps ++ qs).
Proof.
  induction qs as [|q qs IH]; intros target ps HF Hc; cbn.
  - now rewrite app_nil_r.
  - inversion HF; subst. replace (ps ++ q :: qs) with ((ps ++ [q]) ++ qs) by now rewrite <- app_assoc.
    apply IH; auto. now apply append_pair_content.
Qed.

Lemma request_query_content q ps qs :
  Forall valid_pair qs -> form_decode q = Some ps -> q <> Some [] ->
  exists q', request_query q (Some qs) = Some q' /\ form_decode q' = Some (ps ++ qs) /\ q' <> Some [].
Proof.
  intros HF Hd Hne. cbn [request_query].
  assert (Hc : query_content (match q with Some s => s | None => [] end) ps).
  { destruct q as [[|c t]|]; try easy. cbn in Hd. now injection Hd as <-. }
  pose proof (append_pairs_content qs _ _ HF Hc) as H.
  destruct (append_pairs _ qs) as [|c t] eqn:E; eexists; (split; [reflexivity|]); cbn [query_content] in H.
  - rewrite H. split; easy.
  - split; [exact H|easy].
Qed.

Lemma fold_queries_content params : forall q ps pss,
  Forall2 (fun kv p => query_param (fst kv) (snd kv) = Some p) params pss ->
  Forall (Forall valid_pair) pss ->
  form_decode q = Some ps -> q <> Some [] ->
  exists q', fold_left (fun q kv => match q with
                         | Some q => request_query q (query_param (fst kv) (snd kv))
                         | None => None
                         end) params (Some q) = Some q' /\
    form_decode q' = Some (ps ++ concat pss).
Proof.
  induction params as [|kv params IH]; intros q ps pss HF HV Hd Hne; inversion HF; subst; cbn [fold_left].
  - exists q. cbn. rewrite app_nil_r. auto.
  - inversion HV; subst. rewrite H1.
    destruct (request_query_content q ps y) as (q1 & Hq1 & Hd1 & Hne1); auto.
    rewrite Hq1. destruct (IH q1 (ps ++ y) l') as (q' & Hq' & Hd'); auto.
    exists q'. split; auto. cbn. now rewrite app_assoc.
Qed.

Lemma send_queries_decode params pss :
  Forall2 (fun kv p => query_param (fst kv) (snd kv) = Some p) params pss ->
  Forall (Forall valid_pair) pss ->
  exists q, send_queries params = Some q /\ form_decode q = Some (concat pss).
Proof. intros HF HV. apply (fold_queries_content params None [] pss); auto. easy. Qed.

Lemma send_queries_error params :
  send_queries params = None <-> exists kv, In kv params /\ query_param (fst kv) (snd kv) = None.
Proof.
  unfold send_queries.
  assert (HN : forall ps, fold_left (fun q kv => match q with
                         | Some q => request_query q (query_param (fst kv) (snd kv))
                         | None => None
                         end) ps None = None).
  { induction ps; cbn; auto. }
  enough (H : forall q, fold_left (fun q kv => match q with
                         | Some q => request_query q (query_param (fst kv) (snd kv))
                         | None => None
                         end) params (Some q) = None <->
                  exists kv, In kv params /\ query_param (fst kv) (snd kv) = None) by apply H.
  induction params as [|kv params IH]; intros q; cbn [fold_left].
  - split; [easy|intros (kv & [] & _)].
  - destruct (query_param (fst kv) (snd kv)) as [ps|] eqn:E.
    + cbn [request_query]. rewrite IH. split.
      * intros (kv' & Hin & Hq). exists kv'. split; auto. now right.
      * intros (kv' & [<-|Hin] & Hq); [congruence|]. eauto.
    + cbn [request_query]. rewrite HN. split; auto. intros _. exists kv. split; auto. now left.
Qed.

Lemma newtype_scalar_refused :
  exists n v t name, scalar_text v t /\ query_param name (VNewtypeStruct n v) = None.
Proof. exists [], (VStr (lit "x")), (lit "x"), (lit "q"). split; constructor. Qed.

Lemma present_query name n v : query_param name (Nat.iter n VSome v) = query_param name v.
Proof. induction n; cbn; auto. Qed.

Lemma absent_query name n : query_param name (Nat.iter n VSome VNone) = Some [].
Proof. now rewrite present_query. Qed.

Lemma array_query name vs ts :
  Forall2 scalar_text vs ts ->
  query_param name (VSeq vs) = Some (map (fun t => (name, t)) ts).
Proof.
  intro HF. apply seq_query. exists (map Some ts). split.
  - induction HF; constructor; auto. now constructor.
  - clear. induction ts; cbn; congruence.
Qed.

Lemma object_query name n fs ts :
  Forall2 scalar_text (map snd fs) ts ->
  query_param name (VStruct n fs) = Some (combine (map fst fs) ts).
Proof.
  intro HF. apply urlencoded_iff.
  replace (combine (map fst fs) ts) with
    (flat_map (fun kt => pairs_of (fst kt) (snd kt)) (combine (map fst fs) (map Some ts))).
  - constructor. revert ts HF. induction fs as [|[k v] fs IH]; intros ts HF; inversion HF; subst; constructor.
    + now constructor.
    + auto.
  - clear. revert ts. induction fs as [|[k v] fs IH]; intros [|t ts]; cbn; auto. now rewrite IH.
Qed.

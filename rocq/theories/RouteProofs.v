(** What a request tells of the operation that was called (C100). *)
From Verif Require Import Base Utf8 Utf8Proofs SerdeModel OasModel HeaderModel ClientModel TemplateModel TemplateSpec TemplateProofs
  EncodeModel EncodeSpec EncodeProofs QuerySpec MethodModel OpModel RunModel RequestSpec
  RequestProofs DocSpec DocProofs DocCor MockModel MockSpec MockProofs MockCor MockDoc MockEpisode MockApartSpec MockApart ParamProofs GenerateModel GenerateSpec GenerateProofs LocalProofs RouteSpec.
Local Open Scope N_scope.

(** ** Templates *)

(** Texts that are their own encoding. *)
Definition plainb (v : str) : bool := forallb (fun c => plain_literal c && negb (c =? ch "/")) v.

Lemma plain_small c : plain_literal c = true -> c < 128.
Proof.
  intro Hc. unfold plain_literal, delimiter in Hc. destruct (N.ltb_spec c 128) as [|H]; auto. exfalso.
  destruct (N.eqb_spec c (ch "/")) as [E|Hs]; [rewrite E in H; vm_compute in H; now apply H|].
  replace (126 <? c) with true in Hc by (symmetry; apply N.ltb_lt; lia). rewrite orb_true_r in Hc. discriminate.
Qed.

Lemma plain_encode s : plainb s = true -> encode_path s = s.
Proof.
  induction s as [|c s IH]; [reflexivity|]. cbn [plainb forallb]. intro H. apply andb_true_iff in H as (Hc & H).
  unfold encode_path, percent_encode, utf8 in *. cbn [flat_map]. rewrite flat_map_app, IH by exact H.
  change (c :: s) with ([c] ++ s). f_equal.
  assert (Hb : c < 256) by (apply andb_true_iff in Hc as (Hc & _); apply plain_small in Hc; lia).
  assert (K : implb (plain_literal c && negb (c =? ch "/"))
    (str_eqb (flat_map (fun b => if should_percent_encode path_set b then percent_encode_byte b else [b]) (utf8_char c)) [c]) = true).
  { clear -Hb. revert c Hb. apply forall_byte. vm_compute. reflexivity. }
  rewrite Hc in K. cbn [implb] in K. now apply str_eqb_spec in K.
Qed.

Lemma plainb_valid v : plainb v = true -> valid_str v.
Proof.
  intro E. apply Forall_forall. intros c Hc. unfold plainb in E. rewrite forallb_forall in E.
  apply E in Hc. apply andb_true_iff in Hc as (Hc & _). apply plain_small in Hc. unfold scalar. lia.
Qed.

Lemma plainb_app a b : plainb (a ++ b) = plainb a && plainb b.
Proof. apply forallb_app. Qed.

Lemma plain_squeezed ps : plain_literals ps -> forall s c, In s (segments ps) -> In (PLit c) s -> plain_literal c = true /\ c <> ch "/".
Proof.
  intros Hl s c Hs Hc. unfold segments in Hs. destruct (in_split_slash _ _ _ Hs Hc) as (Hi & Hn). split; [|intros ->; now apply Hn].
  apply Hl. clear -Hi. revert Hi. generalize false. induction ps as [|[d|n] ps IH]; intros b; cbn [squeeze_pieces]; [easy| |].
  - destruct (d =? ch "/"); [destruct b|]; cbn [In]; intuition eauto.
  - cbn [In]. intuition eauto.
Qed.

Definition plain_seg (s : list piece) : Prop := forall c, In (PLit c) s -> plain_literal c = true /\ c <> ch "/".

Lemma plain_seg_cons p s : plain_seg (p :: s) -> plain_seg s.
Proof. intros H c Hc. apply H. now right. Qed.

Lemma plain_seg_char c s : plain_seg (PLit c :: s) -> plain_literal c && negb (c =? ch "/") = true.
Proof. intro H. destruct (H c (or_introl eq_refl)) as (H1 & H2). rewrite H1. apply N.eqb_neq in H2. now rewrite H2. Qed.

Lemma lead_plain s : plain_seg s -> plainb (lead s) = true.
Proof.
  induction s as [|[c|n] s IH]; [reflexivity| |reflexivity]. intro H. cbn [lead plainb forallb]. rewrite (plain_seg_char c s H). apply IH. now apply plain_seg_cons in H.
Qed.

Lemma trail_from s : forall t, vars s <> [] -> fold_left (fun t p => match p with PLit c => t ++ [c] | PVar _ => [] end) s t = trail s.
Proof.
  unfold trail. induction s as [|[c|n] s IH]; intros t Hv; [easy| |reflexivity]. cbn [fold_left]. rewrite (IH (t ++ [c]) Hv), (IH ([] ++ [c]) Hv). reflexivity.
Qed.

Lemma trail_const s val : forall t, vars s = [] ->
  fold_left (fun t p => match p with PLit c => t ++ [c] | PVar _ => [] end) s t = t ++ expand val s.
Proof.
  induction s as [|[c|n] s IH]; intros t Hv; [symmetry; apply app_nil_r| |discriminate].
  cbn [fold_left expand flat_map]. rewrite IH by exact Hv. now rewrite <- app_assoc.
Qed.

Lemma trail_plain s : plain_seg s -> plainb (trail s) = true.
Proof.
  intro H. assert (K : forall t, plainb t = true -> plainb (fold_left (fun t p => match p with PLit c => t ++ [c] | PVar _ => [] end) s t) = true);
    [|now apply K].
  induction s as [|[c|n] s IH]; intros t Ht; cbn [fold_left]; [exact Ht| |].
  - apply IH; [now apply plain_seg_cons in H|]. rewrite plainb_app, Ht. cbn [plainb forallb]. now rewrite (plain_seg_char c s H).
  - apply IH; [now apply plain_seg_cons in H|reflexivity].
Qed.

Lemma expand_lead val s : exists x, expand val s = lead s ++ x.
Proof.
  induction s as [|[c|n] s (x & IH)]; [now exists []| |].
  - exists x. cbn [expand flat_map lead app]. now rewrite <- IH.
  - now exists (expand val (PVar n :: s)).
Qed.

Lemma expand_trail val s : exists x, expand val s = x ++ trail s.
Proof.
  assert (K : forall t, exists x, t ++ expand val s = x ++ fold_left (fun t p => match p with PLit c => t ++ [c] | PVar _ => [] end) s t).
  { induction s as [|[c|n] s IH]; intro t; cbn [fold_left expand flat_map].
    - exists []. apply app_nil_r.
    - fold (expand val s). destruct (IH (t ++ [c])) as (x & E). exists x. rewrite <- E. now rewrite <- app_assoc.
    - fold (expand val s). destruct (IH []) as (x & E). exists (t ++ val n ++ x). cbn [app] in E. rewrite <- !app_assoc. now rewrite <- E. }
  destruct (K []) as (x & E). now exists x.
Qed.

(** Two beginnings of a text, and two ends of it. *)
Lemma beginnings (a b x y : str) : a ++ x = b ++ y -> exists z, a = b ++ z \/ b = a ++ z.
Proof.
  revert b. induction a as [|c a IH]; intros [|d b] E; [now exists []; left|exists (d :: b); now right|exists (c :: a); now left|].
  injection E as <- E. destruct (IH b E) as (z & [->| ->]); exists z; [left|right]; reflexivity.
Qed.

Lemma ends (a b x y : str) : x ++ a = y ++ b -> exists z, a = z ++ b \/ b = z ++ a.
Proof.
  intro E. apply (f_equal (@rev N)) in E. rewrite !rev_app_distr in E. apply beginnings in E as (z & [E|E]); exists (rev z); [left|right];
    apply (f_equal (@rev N)) in E; now rewrite rev_app_distr, !rev_involutive in E.
Qed.

(** A segment with placeholders has every text that begins and ends as it does, with something in between. *)
Lemma fill s : vars s <> [] -> NoDup (vars s) -> plain_seg s -> exists mid, plainb mid = true /\
  forall a b, plainb a = true -> plainb b = true -> exists val, (forall n, plainb (val n) = true) /\ expand val s = lead s ++ a ++ mid ++ b ++ trail s.
Proof.
  induction s as [|[c|n] s IH]; intros Hv Hnd Hp; [easy| |].
  - destruct IH as (mid & Hm & IH); [exact Hv|exact Hnd|now apply plain_seg_cons in Hp|]. exists mid. split; [exact Hm|]. intros a b Ha Hb.
    destruct (IH a b Ha Hb) as (val & Hval & E). exists val. split; [exact Hval|]. cbn [expand flat_map lead app]. fold (expand val s). rewrite E. f_equal.
    assert (Et : trail (PLit c :: s) = trail s) by (unfold trail at 1; cbn [fold_left]; now rewrite trail_from). now rewrite Et.
  - change (vars (PVar n :: s)) with (n :: vars s) in *. inversion Hnd as [|? ? Hn Hnd']; subst.
    change (trail (PVar n :: s)) with (trail s). destruct (vars s) as [|m vs] eqn:Ev.
    + exists []. split; [reflexivity|]. intros a b Ha Hb. exists (fun _ => a ++ b). split; [intro; rewrite plainb_app, Ha; exact Hb|].
      cbn [expand flat_map lead app]. unfold trail. rewrite (trail_const s (fun _ => a ++ b) [] Ev). cbn [app]. fold (expand (fun _ => a ++ b) s).
      now rewrite <- app_assoc.
    + destruct IH as (mid & Hm & IH); [discriminate|exact Hnd'|now apply plain_seg_cons in Hp|].
      exists (lead s ++ mid). split; [rewrite plainb_app, Hm, lead_plain; [reflexivity|now apply plain_seg_cons in Hp]|]. intros a b Ha Hb.
      destruct (IH [] b eq_refl Hb) as (val & Hval & E). exists (put n a val). split.
      * intro k. unfold put. destruct (str_eqb k n); auto.
      * cbn [expand flat_map lead app]. fold (expand (put n a val) s). rewrite expand_put by (rewrite Ev; exact Hn). rewrite E.
        unfold put. rewrite str_eqb_refl. cbn [app]. now rewrite <- !app_assoc.
Qed.

Lemma infix_plain val s n : In n (vars s) -> plainb (expand val s) = true -> plainb (val n) = true.
Proof.
  unfold vars. intro H. apply in_flat_map in H as ([c|m] & Hp & Hm); [easy|]. destruct Hm as [->|[]].
  apply in_split in Hp as (a & b & ->). unfold expand. rewrite flat_map_app. cbn [flat_map]. rewrite !plainb_app. intro H.
  apply andb_true_iff in H as (_ & H). now apply andb_true_iff in H as (H & _).
Qed.

Lemma const_plain val s : vars s = [] -> plain_seg s -> plainb (expand val s) = true.
Proof.
  induction s as [|[c|n] s IH]; [reflexivity| |discriminate]. intros Hv Hl. cbn [expand flat_map app plainb forallb]. rewrite (plain_seg_char c s Hl).
  apply IH; [exact Hv|]. now apply plain_seg_cons in Hl.
Qed.

Lemma plain_expand val s : (forall n, In n (vars s) -> plainb (val n) = true) -> expand (fun n => encode_path (val n)) s = expand val s.
Proof. intro H. apply expand_ext. intros n Hn. apply plain_encode. auto. Qed.

(** Overlapping segments have a text in common. *)
Lemma overlap_common s s' : overlap s s' -> NoDup (vars s) -> NoDup (vars s') -> plain_seg s -> plain_seg s' -> exists val val',
  (forall n, In n (vars s) -> plainb (val n) = true) /\ (forall n, In n (vars s') -> plainb (val' n) = true) /\ expand val s = expand val' s'.
Proof.
  intros Ho Hn Hn' Hp Hp'. destruct Ho as [s Hv|s s' val Hv Hv' E|s s' val Hv Hv' E|s s' x y Hv Hv' Hl Ht].
  - exists (fun _ => []), (fun _ => []). auto.
  - exists val, val. split; [rewrite Hv; easy|]. split; [|now symmetry]. intros n Hi. apply (infix_plain val s' n Hi). rewrite E. now apply const_plain.
  - exists val, val. split; [|split; [rewrite Hv'; easy|now symmetry]]. intros n Hi. apply (infix_plain val s n Hi). rewrite <- E. now apply const_plain.
  - destruct (fill s Hv Hn Hp) as (mid & Hm & F). destruct (fill s' Hv' Hn' Hp') as (mid' & Hm' & F').
    assert (Hx : exists a a', plainb a = true /\ plainb a' = true /\ lead s ++ a = lead s' ++ a').
    { pose proof (lead_plain s Hp) as H1. pose proof (lead_plain s' Hp') as H2.
      destruct Hl as [E|E]; [exists [], x|exists x, []]; rewrite E, ?app_nil_r; rewrite E in *; rewrite plainb_app in *;
        repeat match goal with H : _ && _ = true |- _ => apply andb_true_iff in H as (? & ?) end; auto. }
    assert (Hy : exists b b', plainb b = true /\ plainb b' = true /\ b ++ trail s = b' ++ trail s').
    { pose proof (trail_plain s Hp) as H1. pose proof (trail_plain s' Hp') as H2.
      destruct Ht as [E|E]; [exists [], y|exists y, []]; rewrite E in *; rewrite plainb_app in *;
        repeat match goal with H : _ && _ = true |- _ => apply andb_true_iff in H as (? & ?) end; auto. }
    destruct Hx as (a & a' & Ha & Ha' & Ea), Hy as (b & b' & Hb & Hb' & Eb).
    destruct (F a (mid' ++ b)) as (val & Hval & E1); [exact Ha|rewrite plainb_app, Hm'; exact Hb|].
    destruct (F' (a' ++ mid) b') as (val' & Hval' & E2); [rewrite plainb_app, Ha'; exact Hm|exact Hb'|].
    exists val, val'. split; [auto|]. split; [auto|]. rewrite E1, E2. rewrite <- !app_assoc, <- Eb. rewrite (app_assoc (lead s)), Ea. now rewrite <- !app_assoc.
Qed.

Lemma overlap_necessary val val' s s' : expand val s = expand val' s' -> overlap s s'.
Proof.
  intro E. destruct (vars s) as [|n l] eqn:Hv, (vars s') as [|n' l'] eqn:Hv'.
  - rewrite (const_inj _ _ _ _ Hv Hv' E). now apply ov_const.
  - apply (ov_left s s' val'); [exact Hv|rewrite Hv'; discriminate|]. rewrite <- E. now apply expand_const.
  - apply (ov_right s s' val); [rewrite Hv; discriminate|exact Hv'|]. rewrite E. now apply expand_const.
  - destruct (expand_lead val s) as (x & E1). destruct (expand_lead val' s') as (x' & E1'). rewrite E1, E1' in E.
    destruct (beginnings _ _ _ _ E) as (z & Hz). rewrite <- E1, <- E1' in E.
    destruct (expand_trail val s) as (y & E2). destruct (expand_trail val' s') as (y' & E2'). rewrite E2, E2' in E.
    destruct (ends _ _ _ _ E) as (w & Hw). apply (ov_both s s' z w); auto; [rewrite Hv|rewrite Hv']; discriminate.
Qed.

(** Values for one segment and for the others. *)
Lemma merge (s : list piece) l (val val0 : str -> str) : NoDup (flat_map vars (s :: l)) -> exists val2,
  (forall n, In n (vars s) -> val2 n = val n) /\ (forall n, In n (flat_map vars l) -> val2 n = val0 n).
Proof.
  intro H. exists (fun n => if mem n (vars s) then val n else val0 n). split; intros n Hn.
  - apply mem_spec in Hn. now rewrite Hn.
  - destruct (mem n (vars s)) eqn:E; auto. apply mem_spec in E. exfalso. cbn [flat_map] in H. clear -H E Hn. induction (vars s) as [|k vs IH]; [easy|].
    inversion H as [|? ? H1 H2]; subst. destruct E as [->|E]; auto. apply H1. apply in_app_iff. now right.
Qed.

Lemma overlaps_common l l' : Forall2 overlap l l' -> NoDup (flat_map vars l) -> NoDup (flat_map vars l') -> Forall plain_seg l -> Forall plain_seg l' ->
  exists val val', (forall n, In n (flat_map vars l) -> plainb (val n) = true) /\ (forall n, In n (flat_map vars l') -> plainb (val' n) = true)
    /\ map (expand val) l = map (expand val') l'.
Proof.
  induction 1 as [|s s' l l' Ho _ IH]; intros Hn Hn' Hp Hp'; [exists (fun _ => []), (fun _ => []); auto|].
  inversion Hp; inversion Hp'; subst. pose proof Hn as N1. pose proof Hn' as N1'. cbn [flat_map] in N1, N1'.
  destruct IH as (v0 & v0' & H0 & H0' & E0); auto; [now apply nodup_right in N1|now apply nodup_right in N1'|].
  destruct (overlap_common s s') as (v & v' & Hv & Hv' & E); auto.
  { clear -N1. induction (vars s) as [|k vs IH]; constructor; inversion N1 as [|? ? A B]; subst; [intro; apply A; apply in_app_iff; now left|auto]. }
  { clear -N1'. induction (vars s') as [|k vs IH]; constructor; inversion N1' as [|? ? A B]; subst; [intro; apply A; apply in_app_iff; now left|auto]. }
  destruct (merge s l v v0 Hn) as (u & U1 & U2). destruct (merge s' l' v' v0' Hn') as (u' & U1' & U2').
  exists u, u'. split; [|split].
  - intros n Hi. cbn [flat_map] in Hi. apply in_app_iff in Hi as [Hi|Hi]; [rewrite (U1 n Hi)|rewrite (U2 n Hi)]; auto.
  - intros n Hi. cbn [flat_map] in Hi. apply in_app_iff in Hi as [Hi|Hi]; [rewrite (U1' n Hi)|rewrite (U2' n Hi)]; auto.
  - cbn [map]. f_equal.
    + rewrite (expand_ext u v s U1), (expand_ext u' v' s' U1'). exact E.
    + transitivity (map (expand v0) l); [|rewrite E0]; apply map_ext_in; intros t Ht; [|symmetry]; apply expand_ext; intros n Hi; [apply U2|apply U2'];
        apply in_flat_map; eauto.
Qed.

Lemma paths_overlap val val' ps ps' : slash_free ps val -> slash_free ps' val' ->
  expand val (squeeze_pieces false ps) = expand val' (squeeze_pieces false ps') -> Forall2 overlap (segments ps) (segments ps').
Proof.
  intros Hv Hv' E. rewrite !expand_split in E. fold (segments ps) (segments ps') in E.
  apply join_inj in E; [|apply map_segments_nonempty..|now apply segments_no_slash|now apply segments_no_slash].
  revert E. generalize (segments ps) (segments ps'). induction l as [|s l IH]; intros [|s' l'] E; try discriminate; [constructor|].
  cbn [map] in E. injection E as E1 E2. constructor; [now apply overlap_necessary in E1|auto].
Qed.

Lemma share_iff ps ps' : NoDup (vars ps) -> NoDup (vars ps') -> plain_literals ps -> plain_literals ps' ->
  (share_path ps ps' <-> Forall2 overlap (segments ps) (segments ps')).
Proof.
  intros Hn Hn' Hl Hl'. split.
  - intros (val & val' & Hv & Hv' & E). revert E. unfold path_for. apply paths_overlap; intros n Hi Hin.
    + apply (encode_path_safe (val n)) in Hin; [discriminate|auto].
    + apply (encode_path_safe (val' n)) in Hin; [discriminate|auto].
  - intro HF. destruct (overlaps_common _ _ HF) as (val & val' & Hv & Hv' & E).
    + unfold segments. now rewrite split_vars, vars_squeeze.
    + unfold segments. now rewrite split_vars, vars_squeeze.
    + apply Forall_forall. intros s Hs c Hc. now apply (plain_squeezed ps Hl s).
    + apply Forall_forall. intros s Hs c Hc. now apply (plain_squeezed ps' Hl' s).
    + unfold segments in Hv, Hv'. rewrite split_vars, vars_squeeze in Hv, Hv'. exists val, val'. split; [intros; apply plainb_valid; auto|].
      split; [intros; apply plainb_valid; auto|]. unfold path_for. rewrite !plain_expand by (intros n Hi; rewrite vars_squeeze in Hi; auto).
      rewrite !expand_split. unfold segments in E. now rewrite E.
Qed.

Lemma whole_overlap ps ps' : whole_segments ps -> whole_segments ps' -> (Forall2 overlap (segments ps) (segments ps') <-> ~ apart ps ps').
Proof.
  intros Hw Hw'. split.
  - intros HF [Hlen|(i & s & s' & E1 & E2 & H1 & H2 & Hne)]; [apply Hlen; clear -HF; induction HF; cbn [length]; auto|]. apply Hne. clear Hw Hw' Hne. revert i E1 E2.
    induction HF as [|a b l l' Ho _ IH]; intros [|i] E1 E2; try discriminate; [|eauto]. injection E1 as ->. injection E2 as ->.
    destruct Ho as [|? ? ? ? Hx| |]; auto; contradiction.
  - intro Ha. assert (Hlen : length (segments ps) = length (segments ps')).
    { destruct (Nat.eq_dec (length (segments ps)) (length (segments ps'))); auto. elim Ha. now left. }
    assert (Hc : forall i s s', nth_error (segments ps) i = Some s -> nth_error (segments ps') i = Some s' -> vars s = [] -> vars s' = [] -> s = s').
    { intros i s s' E1 E2 H1 H2. destruct (list_eq_dec piece_eq_dec s s'); auto. elim Ha. right. exists i, s, s'. auto. }
    unfold whole_segments in *. clear Ha. revert Hlen Hc Hw Hw'. generalize (segments ps) (segments ps').
    induction l as [|s l IH]; intros [|s' l'] Hlen Hc Hw Hw'; try easy; constructor.
    + inversion Hw as [|? ? W1 _]; inversion Hw' as [|? ? W2 _]; subst. destruct W1 as [W1|(n & ->)], W2 as [W2|(n' & ->)].
      * rewrite (Hc O s s' eq_refl eq_refl W1 W2). now apply ov_const.
      * apply (ov_left s [PVar n'] (fun _ => expand (fun _ => []) s)); [exact W1|discriminate|]. cbn [expand flat_map]. rewrite app_nil_r. now apply expand_const.
      * apply (ov_right [PVar n] s' (fun _ => expand (fun _ => []) s')); [discriminate|exact W2|]. cbn [expand flat_map]. rewrite app_nil_r. now apply expand_const.
      * apply (ov_both _ _ [] []); try discriminate; left; reflexivity.
    + inversion Hw; inversion Hw'; subst. apply IH; auto. intros i. apply (Hc (S i)).
Qed.

(** ** Mocks *)

Lemma overlap_slash_free ps ps' : NoDup (vars ps) -> NoDup (vars ps') -> plain_literals ps -> plain_literals ps' ->
  Forall2 overlap (segments ps) (segments ps') ->
  exists val val', slash_free ps val /\ slash_free ps' val' /\ expand val (squeeze_pieces false ps) = expand val' (squeeze_pieces false ps').
Proof.
  intros Hn Hn' Hl Hl' HF. apply (share_iff ps ps' Hn Hn' Hl Hl') in HF as (val & val' & Hv & Hv' & E).
  exists (fun n => encode_path (val n)), (fun n => encode_path (val' n)). split; [|split; [|exact E]]; intros n Hi Hin.
  - apply (encode_path_safe (val n)) in Hin; [discriminate|auto].
  - apply (encode_path_safe (val' n)) in Hin; [discriminate|auto].
Qed.

Lemma mock_not_overlapping V W (e : episode V W) (H : happens e) q : first_request (e_trace e) q ->
  url_kept (e_client e) (e_path e) (e_args e) -> proper_texts (e_args e) ->
  forall U types m o ps, httpmock_method U types m = Ok o ->
  strict ps -> parse (show ps) = Ok (m_path m) -> NoDup (vars ps) -> plain_template ps ->
  m_method m <> m_method (e_method e) \/ ~ Forall2 overlap (segments ps) (segments (e_path e)) ->
  forall calls es json_is r, when_calls o calls = Some es -> seen (c_base_url (e_client e)) q r -> matched json_is es r = false.
Proof.
  intros Hq Hk Hpt U types m o ps Ho Hs Hp Hnd Hpl Hd calls es json_is r Hes Hseen.
  destruct (when_calls_new o calls es Hes) as (es0 & E0 & Hincl). apply (mock_new U types m o ps es0 Ho Hs Hp Hpl) in E0. subst es0.
  destruct (matched json_is es r) eqn:Em; auto. exfalso. unfold matched in Em. rewrite forallb_forall in Em.
  pose proof (Em _ (Hincl _ (or_introl eq_refl))) as M1. pose proof (Em _ (Hincl _ (or_intror (or_introl eq_refl)))) as M2. cbn [meets] in M1, M2.
  destruct (request_seen e H q Hq Hk Hpt) as (val & r0 & Hval & Hdel & Hseen0 & Hpath & _).
  destruct Hseen as (S1 & S2 & _), Hseen0 as (S1' & S2' & _).
  assert (Epath : mr_path r = expand val (squeeze_pieces false (e_path e))).
  { rewrite S2 in S2'. apply app_inv_head in S2'. congruence. }
  destruct Hd as [Hd|Hd].
  - apply Hd. pose proof (method_and_url_sent _ _ _ _ _ _ _ _ _ _ _ _ _ _ _ _ _ _ _ _ _ (h_generated e H) (h_callable e H) (h_run e H) q val Hq Hval) as (Eq & _).
    rewrite <- Eq, <- S1. clear -M1. destruct (mr_method r), (m_method m); try easy; cbn in M1; discriminate M1.
  - apply (wildcard_match ps Hnd) in M2 as (val2 & Hv2 & E2). apply Hd. rewrite Epath in E2. symmetry in E2. revert E2.
    apply paths_overlap; auto. intros n _ Hin. now apply Hdel in Hin.
Qed.

Lemma mocks_overlap_iff U types m m' o o' ps ps' : httpmock_method U types m = Ok o -> httpmock_method U types m' = Ok o' ->
  strict ps -> parse (show ps) = Ok (m_path m) -> NoDup (vars ps) -> plain_template ps -> plain_literals ps ->
  strict ps' -> parse (show ps') = Ok (m_path m') -> NoDup (vars ps') -> plain_template ps' -> plain_literals ps' ->
  exists es es', when_calls o [] = Some es /\ when_calls o' [] = Some es'
  /\ forall json_is, (exists r, matched json_is es r = true /\ matched json_is es' r = true)
     <-> m_method m = m_method m' /\ Forall2 overlap (segments ps) (segments ps').
Proof.
  intros Ho Ho' Hs Hp Hnd Hpl Hw Hs' Hp' Hnd' Hpl' Hw'.
  destruct (mock_parts U types m o Ho) as (Em & Ep & _). destruct (mock_parts U types m' o' Ho') as (Em' & Ep' & _).
  exists [ExMethod (m_method m); ExPath (wildcard_items ps)], [ExMethod (m_method m'); ExPath (wildcard_items ps')].
  cbn [when_calls]. unfold when_new. rewrite Em, Ep, Em', Ep', (wildcard_regex ps (m_path m) Hs Hp Hpl), (wildcard_regex ps' (m_path m') Hs' Hp' Hpl').
  split; [reflexivity|]. split; [reflexivity|]. intro json_is.
  assert (Heq : forall a b, http_method_eqb a b = true <-> a = b).
  { intros a b. split; [destruct a, b; try easy; intro X; discriminate X|intros ->; now destruct b]. }
  assert (Hm : forall r, (matched json_is [ExMethod (m_method m); ExPath (wildcard_items ps)] r = true /\ matched json_is [ExMethod (m_method m'); ExPath (wildcard_items ps')] r = true)
    <-> (mr_method r = m_method m /\ (exists val, slash_free ps val /\ mr_path r = expand val (squeeze_pieces false ps)))
        /\ (mr_method r = m_method m' /\ (exists val, slash_free ps' val /\ mr_path r = expand val (squeeze_pieces false ps')))).
  { intro r. unfold matched. cbn [forallb meets]. rewrite !andb_true_r, !andb_true_iff, !Heq.
    rewrite (wildcard_match ps Hnd), (wildcard_match ps' Hnd'). reflexivity. }
  split.
  - intros (r & Hr). apply Hm in Hr as ((E1 & val & Hv & E2) & E1' & val' & Hv' & E2'). split; [congruence|].
    apply (paths_overlap val val' ps ps' Hv Hv'). congruence.
  - intros (E & Ha). destruct (overlap_slash_free ps ps' Hnd Hnd' Hw Hw' Ha) as (val & val' & Hv & Hv' & Ev).
    exists (MockRequest (m_method m) (expand val (squeeze_pieces false ps)) [] []). apply Hm. cbn [mr_method mr_path]. split; [|rewrite <- E]; eauto.
Qed.

(** ** Calls *)

Lemma operation_told V W (e e' : episode V W) : happens e -> happens e' -> forall q, first_request (e_trace e) q -> first_request (e_trace e') q ->
  c_base_url (e_client e') = c_base_url (e_client e) ->
  url_kept (e_client e) (e_path e) (e_args e) -> url_kept (e_client e') (e_path e') (e_args e') ->
  proper_texts (e_args e) -> proper_texts (e_args e') ->
  m_method (e_method e) = m_method (e_method e') /\ Forall2 overlap (segments (e_path e)) (segments (e_path e')).
Proof.
  intros H H' q Hq Hq' Eb Hk Hk' Hp Hp'.
  destruct (path_valuation e H Hp) as (val & Hval & Hd). destruct (path_valuation e' H' Hp') as (val' & Hval' & Hd').
  pose proof (method_and_url_sent _ _ _ _ _ _ _ _ _ _ _ _ _ _ _ _ _ _ _ _ _ (h_generated e H) (h_callable e H) (h_run e H) q val Hq Hval)
    as (Em & qu & hs & Eu & _).
  pose proof (method_and_url_sent _ _ _ _ _ _ _ _ _ _ _ _ _ _ _ _ _ _ _ _ _ (h_generated e' H') (h_callable e' H') (h_run e' H') q val' Hq' Hval')
    as (Em' & qu' & hs' & Eu' & _).
  split; [congruence|]. destruct (Hk val Hval) as (h1 & E1). destruct (Hk' val' Hval') as (h2 & E2).
  rewrite E1 in Eu. rewrite E2 in Eu'. injection Eu as Eu _ _. injection Eu' as Eu' _ _. rewrite <- Eu in Eu'. rewrite Eb in Eu'.
  apply app_inv_head in Eu'. symmetry in Eu'. apply (paths_overlap val val'); auto.
  - intros n _ Hin. now apply Hd in Hin.
  - intros n _ Hin. now apply Hd' in Hin.
Qed.

Lemma document_told d V W (e e' : episode V W) a b : NoDup (map fst (oa_paths d)) -> unambiguous d -> call_of d a e -> call_of d b e' ->
  happens e -> happens e' -> forall q, first_request (e_trace e) q -> first_request (e_trace e') q ->
  c_base_url (e_client e') = c_base_url (e_client e) ->
  url_kept (e_client e) (e_path e) (e_args e) -> url_kept (e_client e') (e_path e') (e_args e') ->
  proper_texts (e_args e) -> proper_texts (e_args e') -> a = b.
Proof.
  intros Hn Hu Ha Hb H H' q Hq Hq' Eb Hk Hk' Hp Hp'.
  destruct (operation_told V W e e' H H' q Hq Hq' Eb Hk Hk' Hp Hp') as (Em & Ho).
  assert (Hm : forall (e : episode V W) o, call_of d o e -> happens e -> m_method (e_method e) = do_method o).
  { clear. intros e o Hc H. destruct (process_operation_params _ _ _ _ _ _ _ _ _ (g_process _ _ _ _ _ _ _ _ _ _ _ (h_generated e H)))
      as (? & ? & ? & ? & ? & _ & _ & _ & _ & _ & _ & _ & _ & _ & _ & _ & _ & E & _).
    rewrite (cl_verb _ _ _ Hc), http_method_of_str in E. congruence. }
  rewrite (Hm e a Ha H), (Hm e' b Hb H') in Em.
  apply (place_unique d a b Hn (cl_document _ _ _ Ha) (cl_document _ _ _ Hb)); [|exact Em].
  exact (Hu a b (e_path e) (e_path e') (cl_document _ _ _ Ha) (cl_document _ _ _ Hb) Em
    (g_strict _ _ _ _ _ _ _ _ _ _ _ (h_generated e H)) (g_strict _ _ _ _ _ _ _ _ _ _ _ (h_generated e' H')) (cl_path _ _ _ Ha) (cl_path _ _ _ Hb) Ho).
Qed.

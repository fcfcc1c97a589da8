(** Proofs about percent-encoding of path arguments. *)
From Coq Require Import ZifyBool ZifyN.
From Verif Require Import Base Utf8 Utf8Proofs TemplateSpec EncodeModel EncodeSpec.
Local Open Scope N_scope.

Lemma unhex_hex_byte b : b < 256 ->
  unhex (hex (b / 16)) = Some (b / 16) /\ unhex (hex (b mod 16)) = Some (b mod 16) /\
  16 * (b / 16) + b mod 16 = b.
Proof.
  intro Hb. repeat split.
  - assert (b / 16 < 16) by (apply N.div_lt_upper_bound; lia).
    set (n := b / 16) in *. clearbody n. unfold unhex, hex.
    destruct (N.ltb_spec n 10).
    + replace ((48 <=? 48 + n) && (48 + n <? 58)) with true by lia. f_equal. lia.
    + replace ((48 <=? 55 + n) && (55 + n <? 58)) with false by lia.
      replace ((65 <=? 55 + n) && (55 + n <? 71)) with true by lia. f_equal. lia.
  - assert (b mod 16 < 16) by (apply N.mod_lt; lia).
    set (n := b mod 16) in *. clearbody n. unfold unhex, hex.
    destruct (N.ltb_spec n 10).
    + replace ((48 <=? 48 + n) && (48 + n <? 58)) with true by lia. f_equal. lia.
    + replace ((48 <=? 55 + n) && (55 + n <? 58)) with false by lia.
      replace ((65 <=? 55 + n) && (55 + n <? 71)) with true by lia. f_equal. lia.
  - pose proof (N.div_mod b 16). lia.
Qed.

Lemma percent_decode_byte set b r : b < 256 -> set (ch "%") = true ->
  percent_decode ((if should_percent_encode set b then percent_encode_byte b else [b]) ++ r)
  = option_map (cons b) (percent_decode r).
Proof.
  intros Hb Hset. destruct (should_percent_encode set b) eqn:E.
  - unfold percent_encode_byte. cbn [app percent_decode].
    change (ch "%" =? ch "%") with true. cbn iota.
    destruct (unhex_hex_byte b Hb) as (-> & -> & ->). reflexivity.
  - cbn [app percent_decode]. unfold should_percent_encode in E.
    apply orb_false_iff in E as (E1 & E2). apply negb_false_iff in E1. rewrite E1.
    destruct (N.eqb_spec b (ch "%")); [congruence|reflexivity].
Qed.

Lemma percent_decode_encode set bs : Forall (fun b => b < 256) bs -> set (ch "%") = true ->
  percent_decode (percent_encode set bs) = Some bs.
Proof.
  intros HF Hset. induction HF as [|b bs Hb _ IH]; [reflexivity|].
  cbn [percent_encode flat_map]. rewrite percent_decode_byte by assumption.
  fold (percent_encode set bs). now rewrite IH.
Qed.

Lemma encode_path_decode s : valid_str s -> decode_segment (encode_path s) = Some s.
Proof.
  intro H. unfold decode_segment, encode_path.
  rewrite percent_decode_encode; [|now apply utf8_bytes|reflexivity].
  now apply from_utf8_utf8.
Qed.

Lemma encode_path_inj s t :
  valid_str s -> valid_str t -> encode_path s = encode_path t -> s = t.
Proof.
  intros Hs Ht E. apply encode_path_decode in Hs, Ht. congruence.
Qed.

Definition enc_byte_ok (b : N) : bool :=
  forallb (fun c => negb (delimiter c))
    (if should_percent_encode path_set b then percent_encode_byte b else [b]).

Lemma encode_path_safe s c : valid_str s -> In c (encode_path s) -> delimiter c = false.
Proof.
  intros Hv Hin. unfold encode_path, percent_encode in Hin.
  apply in_flat_map in Hin as (b & Hb & Hc).
  pose proof (utf8_bytes s Hv) as HF. rewrite Forall_forall in HF. apply HF in Hb.
  assert (H : enc_byte_ok b = true).
  { revert b Hb Hc. intros b Hb _. revert b Hb. apply forall_byte. vm_compute. reflexivity. }
  unfold enc_byte_ok in H. rewrite forallb_forall in H. apply H in Hc.
  now apply negb_true_iff in Hc.
Qed.

Lemma encode_path_id s :
  Forall (fun c => delimiter c = false /\ c <> ch "%") s -> encode_path s = s.
Proof.
  intro HF. unfold encode_path. rewrite utf8_ascii.
  - induction HF as [|c s (Hc & Hp) _ IH]; [reflexivity|].
    cbn [percent_encode flat_map]. fold (percent_encode path_set s). rewrite IH.
    replace (should_percent_encode path_set c) with false; [reflexivity|].
    assert (Hlt : c < 256) by (unfold delimiter in Hc; lia).
    assert (H : implb (negb (delimiter c) && negb (c =? ch "%")) (negb (should_percent_encode path_set c)) = true).
    { revert c Hc Hp Hlt. intros c _ _. revert c. apply forall_byte. vm_compute. reflexivity. }
    apply N.eqb_neq in Hp. rewrite Hc, Hp in H. cbn in H.
    destruct (should_percent_encode path_set c); easy.
  - eapply Forall_impl; [|exact HF]. cbn. intros c (Hc & _). unfold delimiter in Hc. lia.
Qed.

Lemma encode_path_no_backslash s : ~ In (ch "\") s -> valid_str s -> ~ In (ch "\") (encode_path s).
Proof.
  intros Hn Hv Hin. unfold encode_path, percent_encode in Hin.
  apply in_flat_map in Hin as (b & Hb & Hc).
  assert (Hlt : b < 256).
  { pose proof (utf8_bytes s Hv) as HF. rewrite Forall_forall in HF. auto. }
  assert (H : implb (existsb (N.eqb (ch "\")) (if should_percent_encode path_set b then percent_encode_byte b else [b])) (b =? ch "\") = true).
  { revert b Hlt Hb Hc. intros b Hb _ _. revert b Hb. apply forall_byte. vm_compute. reflexivity. }
  assert (E : b = ch "\").
  { apply N.eqb_eq.
    assert (Hx : existsb (N.eqb (ch "\")) (if should_percent_encode path_set b then percent_encode_byte b else [b]) = true).
    { apply existsb_exists. exists (ch "\"). split; [assumption|reflexivity]. }
    rewrite Hx in H. exact H. }
  subst b. apply Hn. unfold utf8 in Hb. apply in_flat_map in Hb as (c & Hcs & Hcb).
  destruct (utf8_char_ascii_or_high c) as [(Hc1 & Hc2)|(Hc1 & Hc2)].
  - rewrite Hc2 in Hcb. destruct Hcb as [->|[]]. assumption.
  - rewrite Forall_forall in Hc2. apply Hc2 in Hcb. vm_compute in Hcb. now exfalso.
Qed.

(** ** URL segments *)

Fixpoint join_slash (segs : list str) : str :=
  match segs with
  | [] => []
  | [s] => s
  | s :: r => s ++ ch "/" :: join_slash r
  end.

Lemma split_slash_nonempty ps : split_slash ps <> [].
Proof.
  induction ps as [|[c|n] ps IH]; cbn; try easy.
  - destruct (c =? ch "/"); [easy|]. destruct (split_slash ps); easy.
  - destruct (split_slash ps); easy.
Qed.

Lemma expand_split val ps :
  expand val ps = join_slash (map (expand val) (split_slash ps)).
Proof.
  induction ps as [|[c|n] ps IH]; auto.
  - cbn [expand flat_map split_slash]. fold (expand val ps). rewrite IH.
    pose proof (split_slash_nonempty ps) as Hne.
    destruct (N.eqb_spec c (ch "/")) as [->|Hc].
    + cbn [map expand flat_map]. destruct (map (expand val) (split_slash ps)) eqn:E.
      * apply map_eq_nil in E. easy.
      * reflexivity.
    + destruct (split_slash ps) as [|s ss]; [easy|]. cbn. now destruct ss.
  - cbn [expand flat_map split_slash]. fold (expand val ps). rewrite IH.
    pose proof (split_slash_nonempty ps) as Hne.
    destruct (split_slash ps) as [|s ss]; [easy|]. cbn.
    destruct ss; cbn; auto. now rewrite <- app_assoc.
Qed.

Definition clean (s : str) : Prop :=
  Forall (fun c => ends_path c = false /\ separator c = false) s.
Definition not_dots (s : str) : Prop := is_single_dot s = false /\ is_double_dot s = false.

Lemma path_state_seg s r path buf : clean s ->
  path_state (s ++ r) path buf = path_state r path (buf ++ s).
Proof.
  intro H. revert buf. induction H as [|c s (H1 & H2) _ IH]; intros buf; cbn [app path_state].
  - now rewrite app_nil_r.
  - rewrite H1, H2, IH. now rewrite <- app_assoc.
Qed.

Lemma path_state_join segs path :
  segs <> [] -> Forall clean segs -> Forall not_dots segs ->
  path_state (join_slash segs) path [] = path ++ segs.
Proof.
  revert path; induction segs as [|s segs IH]; intros path Hne Hc Hd; [easy|].
  inversion Hc; subst. inversion Hd; subst.
  assert (Hpush : forall b, push_segment path s b = path ++ [s]).
  { intros b. unfold push_segment. destruct H3 as (-> & ->). reflexivity. }
  destruct segs as [|s' segs].
  - cbn [join_slash]. rewrite <- (app_nil_r s), path_state_seg by assumption. cbn.
    rewrite app_nil_r. apply Hpush.
  - change (join_slash (s :: s' :: segs)) with (s ++ ch "/" :: join_slash (s' :: segs)).
    rewrite path_state_seg by assumption. cbn [app path_state].
    change (ends_path (ch "/")) with false. change (separator (ch "/")) with true. cbn iota.
    rewrite Hpush, IH by easy. now rewrite <- app_assoc.
Qed.

Lemma in_split_slash ps seg p : In seg (split_slash ps) -> In p seg ->
  In p ps /\ p <> PLit (ch "/").
Proof.
  revert seg; induction ps as [|q ps IH]; intros seg Hs Hp; cbn in Hs.
  - destruct Hs as [<-|[]]. destruct Hp.
  - assert (Hgen : match split_slash ps with s :: ss => (q :: s) :: ss | [] => [[q]] end = split_slash (q :: ps) -> q <> PLit (ch "/") -> In p (q :: ps) /\ p <> PLit (ch "/")).
    { intros E Hq. cbn [split_slash] in E.
      assert (Hs' : In seg (match split_slash ps with s :: ss => (q :: s) :: ss | [] => [[q]] end)).
      { rewrite E. exact Hs. }
      pose proof (split_slash_nonempty ps). destruct (split_slash ps) as [|s ss] eqn:E2; [easy|].
      destruct Hs' as [<-|Hs'].
      - destruct Hp as [<-|Hp]; [split; auto; now left|].
        destruct (IH s) as (Ha & Hb); auto; [now left|]. split; auto. now right.
      - destruct (IH seg) as (Ha & Hb); auto; [now right|]. split; auto. now right. }
    destruct q as [c|n].
    + destruct (N.eqb_spec c (ch "/")) as [->|Hc].
      * destruct Hs as [<-|Hs]; [destruct Hp|].
        destruct (IH seg Hs Hp) as (Ha & Hb). split; auto. now right.
      * apply Hgen; [|congruence]. cbn. apply N.eqb_neq in Hc. now rewrite Hc.
    + apply Hgen; [reflexivity|congruence].
Qed.

Lemma percent_decode_app a b x y :
  percent_decode a = Some x -> percent_decode b = Some y -> percent_decode (a ++ b) = Some (x ++ y).
Proof.
  intros Ha Hb. revert x Ha.
  assert (Hind : forall n a, (length a <= n)%nat -> forall x, percent_decode a = Some x -> percent_decode (a ++ b) = Some (x ++ y)).
  { clear a. induction n as [|n IH]; intros a Hl x Ha.
    - destruct a; [|cbn in Hl; lia]. cbn in Ha. injection Ha as <-. exact Hb.
    - destruct a as [|c a]; [cbn in Ha; injection Ha as <-; exact Hb|].
      cbn [length] in Hl. cbn [app percent_decode] in Ha |- *.
      destruct (c =? ch "%").
      + destruct a as [|h [|l a]]; try easy. cbn [app].
        destruct (unhex h); [|easy]. destruct (unhex l); [|easy].
        destruct (percent_decode a) as [z|] eqn:E; [|easy]. injection Ha as <-.
        cbn [length] in Hl. rewrite (IH a ltac:(lia) z E). reflexivity.
      + destruct (c <? 128); [|easy].
        destruct (percent_decode a) as [z|] eqn:E; [|easy]. injection Ha as <-.
        rewrite (IH a ltac:(lia) z E). reflexivity. }
  intros x Ha. eapply Hind; eauto.
Qed.

Lemma decode_expand val seg :
  (forall c, In (PLit c) seg -> plain_literal c = true /\ c <> ch "/") ->
  (forall n, In (PVar n) seg -> valid_str (val n)) ->
  percent_decode (expand (fun n => encode_path (val n)) seg) = Some (utf8 (expand val seg)).
Proof.
  induction seg as [|[c|n] seg IH]; intros Hl Hv; auto.
  - cbn [expand flat_map]. fold (expand val seg).
    fold (expand (fun n => encode_path (val n)) seg).
    rewrite utf8_app. apply percent_decode_app.
    + destruct (Hl c) as (Hc & Hc2); [now left|].
      unfold plain_literal in Hc. apply N.eqb_neq in Hc2. rewrite Hc2, andb_true_r in Hc.
      apply andb_true_iff in Hc as (Hc & Hc3). apply andb_true_iff in Hc as (Hc & Hc4).
      apply negb_true_iff in Hc, Hc4. cbn [percent_decode]. rewrite Hc4.
      assert (Hlt : c < 128) by (unfold delimiter in Hc; lia).
      rewrite (proj2 (N.ltb_lt _ _) Hlt).
      rewrite utf8_ascii by (repeat constructor; assumption). reflexivity.
    + apply IH; intros; [apply Hl|apply Hv]; now right.
  - cbn [expand flat_map]. fold (expand val seg).
    fold (expand (fun n => encode_path (val n)) seg).
    rewrite utf8_app. apply percent_decode_app.
    + apply percent_decode_encode; [|reflexivity]. apply utf8_bytes, Hv. now left.
    + apply IH; intros; [apply Hl|apply Hv]; now right.
Qed.

Lemma expand_valid val seg :
  (forall c, In (PLit c) seg -> plain_literal c = true) ->
  (forall n, In (PVar n) seg -> valid_str (val n)) ->
  valid_str (expand val seg).
Proof.
  intros Hl Hv. induction seg as [|[c|n] seg IH]; [constructor| |].
  - constructor.
    + assert (Hc : plain_literal c = true) by (apply Hl; now left).
      unfold plain_literal, delimiter in Hc. unfold scalar.
      assert (c < 128); [|lia].
      destruct (N.ltb_spec c 128); auto. exfalso.
      replace ((c <? 33) || (126 <? c)) with true in Hc by lia. cbn [orb andb] in Hc.
      destruct (N.eqb_spec c (ch "/")); [|easy]. subst. vm_compute in H. easy.
    + apply IH; intros; [apply Hl|apply Hv]; now right.
  - apply Forall_app. split.
    + apply Hv. now left.
    + apply IH; intros; [apply Hl|apply Hv]; now right.
Qed.

Lemma decode_segment_expand val seg :
  (forall c, In (PLit c) seg -> plain_literal c = true /\ c <> ch "/") ->
  (forall n, In (PVar n) seg -> valid_str (val n)) ->
  decode_segment (expand (fun n => encode_path (val n)) seg) = Some (expand val seg).
Proof.
  intros Hl Hv. unfold decode_segment. rewrite decode_expand by assumption.
  apply from_utf8_utf8, expand_valid; auto. intros c Hc. now apply Hl.
Qed.

Lemma not_dots_decode s t :
  decode_segment s = Some t -> t <> lit "." -> t <> lit ".." -> not_dots s.
Proof.
  intros Hd H1 H2. unfold not_dots, is_single_dot, is_double_dot. split.
  - destruct (existsb _ _) eqn:E; auto. apply existsb_exists in E as (x & Hx & E).
    apply str_eqb_spec in E. subst x. cbn [In] in Hx.
    repeat destruct Hx as [<-|Hx]; try easy; vm_compute in Hd; injection Hd as <-; now exfalso.
  - destruct (existsb _ _) eqn:E; auto. apply existsb_exists in E as (x & Hx & E).
    apply str_eqb_spec in E. subst x. cbn [In] in Hx.
    repeat destruct Hx as [<-|Hx]; try easy; vm_compute in Hd; injection Hd as <-; now exfalso.
Qed.

Lemma clean_char c : delimiter c = false -> c <> ch "\" -> ends_path c = false /\ separator c = false.
Proof.
  intros Hd Hb. unfold ends_path, separator. apply N.eqb_neq in Hb. rewrite Hb.
  unfold delimiter in Hd. cbn [existsb] in Hd.
  repeat (apply orb_false_iff in Hd as (? & Hd)).
  repeat match goal with H : _ || _ = false |- _ => apply orb_false_iff in H as (? & ?) end.
  split; apply orb_false_iff; split; auto.
Qed.

Lemma expand_clean val seg :
  (forall c, In (PLit c) seg -> plain_literal c = true /\ c <> ch "/") ->
  (forall n, In (PVar n) seg -> valid_str (val n) /\ ~ In (ch "\") (val n)) ->
  clean (expand (fun n => encode_path (val n)) seg).
Proof.
  intros Hl Hv. induction seg as [|[c|n] seg IH]; [constructor| |].
  - constructor.
    + destruct (Hl c) as (Hc & Hc2); [now left|].
      unfold plain_literal in Hc. apply N.eqb_neq in Hc2. rewrite Hc2, andb_true_r in Hc.
      apply andb_true_iff in Hc as (Hc & Hc3). apply andb_true_iff in Hc as (Hc & Hc4).
      apply negb_true_iff in Hc, Hc3. apply N.eqb_neq in Hc3. now apply clean_char.
    + apply IH; intros; [apply Hl|apply Hv]; now right.
  - apply Forall_app. split.
    + apply Forall_forall. intros c Hc. destruct (Hv n) as (Hv1 & Hv2); [now left|].
      apply clean_char; [eapply encode_path_safe; eauto|].
      intros ->. revert Hc. now apply encode_path_no_backslash.
    + apply IH; intros; [apply Hl|apply Hv]; now right.
Qed.

Definition base_path (bsegs : list str) : str := flat_map (fun s => ch "/" :: s) bsegs.

Lemma base_path_join bsegs segs : segs <> [] ->
  base_path bsegs ++ ch "/" :: join_slash segs = ch "/" :: join_slash (bsegs ++ segs).
Proof.
  intro Hne. induction bsegs as [|b bsegs IH]; [reflexivity|].
  cbn [base_path flat_map app]. fold (base_path bsegs). cbn [app]. rewrite <- app_assoc, IH.
  destruct (bsegs ++ segs) eqn:E; [|reflexivity].
  apply app_eq_nil in E as (_ & E). easy.
Qed.

Lemma url_structure bsegs ps val :
  Forall clean bsegs -> Forall not_dots bsegs ->
  plain_literals ps ->
  (forall n, In n (vars ps) -> valid_str (val n) /\ ~ In (ch "\") (val n)) ->
  (forall seg, In seg (split_slash ps) -> expand val seg <> lit "." /\ expand val seg <> lit "..") ->
  let enc := fun n => encode_path (val n) in
  url_segments (base_path bsegs ++ expand enc (PLit (ch "/") :: ps))
    = bsegs ++ map (expand enc) (split_slash ps) /\
  map decode_segment (map (expand enc) (split_slash ps)) = map Some (map (expand val) (split_slash ps)).
Proof.
  intros Hb1 Hb2 Hl Hv Hd enc.
  assert (HL : forall seg c, In seg (split_slash ps) -> In (PLit c) seg -> plain_literal c = true /\ c <> ch "/").
  { intros seg c Hs Hc. destruct (in_split_slash _ _ _ Hs Hc) as (Ha & Hb). split; [now apply Hl|congruence]. }
  assert (HV : forall seg n, In seg (split_slash ps) -> In (PVar n) seg -> valid_str (val n) /\ ~ In (ch "\") (val n)).
  { intros seg n Hs Hn. destruct (in_split_slash _ _ _ Hs Hn) as (Ha & _). apply Hv.
    unfold vars. apply in_flat_map. exists (PVar n). split; auto. now left. }
  assert (HD : forall seg, In seg (split_slash ps) -> decode_segment (expand enc seg) = Some (expand val seg)).
  { intros seg Hs. apply decode_segment_expand; intros; [eapply HL|eapply HV]; eauto. }
  split.
  - cbn [expand flat_map app]. fold (expand enc ps). rewrite expand_split, base_path_join.
    2:{ intro E. apply map_eq_nil in E. now apply split_slash_nonempty in E. }
    unfold url_segments. change (separator (ch "/")) with true. cbn iota.
    rewrite path_state_join; [reflexivity| | |].
    + intro E. apply app_eq_nil in E as (_ & E). apply map_eq_nil in E.
      now apply split_slash_nonempty in E.
    + apply Forall_app. split; auto. apply Forall_map, Forall_forall. intros seg Hs.
      apply expand_clean; intros; [eapply HL|eapply HV]; eauto.
    + apply Forall_app. split; auto. apply Forall_map, Forall_forall. intros seg Hs.
      eapply not_dots_decode; [now apply HD|apply Hd|apply Hd]; auto.
  - rewrite !map_map. apply map_ext_in. exact HD.
Qed.

Lemma url_structure_refuted_dots :
  exists ps val, plain_literals ps /\
    (forall n, In n (vars ps) -> valid_str (val n)) /\
    url_segments (expand (fun n => encode_path (val n)) (PLit (ch "/") :: ps)) = [lit "admin"] /\
    length (split_slash ps) = 3%nat.
Proof.
  exists [PLit (ch "a"); PLit (ch "/"); PVar (lit "x"); PLit (ch "/");
          PLit (ch "a"); PLit (ch "d"); PLit (ch "m"); PLit (ch "i"); PLit (ch "n")], (fun _ => lit "..").
  repeat split.
  - intros c Hc. cbn in Hc. repeat destruct Hc as [[= <-]|Hc]; try easy.
  - intros n _. repeat constructor.
Qed.

Lemma url_structure_refuted_backslash :
  exists ps val, plain_literals ps /\
    (forall n, In n (vars ps) -> valid_str (val n)) /\
    url_segments (expand (fun n => encode_path (val n)) (PLit (ch "/") :: ps)) = [lit "u"; lit "a"; lit "b"] /\
    length (split_slash ps) = 2%nat.
Proof.
  exists [PLit (ch "u"); PLit (ch "/"); PVar (lit "x")], (fun _ => lit "a\b").
  repeat split.
  - intros c Hc. cbn in Hc. repeat destruct Hc as [[= <-]|Hc]; try easy.
  - intros n _. repeat constructor.
Qed.

Lemma encode_path_escapes s : valid_str s -> percent_decode (encode_path s) = Some (utf8 s).
Proof.
  intro H. unfold encode_path. apply percent_decode_encode; [now apply utf8_bytes|reflexivity].
Qed.

(** The condition of [url_structure] is exact. *)

Definition no_dot (s : str) : Prop := ~ In (ch "\") s /\ s <> lit "." /\ s <> lit "..".

Lemma push_no_dot path buf b : Forall no_dot path -> ~ In (ch "\") buf -> Forall no_dot (push_segment path buf b).
Proof.
  intros Hp Hb. assert (He : no_dot []) by (repeat split; easy || discriminate).
  assert (Hr : Forall no_dot (removelast path)).
  { clear -Hp. induction Hp as [|x l Hx _ IH]; [constructor|]. cbn. destruct l; constructor; auto. }
  unfold push_segment. destruct (is_double_dot buf) eqn:E2; [destruct b; [|apply Forall_app]; auto|].
  destruct (is_single_dot buf) eqn:E1; [destruct b; [|apply Forall_app]; auto|].
  apply Forall_app. split; [exact Hp|]. constructor; [|constructor]. split; [exact Hb|]. split; intros ->; discriminate.
Qed.

Lemma path_state_no_dot s : forall path buf, Forall no_dot path -> ~ In (ch "\") buf -> Forall no_dot (path_state s path buf).
Proof.
  induction s as [|c s IH]; intros path buf Hp Hb; cbn [path_state]; [now apply push_no_dot|].
  destruct (ends_path c); [now apply push_no_dot|]. destruct (separator c) eqn:E; apply IH; auto.
  - now apply push_no_dot.
  - rewrite in_app_iff. intros [H|[->|[]]]; [easy|discriminate].
Qed.

Lemma url_segments_no_dot s : Forall no_dot (url_segments s).
Proof.
  unfold url_segments. destruct s as [|c s]; [|destruct (separator c)]; apply path_state_no_dot; constructor || easy.
Qed.

Lemma in_some_segment ps n : In n (vars ps) -> exists seg, In seg (split_slash ps) /\ In (PVar n) seg.
Proof.
  induction ps as [|p ps IH]; [easy|]. cbn [vars flat_map split_slash]. intro H. apply in_app_iff in H.
  pose proof (split_slash_nonempty ps) as Hne.
  destruct p as [c|x].
  - destruct H as [[]|H]. destruct (IH H) as (seg & Hs & Hn). destruct (c =? ch "/"); [exists seg; split; [now right|exact Hn]|].
    destruct (split_slash ps) as [|s ss]; [easy|]. destruct Hs as [->|Hs]; [exists (PLit c :: seg)|exists seg]; split; auto; [now left|now right|now right].
  - destruct (split_slash ps) as [|s ss]; [easy|]. destruct H as [[->|[]]|H]; [exists (PVar n :: s); split; now left|].
    destruct (IH H) as (seg & [->|Hs] & Hn); [exists (PVar x :: seg)|exists seg]; split; auto; [now left|now right|now right].
Qed.

Lemma encode_path_backslash s : In (ch "\") s -> In (ch "\") (encode_path s).
Proof.
  intro H. unfold encode_path, percent_encode, utf8. apply in_flat_map. exists (ch "\"). split; [|now left].
  apply in_flat_map. exists (ch "\"). split; [exact H|now left].
Qed.

Lemma encode_path_dots s : Forall (fun c => c = ch ".") s -> encode_path s = s.
Proof.
  induction 1 as [|c s -> _ IH]; [reflexivity|]. unfold encode_path, percent_encode, utf8 in *. cbn [flat_map]. rewrite flat_map_app, IH. reflexivity.
Qed.

Lemma expand_dots val seg : Forall (fun c => c = ch ".") (expand val seg) -> expand (fun n => encode_path (val n)) seg = expand val seg.
Proof.
  induction seg as [|p seg IH]; [reflexivity|]. cbn [expand flat_map]. fold (expand val seg) (expand (fun n => encode_path (val n)) seg).
  intro H. apply Forall_app in H as (H1 & H2). rewrite IH by exact H2. destruct p as [c|n]; [reflexivity|]. now rewrite encode_path_dots.
Qed.

Lemma url_structure_iff bsegs ps val :
  Forall clean bsegs -> Forall not_dots bsegs -> plain_literals ps ->
  (forall n, In n (vars ps) -> valid_str (val n)) ->
  let enc := fun n => encode_path (val n) in
  (url_segments (base_path bsegs ++ expand enc (PLit (ch "/") :: ps)) = bsegs ++ map (expand enc) (split_slash ps) <->
   (forall n, In n (vars ps) -> ~ In (ch "\") (val n)) /\
   (forall seg, In seg (split_slash ps) -> expand val seg <> lit "." /\ expand val seg <> lit "..")).
Proof.
  intros Hb1 Hb2 Hl Hv enc. split.
  - intro E. pose proof (url_segments_no_dot (base_path bsegs ++ expand enc (PLit (ch "/") :: ps))) as H.
    rewrite E in H. apply Forall_app in H as (_ & H). rewrite Forall_map, Forall_forall in H. split.
    + intros n Hn Hi. destruct (in_some_segment ps n Hn) as (seg & Hs & Hp). destruct (H seg Hs) as (Hx & _). apply Hx.
      unfold expand. apply in_flat_map. exists (PVar n). split; [exact Hp|]. now apply encode_path_backslash.
    + intros seg Hs. destruct (H seg Hs) as (_ & H1 & H2). split; intro Ex;
        [apply H1|apply H2]; unfold enc; rewrite expand_dots; auto; rewrite Ex; repeat constructor.
  - intros (H1 & H2). apply (url_structure bsegs ps val Hb1 Hb2 Hl); auto.
Qed.

(** Every segment decodes to its expansion, whatever the arguments. *)
Lemma segments_decode ps val : plain_literals ps -> (forall n, In n (vars ps) -> valid_str (val n)) ->
  map decode_segment (map (expand (fun n => encode_path (val n))) (split_slash ps)) = map Some (map (expand val) (split_slash ps)).
Proof.
  intros Hl Hv. rewrite !map_map. apply map_ext_in. intros seg Hs. apply decode_segment_expand.
  - intros c Hc. destruct (in_split_slash _ _ _ Hs Hc) as (Ha & Hb). split; [now apply Hl|congruence].
  - intros n Hn. destruct (in_split_slash _ _ _ Hs Hn) as (Ha & _). apply Hv. unfold vars. apply in_flat_map. exists (PVar n). split; auto. now left.
Qed.

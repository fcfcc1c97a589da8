From Verif Require Import Base Dec HeaderModel ClientModel ClientSpec.
From Coq Require Import ZifyBool ZifyNat ZifyN.
Local Open Scope N_scope.

Lemma body_bytes_ok cs : body_bytes (map ROk cs) = ROk (concat cs).
Proof. induction cs as [|c cs IH]; cbn; auto. now rewrite IH. Qed.

Lemma body_bytes_err cs e rest : body_bytes (map ROk cs ++ RErr e :: rest) = RErr e.
Proof. induction cs as [|c cs IH]; cbn; auto. now rewrite IH. Qed.

Lemma delivers_or_breaks r : (exists b, delivers r b) \/ (exists e, breaks r e).
Proof.
  unfold delivers, breaks. induction (r_body r) as [|[c|e] l IH].
  - left. exists []. now exists [].
  - destruct IH as [(b & cs & -> & ->) | (e & cs & rest & ->)].
    + left. exists (c ++ concat cs). now exists (c :: cs).
    + right. exists e. now exists (c :: cs), rest.
  - right. exists e. now exists [], l.
Qed.

Lemma from_response_delivers {T E} fs r b (v : T) :
  delivers r b -> fs b = ROk v ->
  from_response (E:=E) fs r = ROk (RValue v (r_status r) (r_headers r)).
Proof. intros (cs & Hb & ->) Hf. unfold from_response. now rewrite Hb, body_bytes_ok, Hf. Qed.

Lemma from_response_payload {T E} (fs : list N -> result T jerr) r b e :
  delivers r b -> fs b = RErr e ->
  from_response (E:=E) fs r = RErr (InvalidResponsePayload b e).
Proof. intros (cs & Hb & ->) Hf. unfold from_response. now rewrite Hb, body_bytes_ok, Hf. Qed.

Lemma from_response_breaks {T E} (fs : list N -> result T jerr) r e :
  breaks r e -> from_response (E:=E) fs r = RErr (ResponseBodyError e).
Proof. intros (cs & rest & Hb). unfold from_response. now rewrite Hb, body_bytes_err. Qed.

Lemma from_response_ok_inv {T E} fs r (v : rvalue T) :
  from_response (E:=E) fs r = ROk v ->
  reports r v /\ exists b, delivers r b /\ fs b = ROk (rv_inner v).
Proof.
  destruct (delivers_or_breaks r) as [(b & Hb)|(e & He)].
  - destruct (fs b) as [x|x] eqn:Hf.
    + rewrite (from_response_delivers fs r b x Hb Hf). intros [= <-].
      split; [split; reflexivity|]. exists b. auto.
    + now rewrite (from_response_payload fs r b x Hb Hf).
  - now rewrite (from_response_breaks fs r e He).
Qed.

Lemma from_response_err_inv {T E} (fs : list N -> result T jerr) r (x : cerror E) :
  from_response fs r = RErr x ->
  (exists b e, delivers r b /\ fs b = RErr e /\ x = InvalidResponsePayload b e) \/
  (exists e, breaks r e /\ x = ResponseBodyError e).
Proof.
  destruct (delivers_or_breaks r) as [(b & Hb)|(e & He)].
  - destruct (fs b) as [y|y] eqn:Hf.
    + now rewrite (from_response_delivers fs r b y Hb Hf).
    + rewrite (from_response_payload fs r b y Hb Hf). intros [= <-]. left. eauto.
  - rewrite (from_response_breaks fs r e He). intros [= <-]. right. eauto.
Qed.

Lemma upgrade_ok_inv {E} r (v : rvalue N) :
  upgrade (E:=E) r = ROk v -> reports r v /\ r_status r = 101 /\ r_upgrade r = ROk (rv_inner v).
Proof.
  unfold upgrade. destruct (N.eqb_spec (r_status r) 101); [|easy].
  destruct (r_upgrade r) eqn:Eu; [|easy]. intros [= <-]. cbn. repeat split; auto.
Qed.

Lemma upgrade_not_101 {E} r : r_status r <> 101 -> upgrade (E:=E) r = RErr (UnexpectedResponse r).
Proof. intro H. unfold upgrade. now rewrite (proj2 (N.eqb_neq _ _) H). Qed.

Lemma values_report r :
  reports r (stream r) /\ rv_inner (stream r) = r_body r /\ reports r (empty r).
Proof. repeat split. Qed.

Lemma map_reports {T U E} (f : T -> U) v w :
  rv_map (E:=E) f v = ROk w ->
  rv_inner w = f (rv_inner v) /\ rv_status w = rv_status v /\ rv_headers w = rv_headers v.
Proof. destruct v. cbn. intros [= <-]. auto. Qed.

Lemma map_total {T U E} (f : T -> U) v : exists w, rv_map (E:=E) f v = ROk w.
Proof. destruct v. cbn. eauto. Qed.

Lemma into_untyped_same {E} (e : cerror E) : same_but_body e (into_untyped e).
Proof. destruct e; cbn; try constructor. destruct v. now constructor. Qed.

Lemma into_untyped_status {E} (e : cerror E) : err_status (into_untyped e) = err_status e.
Proof. destruct e; cbn; auto. now destruct v. Qed.

Lemma err_status_iff {E} (e : cerror E) s :
  err_status e = Some s <->
  (exists h, holds_response e s h) \/ (exists t, holds_transport e t /\ re_status t = Some s).
Proof.
  split.
  - destruct e; cbn; try easy; intro H;
      try (right; eexists; split; [constructor|exact H]);
      injection H as <-; left; eexists; constructor.
  - intros [(h & H)|(t & H & Ht)]; destruct H; cbn; auto.
Qed.

Lemma payload_status_lost :
  exists (r : response) (fs : list N -> result N jerr) (e : cerror N),
    from_response fs r = RErr e /\ r_status r = 200 /\ err_status e = None.
Proof.
  exists (Response 200 [] [] (RErr (RErr' [] None []))).
  exists (fun _ => RErr (JErr [] [])). eexists. split; [reflexivity|]. auto.
Qed.

(** ** content_length *)

Lemma to_digit_some c d : to_digit c = Some d <-> digit c = true /\ d = c - 48.
Proof.
  unfold to_digit, digit. destruct ((48 <=? c) && (c <=? 57)) eqn:E; split; try easy.
  - intros [= <-]. split; auto. lia.
  - intros (_ & ->). reflexivity.
  - intros (H & _). lia.
Qed.

Lemma digits_fold_mono s : forall a, a <= fold_left (fun acc c => 10 * acc + (c - 48)) s a.
Proof.
  induction s as [|c s IH]; intros a; cbn [fold_left]; [lia|].
  specialize (IH (10 * a + (c - 48))). lia.
Qed.

Lemma checked_spec s : forall a n, a < two64 ->
  (from_digits_checked a s = Some n <->
   Forall (fun c => digit c = true) s /\
   fold_left (fun acc c => 10 * acc + (c - 48)) s a = n /\ n < two64).
Proof.
  induction s as [|c s IH]; intros a n Ha; cbn [from_digits_checked fold_left].
  - split; [intros [= <-]; auto | intros (_ & -> & _); auto].
  - destruct (to_digit c) as [d|] eqn:Ed.
    + apply to_digit_some in Ed as (Hc & ->).
      pose proof (digits_fold_mono s (10 * a + (c - 48))) as Hm.
      destruct (N.leb_spec two64 (a * 10)) as [H1|H1].
      { split; [easy|]. intros (_ & Hn & Hlt). lia. }
      destruct (N.leb_spec two64 (a * 10 + (c - 48))) as [H2|H2].
      { split; [easy|]. intros (_ & Hn & Hlt). lia. }
      replace (a * 10 + (c - 48)) with (10 * a + (c - 48)) in * by lia.
      rewrite IH by lia. split.
      * intros (HF & Hn & Hlt). auto.
      * intros (HF & Hn & Hlt). inversion HF; subst. auto.
    + split; [easy|]. intros (HF & _). inversion HF as [|? ? Hc]; subst.
      assert (to_digit c = Some (c - 48)) by (apply to_digit_some; auto). congruence.
Qed.

Lemma unchecked_spec s : forall a k n,
  a < 10 ^ k -> k + N.of_nat (length s) <= 16 ->
  (from_digits_unchecked a s = Some n <->
   Forall (fun c => digit c = true) s /\
   fold_left (fun acc c => 10 * acc + (c - 48)) s a = n /\ n < two64).
Proof.
  assert (H16 : forall k, k <= 16 -> 10 ^ k <= 10000000000000000).
  { intros k Hk. change 10000000000000000 with (10 ^ 16). apply N.pow_le_mono_r; lia. }
  induction s as [|c s IH]; intros a k n Ha Hk; cbn [from_digits_unchecked fold_left length] in *.
  - specialize (H16 k ltac:(lia)). unfold two64.
    split; [intros [= <-]; split; [constructor|split; lia] | intros (_ & -> & _); auto].
  - destruct (to_digit c) as [d|] eqn:Ed.
    + apply to_digit_some in Ed as (Hc & ->).
      assert (Hlt : 10 * a + (c - 48) < 10 ^ (k + 1)).
      { rewrite N.pow_add_r. change (10 ^ 1) with 10. unfold digit in Hc. lia. }
      pose proof (H16 (k + 1) ltac:(lia)).
      rewrite (N.mod_small (a * 10)) by (unfold two64; lia).
      rewrite N.mod_small by (unfold two64; lia).
      replace (a * 10 + (c - 48)) with (10 * a + (c - 48)) by lia.
      rewrite (IH _ (k + 1)) by lia. split.
      * intros (HF & Hn & Hb). auto.
      * intros (HF & Hn & Hb). inversion HF; subst. auto.
    + split; [easy|]. intros (HF & _). inversion HF as [|? ? Hc]; subst.
      assert (to_digit c = Some (c - 48)) by (apply to_digit_some; auto). congruence.
Qed.

Lemma digits_spec ds n :
  (if N.of_nat (length ds) <=? 16 then from_digits_unchecked 0 ds else from_digits_checked 0 ds)
    = Some n <->
  Forall (fun c => digit c = true) ds /\ digits_val ds = n /\ n < two64.
Proof.
  unfold digits_val. destruct (N.leb_spec (N.of_nat (length ds)) 16).
  - apply (unchecked_spec ds 0 0); cbn; lia.
  - apply checked_spec. reflexivity.
Qed.

Lemma u64_from_str_spec s n : u64_from_str s = Some n <-> length_text s n.
Proof.
  unfold length_text. change (2 ^ 64) with two64.
  assert (Hplus : digit (ch "+") = false) by reflexivity.
  assert (Hminus : digit (ch "-") = false) by reflexivity.
  destruct s as [|c r].
  { cbn. split; [easy|]. intros (ds & [<-|H] & Hne & _); easy. }
  assert (Hgen : forall ds, (Forall (fun c => digit c = true) ds /\ digits_val ds = n /\ n < two64) ->
                 ds <> [] -> ds = c :: r ->
                 exists ds0, (c :: r = ds0 \/ c :: r = ch "+" :: ds0) /\ ds0 <> [] /\
                  Forall (fun c => digit c = true) ds0 /\ digits_val ds0 = n /\ n < two64).
  { intros ds (H1 & H2 & H3) Hne Heq. exists ds. auto. }
  assert (Hbare : c <> ch "+" ->
    (exists ds0, (c :: r = ds0 \/ c :: r = ch "+" :: ds0) /\ ds0 <> [] /\
                  Forall (fun c => digit c = true) ds0 /\ digits_val ds0 = n /\ n < two64) ->
    Forall (fun c => digit c = true) (c :: r) /\ digits_val (c :: r) = n /\ n < two64).
  { intros Hc (ds & [<-|Heq] & Hne & H); auto. congruence. }
  assert (Hpl : c = ch "+" ->
    (exists ds0, (c :: r = ds0 \/ c :: r = ch "+" :: ds0) /\ ds0 <> [] /\
                  Forall (fun c => digit c = true) ds0 /\ digits_val ds0 = n /\ n < two64) ->
    r <> [] /\ Forall (fun c => digit c = true) r /\ digits_val r = n /\ n < two64).
  { intros Hc (ds & [<-|Heq] & Hne & HF & H).
    - inversion HF as [|? ? Hd]; subst. congruence.
    - injection Heq as _ <-. auto. }
  destruct r as [|c2 r].
  - cbn [u64_from_str].
    destruct (N.eqb_spec c (ch "+")) as [->|Hc].
    { cbn [orb]. split; [easy|]. intro H. destruct (Hpl eq_refl H) as [Hne _]. easy. }
    destruct (N.eqb_spec c (ch "-")) as [->|Hc2].
    { cbn [orb]. split; [easy|]. intro H. destruct (Hbare Hc H) as [HF _]. inversion HF; subst. congruence. }
    cbn [orb]. rewrite digits_spec. split.
    + intro H. eapply Hgen; eauto; easy.
    + now apply Hbare.
  - cbn [u64_from_str]. destruct (N.eqb_spec c (ch "+")) as [->|Hc].
    + rewrite digits_spec. split.
      * intros (H1 & H2 & H3). exists (c2 :: r). repeat split; auto; easy.
      * intro H. now apply Hpl in H as (_ & H).
    + rewrite digits_spec. split.
      * intro H. eapply Hgen; eauto; easy.
      * now apply Hbare.
Qed.

Lemma length_text_visible t n : length_text t n -> forallb is_visible_ascii t = true.
Proof.
  intros (ds & Ht & _ & HF & _).
  assert (Hd : forallb is_visible_ascii ds = true).
  { apply forallb_forall. intros c Hc. rewrite Forall_forall in HF. specialize (HF c Hc).
    unfold digit, is_visible_ascii in *. lia. }
  destruct Ht as [->| ->]; auto.
Qed.

Lemma content_length_iff {T} (v : rvalue T) n :
  content_length v = Some n <->
  exists t rest, h_values (lit "content-length") (rv_headers v) = t :: rest /\ length_text t n.
Proof.
  unfold content_length, h_get.
  destruct (h_values (lit "content-length") (rv_headers v)) as [|t rest].
  { split; [easy|]. intros (? & ? & ? & _); easy. }
  unfold header_to_str. destruct (forallb is_visible_ascii t) eqn:Hv.
  - rewrite u64_from_str_spec. split; [eauto|]. intros (? & ? & [= <- <-] & H). auto.
  - split; [easy|]. intros (? & ? & [= <- <-] & H). apply length_text_visible in H. congruence.
Qed.

Lemma length_text_unique t n m : length_text t n -> length_text t m -> n = m.
Proof. intros H1%u64_from_str_spec H2%u64_from_str_spec. congruence. Qed.

(** ** Display *)

Lemma display_alternate {E} db dr (fi : rvalue E -> str) e chain :
  (exists t, holds_transport e t /\ chain = re_sources t) \/
  (exists j, holds_decode e j /\ chain = je_sources j) ->
  err_display db dr fi true e = err_display db dr fi false e ++ flat_map (fun s => lit ": " ++ s) chain.
Proof.
  intros [(t & H & ->)|(j & H & ->)]; destruct H; reflexivity.
Qed.

Lemma display_ends_with_text {E} db dr (fi : rvalue E -> str) e text :
  (exists t, holds_transport e t /\ text = re_text t) \/
  (exists j, holds_decode e j /\ text = je_text j) ->
  exists prefix, err_display db dr fi false e = prefix ++ lit ": " ++ text.
Proof.
  intros [(t & H & ->)|(j & H & ->)]; destruct H; unfold err_display.
  - now exists (lit "Communication Error").
  - now exists (lit "Invalid Response Upgrade").
  - now exists (lit "Invalid Response Body Bytes").
  - exists (lit "Invalid Response Payload (" ++ db b ++ lit ")").
    rewrite <- !app_assoc. reflexivity.
Qed.

Lemma display_no_source {E} db dr (fi : rvalue E -> str) e :
  (forall t, ~ holds_transport e t) -> (forall j, ~ holds_decode e j) ->
  err_display db dr fi true e = err_display db dr fi false e.
Proof.
  intros Ht Hd. destruct e; cbn; try (now rewrite app_nil_r).
  - destruct (Ht e). constructor.
  - destruct (Ht e). constructor.
  - destruct (Ht e). constructor.
  - destruct (Hd e). constructor.
Qed.

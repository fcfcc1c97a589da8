(** Generated streams behave as [StreamSpec.streams] prescribes. *)
From Verif Require Import Base ClientModel MethodModel RunModel FutureModel StreamModel StreamSpec.

Section Pages.
Context {V W E T : Type} (page_items : V -> list V) (page_next : V -> option value).
Variable request : option value -> W -> awaited V E W.
Variable step : T -> W -> awaited (option (list V * T)) E W.
Variable first : W -> awaited (option (list V) * (option T * option (list V))) E W.
Variable token : T -> option value.
Variable inv : T -> Prop.
Variable after : T -> V -> T.
Variable start : V -> T.
Hypothesis step_spec : forall x w, inv x ->
  step x w = match token x with
             | None => ADone (ROk None) w
             | Some v => map_ok (fun p => Some (page_items p, after x p)) (request (Some v) w)
             end.
Hypothesis after_inv : forall x p, inv x -> inv (after x p) /\ token (after x p) = page_next p.
Hypothesis first_spec : forall w,
  first w = map_ok (fun p => (Some (page_items p), (Some (start p), None))) (request None w).
Hypothesis start_inv : forall p, inv (start p) /\ token (start p) = page_next p.

Notation fetched := (fetched page_next request).
Notation items_of := (items_of page_items).
Notation yields := (@yields V E).
Notation state := (flat (option (list V) * (option T * option (list V)))).
Definition poll : poller state (result V E) W :=
  try_flatten_stream first (chain iter_ok (try_flatten (try_unfold step) iter_ok)).

(** The rest [l] of the current page, and the seed [x] of the next ones. *)
Inductive at_page (l : list V) (x : T) : state -> Prop :=
| at_first : at_page l x (FlatSecond (Some l, (Some x, None)))
| at_rest : at_page l x (FlatSecond (None, (Some x, Some l))).

Definition polls (s : state) (w : W) (o : option (result V E)) (s' : state) (w' : W) : Prop :=
  exists n, forall fuel, (n <= fuel)%nat -> poll fuel s w = PReady o s' w'.
Definition takes_to (s : state) (w : W) (k : nat) (os : list (option (result V E))) (s' : state) (w' : W) : Prop :=
  exists n, forall fuel, (n <= fuel)%nat -> take poll fuel k s w = Some (os, s', w').

Lemma takes_S s w k o os s1 w1 s' w' : polls s w o s1 w1 -> takes_to s1 w1 k os s' w' ->
  takes_to s w (S k) (o :: os) s' w'.
Proof.
  intros (n1 & H1) (n2 & H2). exists (n1 + n2)%nat. intros fuel Hf. cbn [take].
  rewrite H1 by lia. now rewrite H2 by lia.
Qed.

Lemma takes_0 s w : takes_to s w 0 [] s w.
Proof. exists O. reflexivity. Qed.

Lemma takes_app s w k1 os1 s1 w1 : takes_to s w k1 os1 s1 w1 -> forall k2 os2 s2 w2, takes_to s1 w1 k2 os2 s2 w2 ->
  takes_to s w (k1 + k2) (os1 ++ os2) s2 w2.
Proof.
  intros (n1 & H1) k2 os2 s2 w2 (n2 & H2). exists (n1 + n2)%nat. intros fuel Hf.
  specialize (H1 fuel ltac:(lia)). specialize (H2 fuel ltac:(lia)). clear Hf.
  revert s w os1 H1. induction k1 as [|k1 IH]; intros s w os1 H1; cbn [take Nat.add] in *.
  - injection H1 as <- <- <-. exact H2.
  - destruct (poll fuel s w) as [o s0 w0| |]; try discriminate.
    destruct (take poll fuel k1 s0 w0) as [[[os sx] wx]|] eqn:E0; try discriminate.
    injection H1 as <- -> ->. now rewrite (IH _ _ _ E0).
Qed.

Lemma poll_item a l x s w : at_page (a :: l) x s -> exists s', at_page l x s' /\ polls s w (Some (ROk a)) s' w.
Proof.
  intros [].
  - eexists. split; [apply at_first|]. exists O. reflexivity.
  - eexists. split; [apply at_rest|]. exists 1%nat. intros [|fuel] Hf; [lia|]. reflexivity.
Qed.

Lemma take_items l x s w k : at_page l x s -> (k <= length l)%nat ->
  exists s', at_page (skipn k l) x s' /\ takes_to s w k (yields (firstn k l)) s' w.
Proof.
  revert l s. induction k as [|k IH]; intros l s Ha Hk.
  - exists s. split; auto. apply takes_0.
  - destruct l as [|a l]; cbn in Hk; [lia|]. destruct (poll_item a l x s w Ha) as (s1 & Ha1 & Hp).
    destruct (IH l s1 Ha1) as (s2 & Ha2 & Ht); [lia|]. exists s2. cbn [skipn firstn]. split; auto.
    eapply takes_S; eauto.
Qed.

(** From the end of a page the poll goes on with the next page. *)
Lemma poll_forward x s w v p w' : inv x -> at_page [] x s -> token x = Some v -> request (Some v) w = ADone (ROk p) w' ->
  exists s1, at_page (page_items p) (after x p) s1 /\ inv (after x p) /\ token (after x p) = page_next p /\
    forall o s' w'', polls s1 w' o s' w'' -> polls s w o s' w''.
Proof.
  intros Hi Ha Ht Hr. exists (FlatSecond (None, (Some (after x p), Some (page_items p)))).
  split; [apply at_rest|]. destruct (after_inv x p Hi) as (Hi' & Ht'). split; auto. split; auto.
  assert (Es : step x w = ADone (ROk (Some (page_items p, after x p))) w').
  { rewrite step_spec, Ht, Hr by auto. reflexivity. }
  intros o s' w'' (n & Hn). exists (S (S n)). intros fuel Hf. destruct fuel as [|[|fuel]]; try lia.
  destruct Ha; cbn in *.
  - rewrite Es. specialize (Hn (S fuel) ltac:(lia)). exact Hn.
  - rewrite Es. specialize (Hn fuel ltac:(lia)). exact Hn.
Qed.

(** Polling with more fuel gives the same answer. *)
Definition stable {S X} (p : poller S X W) : Prop :=
  forall n s w o s' w', p n s w = PReady o s' w' -> forall m, (n <= m)%nat -> p m s w = PReady o s' w'.

Lemma iter_stable : stable (@iter_ok V E W).
Proof. intros n s w o s' w' H m _. exact H. Qed.
Lemma unfold_stable : stable (try_unfold step).
Proof. intros n s w o s' w' H m _. exact H. Qed.
Lemma flatten_stable {S' T' A} (outer : poller S' (result T' E) W) (inner : poller T' (result A E) W) :
  stable outer -> stable inner -> stable (try_flatten outer inner).
Proof.
  intros Ho Hin n. induction n as [|n IH]; intros s w o s' w' H m Hm; [discriminate|].
  destruct m as [|m]; [lia|]. cbn [try_flatten] in *. destruct (snd s) as [t|].
  - destruct (inner n t w) as [o0 t0 w0| |] eqn:E0; try discriminate.
    rewrite (Hin _ _ _ _ _ _ E0 m) by lia. destruct o0 as [[a|e]|]; auto. apply IH; auto. lia.
  - destruct (outer n (fst s) w) as [o0 t0 w0| |] eqn:E0; try discriminate.
    rewrite (Ho _ _ _ _ _ _ E0 m) by lia. destruct o0 as [[a|e]|]; auto. apply IH; auto. lia.
Qed.
Lemma chain_stable {S1 S2 X} (a : poller S1 X W) (b : poller S2 X W) : stable a -> stable b -> stable (chain a b).
Proof.
  intros Ha Hb n s w o s' w' H m Hm. unfold chain in *. destruct (fst s) as [s1|].
  - destruct (a n s1 w) as [o0 t0 w0| |] eqn:E0; try discriminate. rewrite (Ha _ _ _ _ _ _ E0 m) by lia.
    destruct o0; auto. destruct (b n (snd s) w0) as [o1 t1 w1| |] eqn:E1; try discriminate.
    now rewrite (Hb _ _ _ _ _ _ E1 m) by lia.
  - destruct (b n (snd s) w) as [o1 t1 w1| |] eqn:E1; try discriminate.
    now rewrite (Hb _ _ _ _ _ _ E1 m) by lia.
Qed.
Lemma flat_stable {S' A} (f : W -> awaited S' E W) (p : poller S' (result A E) W) : stable p -> stable (try_flatten_stream f p).
Proof.
  intros Hp n s w o s' w' H m Hm. unfold try_flatten_stream in *. destruct s as [|s|]; auto.
  - destruct (f w) as [[s0|e] w0|]; auto. destruct (p n s0 w0) as [o1 t1 w1| |] eqn:E1; try discriminate.
    now rewrite (Hp _ _ _ _ _ _ E1 m) by lia.
  - destruct (p n s w) as [o1 t1 w1| |] eqn:E1; try discriminate.
    now rewrite (Hp _ _ _ _ _ _ E1 m) by lia.
Qed.
Lemma poll_stable : stable poll.
Proof.
  apply flat_stable, chain_stable; [apply iter_stable|]. apply flatten_stable; [apply unfold_stable|apply iter_stable].
Qed.

Lemma takes_forward s w s1 w1 : (forall o s' w'', polls s1 w1 o s' w'' -> polls s w o s' w'') ->
  forall k os s' w', takes_to s1 w1 (S k) os s' w' -> takes_to s w (S k) os s' w'.
Proof.
  intros H k os s' w' (n & Hn).
  destruct (poll n s1 w1) as [o s2 w2| |] eqn:Ep; [|specialize (Hn n ltac:(lia)); cbn [take] in Hn; rewrite Ep in Hn; discriminate..].
  destruct (H o s2 w2) as (n2 & Hn2). { exists n. intros fuel Hf. eapply poll_stable; eauto. }
  exists (n + n2)%nat. intros fuel Hf. specialize (Hn fuel ltac:(lia)). cbn [take] in *.
  rewrite (poll_stable _ _ _ _ _ _ Ep fuel) in Hn by lia. rewrite Hn2 by lia. exact Hn.
Qed.

(** Consuming all pages of a session. *)
Lemma drain v w ps t w' : fetched (Some v) w ps t w' -> forall x s, inv x -> at_page [] x s -> token x = Some v ->
  exists x' s', inv x' /\ token x' = t /\ at_page [] x' s' /\
    forall k os s'' w'', takes_to s' w' (S k) os s'' w'' ->
      takes_to s w (length (items_of ps) + S k) (yields (items_of ps) ++ os) s'' w''.
Proof.
  intro H. remember (Some v) as r eqn:Er. revert v Er.
  induction H as [r w p w' Hr|r w p w1 tk ps t w' Hr Hnext Hf IH]; intros v -> x s Hi Ha Ht.
  - destruct (poll_forward x s w v p w' Hi Ha Ht Hr) as (s1 & Ha1 & Hi1 & Ht1 & Hfw).
    destruct (take_items (page_items p) (after x p) s1 w' (length (page_items p)) Ha1 (le_n _)) as (s2 & Ha2 & Hk).
    rewrite skipn_all in Ha2. rewrite firstn_all in Hk.
    exists (after x p), s2. repeat (split; auto). intros k os s'' w'' Hos.
    unfold StreamSpec.items_of. cbn [map List.concat]. rewrite app_nil_r.
    rewrite Nat.add_succ_r. apply (takes_forward s w s1 w' Hfw). rewrite <- Nat.add_succ_r.
    eapply takes_app; eauto.
  - destruct (poll_forward x s w v p w1 Hi Ha Ht Hr) as (s1 & Ha1 & Hi1 & Ht1 & Hfw).
    destruct (take_items (page_items p) (after x p) s1 w1 (length (page_items p)) Ha1 (le_n _)) as (s2 & Ha2 & Hk).
    rewrite skipn_all in Ha2. rewrite firstn_all in Hk.
    destruct (IH tk eq_refl (after x p) s2 Hi1 Ha2 ltac:(congruence)) as (x' & s' & Hi' & Ht' & Ha' & Hos').
    exists x', s'. repeat (split; auto). intros k os s'' w'' Hos. specialize (Hos' k os s'' w'' Hos).
    unfold StreamSpec.items_of. cbn [map List.concat]. fold (items_of ps).
    rewrite app_length. unfold StreamSpec.yields. rewrite map_app, <- app_assoc. fold (yields (page_items p)) (yields (items_of ps)).
    rewrite <- Nat.add_assoc, !Nat.add_succ_r. apply (takes_forward s w s1 w1 Hfw). rewrite <- !Nat.add_succ_r.
    eapply takes_app; eauto.
Qed.

(** The end. *)
Lemma empty_takes w k : takes_to FlatEmpty w k (repeat None k) FlatEmpty w.
Proof.
  induction k as [|k IH]; [apply takes_0|]. cbn [repeat]. eapply takes_S; [|exact IH]. exists O. reflexivity.
Qed.
Lemma end_takes x s w k : inv x -> at_page [] x s -> token x = None -> takes_to s w (S k) (repeat None (S k)) FlatEmpty w.
Proof.
  intros Hi Ha Ht. cbn [repeat]. eapply takes_S; [|apply empty_takes].
  assert (Es : step x w = ADone (ROk None) w) by (rewrite step_spec, Ht by auto; reflexivity).
  exists 2%nat. intros fuel Hf. destruct fuel as [|[|fuel]]; try lia. destruct Ha; cbn; now rewrite Es.
Qed.
Lemma error_takes x s w k v e w' : inv x -> at_page [] x s -> token x = Some v -> request (Some v) w = ADone (RErr e) w' ->
  exists s', takes_to s w (S k) (Some (RErr e) :: repeat None k) s' w'.
Proof.
  intros Hi Ha Ht Hr.
  assert (Es : step x w = ADone (RErr e) w') by (rewrite step_spec, Ht, Hr by auto; reflexivity).
  assert (Hp : polls s w (Some (RErr e)) (FlatSecond (None, (None, None))) w').
  { exists 2%nat. intros fuel Hf. destruct fuel as [|[|fuel]]; try lia. destruct Ha; cbn; now rewrite Es. }
  destruct k as [|k].
  - eexists. eapply takes_S; [exact Hp|]. apply takes_0.
  - eexists. eapply takes_S; [exact Hp|]. cbn [repeat]. eapply takes_S; [|apply empty_takes].
    exists 1%nat. intros [|fuel] Hf; [lia|]. reflexivity.
Qed.

(** The first page. *)
Lemma first_forward w p w' : request None w = ADone (ROk p) w' ->
  exists s1, at_page (page_items p) (start p) s1 /\
    forall o s' w'', polls s1 w' o s' w'' -> polls FlatFirst w o s' w''.
Proof.
  intro Hr. eexists. split; [apply at_first|]. intros o s' w'' (n & Hn). exists n. intros fuel Hf.
  specialize (Hn fuel Hf). unfold poll, try_flatten_stream in *. rewrite first_spec, Hr. exact Hn.
Qed.

Lemma drain_first w ps t w' : fetched None w ps t w' ->
  exists x' s', inv x' /\ token x' = t /\ at_page [] x' s' /\
    forall k os s'' w'', takes_to s' w' (S k) os s'' w'' ->
      takes_to FlatFirst w (length (items_of ps) + S k) (yields (items_of ps) ++ os) s'' w''.
Proof.
  intro H. inversion H as [r w0 p w0' Hr|r w0 p w1 tk ps' t0 w0' Hr Hnext Hf]; subst.
  - destruct (first_forward w p w' Hr) as (s1 & Ha1 & Hfw). destruct (start_inv p) as (Hi1 & Ht1).
    destruct (take_items (page_items p) (start p) s1 w' (length (page_items p)) Ha1 (le_n _)) as (s2 & Ha2 & Hk).
    rewrite skipn_all in Ha2. rewrite firstn_all in Hk.
    exists (start p), s2. repeat (split; auto). intros k os s'' w'' Hos.
    unfold StreamSpec.items_of. cbn [map List.concat]. rewrite app_nil_r.
    rewrite Nat.add_succ_r. apply (takes_forward FlatFirst w s1 w' Hfw). rewrite <- Nat.add_succ_r.
    eapply takes_app; eauto.
  - destruct (first_forward w p w1 Hr) as (s1 & Ha1 & Hfw). destruct (start_inv p) as (Hi1 & Ht1).
    destruct (take_items (page_items p) (start p) s1 w1 (length (page_items p)) Ha1 (le_n _)) as (s2 & Ha2 & Hk).
    rewrite skipn_all in Ha2. rewrite firstn_all in Hk.
    destruct (drain tk w1 ps' t w' Hf (start p) s2 Hi1 Ha2 ltac:(congruence)) as (x' & s' & Hi' & Ht' & Ha' & Hos').
    exists x', s'. repeat (split; auto). intros k os s'' w'' Hos. specialize (Hos' k os s'' w'' Hos).
    unfold StreamSpec.items_of. cbn [map List.concat]. fold (items_of ps').
    rewrite app_length. unfold StreamSpec.yields. rewrite map_app, <- app_assoc. fold (yields (page_items p)) (yields (items_of ps')).
    rewrite <- Nat.add_assoc, !Nat.add_succ_r. apply (takes_forward FlatFirst w s1 w1 Hfw). rewrite <- !Nat.add_succ_r.
    eapply takes_app; eauto.
Qed.

Lemma fetched_snoc t w ps p t' w' : fetched t w (ps ++ [p]) t' w' ->
  (ps = [] /\ request t w = ADone (ROk p) w') \/
  exists v w1, fetched t w ps (Some v) w1 /\ request (Some v) w1 = ADone (ROk p) w'.
Proof.
  revert t w. induction ps as [|q ps IH]; intros t w H.
  - inversion H as [r w0 p0 w0' Hr|r w0 p0 w1 tk ps' t0 w0' Hr Hnext Hf]; subst; auto.
    inversion Hf.
  - cbn in H. inversion H as [r w0 p0 w0' Hr|r w0 p0 w1 tk ps' t0 w0' Hr Hnext Hf]; subst; [now destruct ps|].
    right. destruct (IH _ _ Hf) as [(-> & Hr')|(v & w2 & Hf' & Hr')].
    + exists tk, w1. split; auto. rewrite <- Hnext. now constructor.
    + exists v, w2. split; auto. econstructor; eauto.
Qed.

Theorem pages_stream : streams page_items page_next request poll FlatFirst.
Proof.
  split.
  - intros w ps w' H k. destruct (drain_first w ps None w' H) as (x & s & Hi & Ht & Ha & Hd).
    destruct (Hd k _ _ _ (end_takes x s w' k Hi Ha Ht)) as (n & Hn). exists n, FlatEmpty. exact Hn.
  - intros w ps p t w' H k Hk.
    assert (Hit : items_of (ps ++ [p]) = items_of ps ++ page_items p).
    { unfold StreamSpec.items_of. rewrite map_app, concat_app. cbn. now rewrite app_nil_r. }
    rewrite Hit in *. rewrite app_length in Hk.
    destruct (fetched_snoc _ _ _ _ _ _ H) as [(-> & Hr)|(v & w1 & Hf & Hr)].
    + destruct (first_forward w p w' Hr) as (s1 & Ha1 & Hfw).
      destruct (take_items (page_items p) (start p) s1 w' k Ha1) as (s2 & _ & Ht); [cbn in *; lia|].
      cbn [StreamSpec.items_of map List.concat app]. destruct k as [|k]; [lia|].
      destruct (takes_forward FlatFirst w s1 w' Hfw k _ _ _ Ht) as (n & Hn). exists n, s2. exact Hn.
    + destruct (drain_first w ps (Some v) w1 Hf) as (x & s & Hi & Ht & Ha & Hd).
      destruct (poll_forward x s w1 v p w' Hi Ha Ht Hr) as (s1 & Ha1 & _ & _ & Hfw).
      set (j := (k - length (items_of ps))%nat). assert (Hj : (1 <= j <= length (page_items p))%nat) by lia.
      destruct (take_items (page_items p) (after x p) s1 w' j Ha1) as (s2 & _ & Ht2); [lia|].
      destruct j as [|j'] eqn:Ej; [lia|].
      destruct (Hd j' _ _ _ (takes_forward s w1 s1 w' Hfw j' _ _ _ Ht2)) as (n & Hn).
      exists n, s2. intros fuel Hfuel. specialize (Hn fuel Hfuel).
      replace (length (items_of ps) + S j')%nat with k in Hn by lia.
      rewrite firstn_app. rewrite firstn_all2 by lia. unfold StreamSpec.yields in *. rewrite map_app.
      replace (k - length (items_of ps))%nat with (S j') by lia. exact Hn.
  - intros w e w' Hr k. exists O, FlatEmpty. intros fuel _. cbn [take].
    assert (Ep : poll fuel FlatFirst w = PReady (Some (RErr e)) FlatEmpty w').
    { unfold poll, try_flatten_stream. now rewrite first_spec, Hr. }
    rewrite Ep. enough (Ht : take poll fuel k FlatEmpty w' = Some (repeat None k, FlatEmpty, w')) by now rewrite Ht.
    induction k as [|k IH]; cbn [take repeat]; auto. cbn. now rewrite IH.
  - intros w ps v w1 e w' H Hr k. destruct (drain_first w ps (Some v) w1 H) as (x & s & Hi & Ht & Ha & Hd).
    destruct (error_takes x s w1 k v e w' Hi Ha Ht Hr) as (s' & Hs').
    destruct (Hd k _ _ _ Hs') as (n & Hn). exists n, s'. exact Hn.
Qed.
End Pages.

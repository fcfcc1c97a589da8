(** Proofs about the outcomes of commands: one-shot calls and listings. *)
From Verif Require Import Base ClientModel MethodModel OpModel RunModel BuilderModel BuilderSpec BuilderProofs BuilderCor SanitizeModel
  FutureModel StreamModel StreamSpec PageSpec PageCor EpisodeKinds CliModel CliSpec.
From Coq Require Import Lia.
Local Open Scope N_scope.

Lemma app_inj_length {A} (a a' b b' : list A) : a ++ b = a' ++ b' -> length a = length a' -> a = a' /\ b = b'.
Proof.
  revert a'. induction a as [|x a IH]; intros [|y a'] E Hl; cbn in *; try discriminate; auto.
  injection E as -> E. destruct (IH a' E ltac:(lia)) as [-> ->]. auto.
Qed.

(** ** The loop *)

Section Loop.
Context {S V E W : Type} (p : poller S (result V E) W).

Lemma take_split fuel a : forall b s w os s2 w2, take p fuel (a + b) s w = Some (os, s2, w2) ->
  exists os1 os2 s1 w1, os = os1 ++ os2 /\ take p fuel a s w = Some (os1, s1, w1) /\ take p fuel b s1 w1 = Some (os2, s2, w2)
    /\ length os1 = a.
Proof.
  induction a as [|a IH]; intros b s w os s2 w2 H.
  - exists [], os, s, w. auto.
  - cbn [take Nat.add] in *. destruct (p fuel s w) as [o s' w'| |]; try discriminate.
    destruct (take p fuel (a + b) s' w') as [[[os' s3] w3]|] eqn:Et; [|discriminate]. injection H as <- <- <-.
    apply IH in Et as (os1 & os2 & s1 & w1 & -> & E1 & E2 & El). exists (o :: os1), os2, s1, w1. rewrite E1. cbn. auto.
Qed.

(** Items that come are reported. *)
Lemma loop_items eo pf vs : forall fuel n s w s1 w1,
  take p pf (length vs) s w = Some (yields vs, s1, w1) ->
  N.of_nat (length vs) <= n ->
  list_loop (take_stream p) eo pf (length vs + fuel) (s, n) w
    = let '(f, cbs, w') := list_loop (take_stream p) eo pf fuel (s1, n - N.of_nat (length vs)) w1 in
      (f, map CbListItem vs ++ cbs, w').
Proof.
  induction vs as [|v vs IH]; intros fuel n s w s1 w1 H Hn.
  - cbn in H. injection H as <- <-. cbn [length Nat.add map app]. rewrite N.sub_0_r.
    now destruct (list_loop _ eo pf fuel (s, n) w) as [[? ?] ?].
  - cbn [length take yields map Nat.add list_loop] in *. destruct (p pf s w) as [o s' w'| |] eqn:Ep; try discriminate.
    destruct (take p pf (length vs) s' w') as [[[os s2] w2]|] eqn:Et; [|discriminate]. injection H as -> -> -> ->.
    unfold take_stream at 1. cbn [fst snd]. destruct (n =? 0) eqn:E0; [apply N.eqb_eq in E0; lia|]. rewrite Ep.
    rewrite (IH fuel (N.pred n) s' w' s1 w1 Et) by lia.
    replace (N.pred n - N.of_nat (length vs)) with (n - N.of_nat (Datatypes.S (length vs))) by lia.
    destruct (list_loop _ eo pf fuel (s1, _) w1) as [[? ?] ?]. reflexivity.
Qed.

Lemma loop_limit eo pf fuel s w : (0 < fuel)%nat ->
  list_loop (take_stream p) eo pf fuel (s, 0) w = (CfReturned (ROk tt), [CbListEndSuccess], w).
Proof. destruct fuel; [lia|]. reflexivity. Qed.

Lemma loop_end eo pf fuel n s w s' w' : (0 < fuel)%nat -> 0 < n -> p pf s w = PReady None s' w' ->
  list_loop (take_stream p) eo pf fuel (s, n) w = (CfReturned (ROk tt), [CbListEndSuccess], w').
Proof.
  destruct fuel; [lia|]. intros _ Hn Hp. cbn [list_loop]. unfold take_stream at 1. cbn [fst snd].
  destruct (n =? 0) eqn:E0; [lia|]. now rewrite Hp.
Qed.

Lemma loop_error pf fuel n s w e s' w' : (0 < fuel)%nat -> 0 < n -> p pf s w = PReady (Some (RErr e)) s' w' ->
  list_loop (take_stream p) EoError pf fuel (s, n) w = (CfReturned (RErr (CeClient e)), [CbListEndError e], w').
Proof.
  destruct fuel; [lia|]. intros _ Hn Hp. cbn [list_loop]. unfold take_stream at 1. cbn [fst snd].
  destruct (n =? 0) eqn:E0; [lia|]. now rewrite Hp.
Qed.

(** Whatever the stream does, a loop that returns has reported at most [n] items, in the order of the
    stream, and one end. *)
Lemma loop_shape eo pf fuel : forall n s w r cbs w',
  list_loop (take_stream p) eo pf fuel (s, n) w = (CfReturned r, cbs, w') ->
  exists vs x s1 w1, cbs = map CbListItem vs ++ [match x with ROk _ => CbListEndSuccess | RErr e => CbListEndError e end]
    /\ r = returned x /\ N.of_nat (length vs) <= n
    /\ take p pf (length vs) s w = Some (yields vs, s1, w1)
    /\ match x with
       | ROk tt => (N.of_nat (length vs) = n /\ w' = w1) \/ exists s2, p pf s1 w1 = PReady None s2 w'
       | RErr e => exists s2, p pf s1 w1 = PReady (Some (RErr e)) s2 w'
       end.
Proof.
  induction fuel as [|fuel IH]; intros n s w r cbs w' H; cbn [list_loop] in H; [discriminate|].
  unfold take_stream at 1 in H. cbn [fst snd] in H. destruct (n =? 0) eqn:E0.
  - injection H as <- <- <-. exists [], (ROk tt), s, w. cbn. apply N.eqb_eq in E0. repeat split; auto; lia.
  - destruct (p pf s w) as [[[v|e]|] s' w0| |] eqn:Ep; try discriminate.
    + destruct (list_loop (take_stream p) eo pf fuel (s', N.pred n) w0) as [[f cbs'] w''] eqn:El. injection H as -> <- ->.
      apply IH in El as (vs & x & s1 & w1 & -> & -> & Hn & Ht & Hx). exists (v :: vs), x, s1, w1.
      split; auto. split; auto. split; [cbn [length]; lia|]. split; [cbn [length take]; rewrite Ep, Ht; reflexivity|].
      destruct x as [[]|e]; auto. destruct Hx as [[Hx ->]|Hx]; auto. left. split; auto. cbn [length]. lia.
    + destruct eo; [|discriminate]. injection H as <- <- <-. exists [], (RErr e), s, w. cbn. repeat split; auto; [lia|eauto].
    + injection H as <- <- <-. exists [], (ROk tt), s, w. cbn. repeat split; auto; [lia|eauto].
Qed.

(** ** What the server answers *)

Variable page_items : V -> list V.
Variable page_next : V -> option value.
Variable request : option value -> W -> awaited V E W.
Variable s0 : S.
Hypothesis Hst : streams page_items page_next request p s0.

Lemma takes_then w vs o os w' : takes p s0 w (length vs + Datatypes.S (length os)) (yields vs ++ o :: os) w' ->
  exists n, forall pf, (n <= pf)%nat -> exists s1 w1 s2 w2, take p pf (length vs) s0 w = Some (yields vs, s1, w1)
    /\ p pf s1 w1 = PReady o s2 w2 /\ (os = [] -> w2 = w').
Proof.
  intros (n & s' & H). exists n. intros pf Hp. specialize (H pf Hp).
  apply take_split in H as (os1 & os2 & s1 & w1 & Eq & E1 & E2 & El).
  assert (Hy : length (@yields V E vs) = length vs) by apply map_length.
  assert (os1 = yields vs /\ os2 = o :: os) as [-> ->].
  { apply app_inj_length; auto. now rewrite El, Hy. }
  cbn [take] in E2. destruct (p pf s1 w1) as [o' s2 w2| |] eqn:Ep; try discriminate.
  destruct (take p pf (length os) s2 w2) as [[[os' s3] w3]|] eqn:Et; [|discriminate]. injection E2 as -> -> -> ->.
  exists s1, w1, s2, w2. repeat split; auto. intros ->. cbn in Et. injection Et. congruence.
Qed.

Lemma loop_listing n w vs r w' : to_list page_items page_next request n w vs r w' ->
  exists k, forall pf fuel, (k <= pf)%nat -> (k <= fuel)%nat ->
  list_loop (take_stream p) EoError pf fuel (s0, n) w
    = (CfReturned (returned r),
       map CbListItem vs ++ [match r with ROk _ => CbListEndSuccess | RErr e => CbListEndError e end], w').
Proof.
  intros [ps w1 Hf Hn|ps p0 t w1 Hf Hn1 Hn2|e w1 Hf Hn|ps token w0 e w1 Hf Hr Hn].
  - pose proof (st_complete _ _ _ _ _ Hst w ps w1 Hf 0) as Ht. cbn [repeat] in Ht.
    apply (takes_then w (items_of page_items ps) None []) in Ht as (k & Ht).
    exists (k + Datatypes.S (length (items_of page_items ps)))%nat. intros pf fuel Hp Hfu.
    destruct (Ht pf ltac:(lia)) as (s1 & w2 & s2 & w3 & E1 & E2 & E3). specialize (E3 eq_refl). subst w3.
    replace fuel with (length (items_of page_items ps) + (fuel - length (items_of page_items ps)))%nat by lia.
    rewrite (loop_items _ _ _ _ _ _ _ _ _ E1) by lia. erewrite loop_end by (eauto; lia). reflexivity.
  - destruct (st_lazy _ _ _ _ _ Hst w ps p0 t w1 Hf (N.to_nat n) ltac:(lia)) as (k & s' & Ht).
    set (l0 := firstn (N.to_nat n) (items_of page_items (ps ++ [p0]))) in *.
    assert (Hl : length l0 = N.to_nat n). { unfold l0. rewrite firstn_length. lia. }
    exists (k + Datatypes.S (length l0))%nat. intros pf fuel Hp Hfu. specialize (Ht pf ltac:(lia)).
    replace fuel with (length l0 + (fuel - length l0))%nat by lia. rewrite <- Hl in Ht.
    rewrite (loop_items _ _ _ _ _ _ _ _ _ Ht) by lia. replace (n - N.of_nat (length l0)) with 0 by lia.
    rewrite loop_limit by lia. reflexivity.
  - pose proof (st_first_fails _ _ _ _ _ Hst w e w1 Hf 0) as Ht. cbn [repeat] in Ht.
    apply (takes_then w [] (Some (RErr e)) []) in Ht as (k & Ht).
    exists (k + 1)%nat. intros pf fuel Hp Hfu.
    destruct (Ht pf ltac:(lia)) as (s1 & w2 & s2 & w3 & E1 & E2 & E3). specialize (E3 eq_refl). subst w3.
    cbn in E1. injection E1 as <- <-. erewrite loop_error by (eauto; lia). reflexivity.
  - pose proof (st_fails _ _ _ _ _ Hst w ps token w0 e w1 Hf Hr 0) as Ht. cbn [repeat] in Ht.
    apply (takes_then w (items_of page_items ps) (Some (RErr e)) []) in Ht as (k & Ht).
    exists (k + Datatypes.S (length (items_of page_items ps)))%nat. intros pf fuel Hp Hfu.
    destruct (Ht pf ltac:(lia)) as (s1 & w2 & s2 & w3 & E1 & E2 & E3). specialize (E3 eq_refl). subst w3.
    replace fuel with (length (items_of page_items ps) + (fuel - length (items_of page_items ps)))%nat by lia.
    rewrite (loop_items _ _ _ _ _ _ _ _ _ E1) by lia. erewrite loop_error by (eauto; lia). reflexivity.
Qed.
End Loop.

(** ** The generated operation *)

Lemma cli_method_ok U ctypes m o : cli_method U ctypes m = Ok o ->
  cli_method_args U ctypes m = Ok (co_args o) /\
  exists si sk ei ek, extract_responses m is_success_or_default = Ok (si, sk)
    /\ extract_responses m is_error_or_default = Ok (ei, ek)
    /\ match m_paginated m with
       | None => co_output o = OutOneShot (success_output_of sk) (error_output_of ek)
       | Some _ => exists ty, co_output o = OutListing ty (error_output_of ek)
       end.
Proof.
  unfold cli_method. destruct (cli_method_args U ctypes m) as [a| |]; try discriminate. cbn [obind].
  destruct (extract_responses m is_success_or_default) as [[si sk]| |]; try discriminate. cbn [obind].
  destruct (extract_responses m is_error_or_default) as [[ei ek]| |]; try discriminate. cbn [obind].
  destruct (m_paginated m).
  - destruct sk as [t| | |]; cbn [obind]; try discriminate.
    + unfold unwrap_type. destruct (ctypes t) as [ct|]; [|discriminate]. cbn [obind]. intros [= <-]. cbn. split; auto.
      exists si, (RType t), ei, ek. repeat split; auto. eauto.
    + intros [= <-]. cbn. split; auto. exists si, RNone, ei, ek. repeat split; auto. eauto.
  - cbn [obind]. intros [= <-]. cbn. split; auto. exists si, sk, ei, ek. auto.
Qed.

Lemma sig_kinds h m sb : method_sig_body h m = Ok sb ->
  exists si ei, extract_responses m is_success_or_default = Ok (si, sb_success sb)
    /\ extract_responses m is_error_or_default = Ok (ei, sb_error sb).
Proof. intro H. destruct (body_shape h m sb H) as (u & si & ei & eas & calls & H1 & H2 & _). eauto. Qed.

Section Executed.
Context {U : unicode} {types : type_id -> option type_info} {ctypes : type_id -> option cli_type}
  {B : Type} {b_default : type_id -> B} {b_from : type_id -> value -> B} {b_set : str -> value -> B -> B}
  {read_json : str -> value -> option value} {override : list (str * (str * value)) -> list (setter_call B) -> result (list (setter_call B)) str}
  {V W : Type} {h : hooks} {m : op_method} {o : cli_operation} {c : builder_code}
  {ms : list (str * (str * value))} {calls calls' : list (setter_call B)} {st : list (str * field B)}.
Variable b_try_from : type_id -> B -> result value str.
Variable nonzero : value -> N.
Variable page_items : V -> list V.
Variable page_next : V -> option value.
Variable ctx : context.
Variable fs : type_id -> list N -> result V jerr.
Variable ops : world_ops W.
Hypothesis Ho : cli_method U ctypes m = Ok o.
Hypothesis Hc : consumed B b_set read_json ms (co_args o) = Some calls.
Hypothesis Hov : override ms calls = ROk calls'.
Hypothesis Hb : built types b_default b_from h m c calls' st.

Notation run_command := (execute B b_default b_from b_try_from b_set read_json nonzero override V page_items page_next ctx fs W ops o c ms).
Notation sent w := (send B b_try_from V ctx fs W ops c st w).

Lemma sent_kinds : exists si ei, extract_responses m is_success_or_default = Ok (si, sb_success (bc_send c))
    /\ extract_responses m is_error_or_default = Ok (ei, sb_error (bc_send c)).
Proof. destruct Hb as [Hg _ _ _]. apply (sig_kinds h). now apply (builder_struct_ok types h m c). Qed.

Lemma output_ok : match m_paginated m with
  | None => co_output o = OutOneShot (success_output_of (sb_success (bc_send c))) (error_output_of (sb_error (bc_send c)))
  | Some _ => exists ty, co_output o = OutListing ty (error_output_of (sb_error (bc_send c)))
  end.
Proof.
  destruct (cli_method_ok _ _ _ _ Ho) as (_ & si & sk & ei & ek & E1 & E2 & H).
  destruct sent_kinds as (si' & ei' & E3 & E4). rewrite E1 in E3. rewrite E2 in E4. injection E3 as _ <-. injection E4 as _ <-. exact H.
Qed.

Lemma run_one_shot pf fuel w : m_paginated m = None ->
  run_command pf fuel w = one_shot B b_try_from V ctx fs W ops c
    (success_output_of (sb_success (bc_send c))) (error_output_of (sb_error (bc_send c))) st w.
Proof.
  intro Hp. pose proof output_ok as Hout. rewrite Hp in Hout. destruct Hb as [_ _ _ Hbu].
  unfold execute. now rewrite Hc, Hov, Hbu, Hout.
Qed.

Lemma one_shot_reported pf fuel w r tr w' : m_paginated m = None ->
  sent w = (Returned r, tr, w') ->
  match r with ROk _ => printable (sb_success (bc_send c)) | RErr _ => printable (sb_error (bc_send c)) end ->
  exists cb, reported (sb_success (bc_send c)) (sb_error (bc_send c)) r cb
    /\ run_command pf fuel w = (CfReturned (returned r), [cb], w').
Proof.
  intros Hp Hs Hk. rewrite run_one_shot by auto. unfold one_shot. rewrite Hs. destruct r as [rv|e].
  - destruct Hk as [E|(t & E)]; rewrite E; cbn; eexists; (split; [|reflexivity]); [now apply re_nothing|now apply (re_item _ _ _ t)].
  - exists (CbError e). split; [now apply re_error|]. destruct Hk as [E|(t & E)]; rewrite E; reflexivity.
Qed.

Lemma one_shot_shape pf fuel w r cbs w' : m_paginated m = None ->
  run_command pf fuel w = (CfReturned r, cbs, w') ->
  exists x cb tr, sent w = (Returned x, tr, w') /\ r = returned x /\ cbs = [cb]
    /\ reported (sb_success (bc_send c)) (sb_error (bc_send c)) x cb.
Proof.
  intros Hp. rewrite run_one_shot by auto. unfold one_shot. destruct (sent w) as [[f tr] w0].
  destruct f as [[rv|e]|msg|]; try discriminate.
  - destruct (sb_success (bc_send c)) as [t| | |] eqn:E; cbn; try discriminate; intros [= <- <- <-];
      eexists _, _, tr; (split; [reflexivity|]); (split; [reflexivity|]); (split; [reflexivity|]); [now apply (re_item _ _ _ t)|now apply re_nothing].
  - destruct (sb_error (bc_send c)) as [t| | |] eqn:E; cbn; try discriminate; intros [= <- <- <-];
      eexists _, _, tr; (split; [reflexivity|]); (split; [reflexivity|]); (split; [reflexivity|]); apply re_error; [right; eauto|now left].
Qed.

Lemma limit_found n : line_limit nonzero ms n -> limit_of nonzero ms = Some n.
Proof. unfold limit_of, get_one. intros [E|v E]; rewrite E; rewrite ?str_eqb_refl; reflexivity. Qed.

Lemma stream_found : m_paginated m <> None -> exists resets, bc_stream c = Some resets.
Proof.
  intro Hp. destruct Hb as [Hg _ _ _]. apply (proj2 (cor_stream_generated types h m c Hg)) in Hp.
  destruct (bc_stream c); [eauto|easy].
Qed.

Lemma run_listing pf fuel w n : m_paginated m <> None -> line_limit nonzero ms n ->
  exists resets, bc_stream c = Some resets /\
  run_command pf fuel w =
    let '(f, cbs, w') :=
      list_loop (take_stream (builder_stream V page_items page_next ctx fs W ops B b_try_from c resets st))
        (error_output_of (sb_error (bc_send c))) pf fuel (FlatFirst, n) w in
    (f, CbListStart :: map (item_callback V) cbs, w').
Proof.
  intros Hp Hl. destruct (stream_found Hp) as (resets & Er). exists resets. split; auto.
  pose proof output_ok as Hout. destruct (m_paginated m); [|easy]. destruct Hout as (ty & Hout).
  destruct Hb as [_ _ _ Hbu]. unfold execute. rewrite Hc, Hov, Hbu, Hout. unfold listing. now rewrite Er, (limit_found n Hl).
Qed.

Lemma map_items (vs : list V) : map (item_callback V) (map CbListItem vs) = map (fun v => CbListItem (IVal v)) vs.
Proof. rewrite map_map. reflexivity. Qed.

Lemma listing_reported n args w vs r w' : m_paginated m <> None -> paginated_params (m_params m) ->
  line_limit nonzero ms n -> printable (sb_error (bc_send c)) ->
  map fst args = m_params m -> Forall (fun pv => gives types b_default b_from b_try_from calls' (fst pv) (ROk (snd pv))) args ->
  to_list page_items page_next (page_request ctx fs ops (bc_send c) args) n w vs r w' ->
  exists k, forall pf fuel, (k <= pf)%nat -> (k <= fuel)%nat ->
  run_command pf fuel w = (CfReturned (returned r), listed vs r, w').
Proof.
  intros Hp Hpp Hl Hk Ha Hg Ht.
  destruct (run_listing 0 0 w n Hp Hl) as (resets & Er & _).
  assert (Hst : streams page_items page_next (page_request ctx fs ops (bc_send c) args)
    (builder_stream V page_items page_next ctx fs W ops B b_try_from c resets st) FlatFirst)
    by exact (cor_builder_streams b_try_from Hb resets args Hpp Er Ha Hg).
  destruct (loop_listing _ _ _ _ _ Hst n w vs r w' Ht) as (k & Hk'). exists k. intros pf fuel H1 H2.
  destruct (run_listing pf fuel w n Hp Hl) as (resets' & Er' & ->). rewrite Er in Er'. injection Er' as <-.
  replace (error_output_of (sb_error (bc_send c))) with EoError by (destruct Hk as [E|(t & E)]; rewrite E; reflexivity).
  rewrite (Hk' pf fuel H1 H2). unfold listed. rewrite map_app, map_items. cbn [map]. now destruct r.
Qed.

(** Whatever the server answers. *)
Lemma listing_shape n pf fuel w r cbs w' : m_paginated m <> None -> line_limit nonzero ms n ->
  run_command pf fuel w = (CfReturned r, cbs, w') ->
  exists resets vs x s1 w1, bc_stream c = Some resets /\ cbs = listed vs x /\ r = returned x /\ N.of_nat (length vs) <= n
    /\ take (builder_stream V page_items page_next ctx fs W ops B b_try_from c resets st) pf (length vs) FlatFirst w
       = Some (yields vs, s1, w1)
    /\ match x with
       | ROk tt => (N.of_nat (length vs) = n /\ w' = w1)
                   \/ exists s2, builder_stream V page_items page_next ctx fs W ops B b_try_from c resets st pf s1 w1 = PReady None s2 w'
       | RErr e => exists s2, builder_stream V page_items page_next ctx fs W ops B b_try_from c resets st pf s1 w1 = PReady (Some (RErr e)) s2 w'
       end.
Proof.
  intros Hp Hl H. destruct (run_listing pf fuel w n Hp Hl) as (resets & Er & E). rewrite H in E.
  destruct (list_loop _ _ _ _ _ _) as [[f cbs'] w''] eqn:El. injection E as <- -> ->.
  apply loop_shape in El as (vs & x & s1 & w1 & -> & -> & Hn & Ht & Hx). exists resets, vs, x, s1, w1.
  split; auto. split; [|auto]. unfold listed. rewrite map_app, map_items. cbn [map]. now destruct x.
Qed.
End Executed.

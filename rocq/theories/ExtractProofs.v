(** When [extract_responses] and [method_sig_body] succeed. *)
From Verif Require Import Base OasModel TemplateModel TemplateSpec TemplateProofs MethodModel OpModel RefSpec RefProofs
  ResponseSpec ResponseProofs ParamSpec ParamProofs DocSpec DocProofs OpCor.
From Coq Require Import ZifyBool ZifyN Sorted.
Local Open Scope N_scope.

Notation val r := (to_value (o_status r)).

Lemma insert_snoc_small x l z : val x < val z -> insert_response x (l ++ [z]) = insert_response x l ++ [z].
Proof.
  intro H. induction l as [|y l IH]; cbn.
  - destruct (_ <=? _) eqn:E; auto. lia.
  - destruct (_ <=? _); cbn; auto. now rewrite IH.
Qed.

Lemma insert_big x l : Forall (fun y => val y <= val x) l -> insert_response x l = l ++ [x].
Proof.
  induction 1 as [|y l H _ IH]; cbn; auto. destruct (_ <=? _) eqn:E; [now rewrite IH|lia].
Qed.

Definition ascending (l : list op_response) : Prop := StronglySorted (fun a b => val a <= val b) l.

Lemma insert_ascending x l : ascending l -> ascending (insert_response x l).
Proof.
  induction 1 as [|y l H IH Hf]; cbn.
  - repeat constructor.
  - destruct (_ <=? _) eqn:E.
    + constructor; auto. apply Forall_forall. intros z Hz. apply insert_response_In in Hz as [->|Hz]; [lia|].
      rewrite Forall_forall in Hf. auto.
    + constructor; [constructor; auto|]. constructor; [lia|]. eapply Forall_impl; [|exact Hf]. cbn. lia.
Qed.

Lemma sort_snoc l x : sort_responses (l ++ [x]) = insert_response x (sort_responses l).
Proof. unfold sort_responses. now rewrite fold_left_app. Qed.

Lemma sort_ascending l : ascending (sort_responses l).
Proof.
  induction l as [|x l IH] using rev_ind; [constructor|]. rewrite sort_snoc. now apply insert_ascending.
Qed.

Lemma ascending_last l z : ascending (l ++ [z]) -> Forall (fun y => val y <= val z) l.
Proof.
  induction l as [|y l IH]; cbn; intro H; constructor; inversion H as [|? ? H1 H2]; subst.
  - rewrite Forall_forall in H2. apply H2, in_app_iff. cbn. auto.
  - auto.
Qed.

(** The last element after sorting. *)
Lemma sort_last l : l <> [] -> exists pre s post rest, l = pre ++ s :: post /\
  sort_responses l = rest ++ [s] /\
  Forall (fun y => val y <= val s) pre /\ Forall (fun y => val y < val s) post.
Proof.
  induction l as [|x l IH] using rev_ind; [easy|]. intros _. rewrite sort_snoc.
  destruct l as [|y l'] eqn:El.
  - exists [], x, [], []. cbn. auto.
  - rewrite <- El in *. destruct IH as (pre & s & post & rest & -> & Hs & Hpre & Hpost); [now rewrite El|].
    pose proof (sort_ascending (pre ++ s :: post)) as Hasc. rewrite Hs in *.
    pose proof (ascending_last _ _ Hasc) as Hl.
    destruct (N.ltb_spec (val x) (val s)) as [H|H].
    + exists pre, s, (post ++ [x]), (insert_response x rest). repeat split; auto.
      * now rewrite <- app_assoc.
      * now apply insert_snoc_small.
      * apply Forall_app. auto.
    + exists (pre ++ s :: post), x, [], (rest ++ [s]). repeat split; auto.
      * apply insert_big. apply Forall_app. split; [|now repeat constructor].
        eapply Forall_impl; [|exact Hl]. cbn. lia.
      * apply Forall_app. split; [eapply Forall_impl; [|exact Hpre]; cbn; lia|].
        constructor; [lia|]. eapply Forall_impl; [|exact Hpost]. cbn. lia.
Qed.

Lemma sort_default d r : o_status d = SDefault -> Forall (fun y => val y < 1000) r ->
  sort_responses (d :: r) = sort_responses r ++ [d].
Proof.
  intros Hd. induction r as [|x r IH] using rev_ind; auto. intro H.
  apply Forall_app in H as (H1 & H2). inversion H2; subst.
  rewrite app_comm_cons, !sort_snoc, IH, insert_snoc_small; auto. now rewrite Hd.
Qed.

(** The element that ends up next to the default. *)
Definition top2 (r : list op_response) : Prop :=
  exists pre s post, r = pre ++ s :: post /\ o_status s = SRange 2 /\
    Forall (fun y => val y <= 200) pre /\ Forall (fun y => val y < 200) post.

Lemma app_cons_split {A} (a a' : list A) x x' b b' : a ++ x :: b = a' ++ x' :: b' ->
  (a = a' /\ x = x' /\ b = b') \/ (In x a' /\ In x' b) \/ (In x' a /\ In x b').
Proof.
  revert a'; induction a as [|y a IH]; intros [|y' a'] H; cbn in *.
  - injection H as -> ->. auto.
  - injection H as -> ->. right. left. split; auto. apply in_app_iff. cbn. auto.
  - injection H as -> <-. right. right. split; auto. apply in_app_iff. cbn. auto.
  - injection H as -> H. apply IH in H as [(-> & -> & ->)|[(H & H')|(H & H')]]; auto.
Qed.

Lemma last_unique r pre s post pre' s' post' :
  r = pre ++ s :: post -> Forall (fun y => val y <= val s) pre -> Forall (fun y => val y < val s) post ->
  r = pre' ++ s' :: post' -> Forall (fun y => val y <= val s') pre' -> Forall (fun y => val y < val s') post' ->
  s = s'.
Proof.
  intros -> H1 H2 E H3 H4. rewrite Forall_forall in *.
  apply app_cons_split in E as [(_ & E & _)|[(Ha & Hb)|(Ha & Hb)]]; auto; exfalso.
  - apply H3 in Ha. apply H2 in Hb. lia.
  - apply H1 in Ha. apply H4 in Hb. lia.
Qed.

Lemma pop_with_default d r : o_status d = SDefault -> Forall (fun y => val y < 1000) r ->
  (top2 r /\ pop_default (sort_responses (d :: r)) = sort_responses r) \/
  (~ top2 r /\ pop_default (sort_responses (d :: r)) = sort_responses r ++ [d]).
Proof.
  intros Hd Hr. rewrite (sort_default d r Hd Hr).
  destruct r as [|y r'] eqn:Er.
  { right. split.
    - intros (pre & s & post & H & _). now destruct pre.
    - reflexivity. }
  rewrite <- Er in *. destruct (sort_last r) as (pre & s & post & rest & E & Hs & Hpre & Hpost); [now rewrite Er|].
  assert (Hdec : o_status s = SRange 2 \/ o_status s <> SRange 2).
  { destruct (o_status s) as [c|n|]; try (right; discriminate).
    destruct (N.eq_dec n 2) as [->|]; [left; auto|right; congruence]. }
  rewrite Hs. unfold pop_default. rewrite rev_app_distr. cbn [rev app]. rewrite rev_app_distr. cbn [rev app].
  rewrite Hd. destruct Hdec as [E2|E2].
  - left. rewrite E2. cbn [N.eqb Pos.eqb]. rewrite rev_involutive. split; auto. exists pre, s, post.
    rewrite E2 in *. auto.
  - right. split.
    + intros (p1 & s1 & q1 & E1 & Hs1 & Hp1 & Hq1). apply E2.
      rewrite (last_unique r pre s post p1 s1 q1); auto; now rewrite Hs1.
    + destruct (o_status s) as [c|n|]; auto. destruct (n =? 2) eqn:En; auto. apply N.eqb_eq in En. congruence.
Qed.

Lemma pop_no_default l : Forall (fun y => o_status y <> SDefault) l -> pop_default l = l.
Proof.
  intro H. unfold pop_default. destruct (rev l) as [|d [|s r]] eqn:E; auto.
  destruct (o_status s); auto. destruct (o_status d) eqn:Ed; auto.
  exfalso. rewrite Forall_forall in H. apply (H d); auto. apply in_rev. rewrite E. now left.
Qed.

(** The elements that are compared. *)
Lemma popped_In d rest x : (d = [] \/ exists y, d = [y] /\ o_status y = SDefault) ->
  Forall (fun y => val y < 1000) rest ->
  (In x (pop_default (sort_responses (d ++ rest))) <->
   In x rest \/ (In x d /\ ~ top2 rest)).
Proof.
  intros [->|(y & -> & Hy)] Hr; cbn [app].
  - rewrite pop_no_default.
    + rewrite sort_responses_In. cbn. tauto.
    + apply Forall_forall. intros z Hz Hd. rewrite sort_responses_In in Hz. rewrite Forall_forall in Hr.
      apply Hr in Hz. rewrite Hd in Hz. cbn in Hz. lia.
  - destruct (pop_with_default y rest Hy Hr) as [(Ht & ->)|(Ht & ->)].
    + rewrite sort_responses_In. tauto.
    + rewrite in_app_iff, sort_responses_In. cbn. intuition.
Qed.

Lemma extract_iff m f :
  let items := List.filter (fun r => f (o_status r)) (m_responses m) in
  Forall (fun r => to_value_ok (o_status r) = true) items ->
  ((exists x, extract_responses m f = Ok x) <->
   forall x y, In x (pop_default (sort_responses items)) -> In y (pop_default (sort_responses items)) ->
     o_typ x = o_typ y).
Proof.
  intros items Hv. unfold extract_responses. fold items.
  assert (E : forallb (fun r => to_value_ok (o_status r)) items = true) by (apply forallb_forall; now rewrite Forall_forall in Hv).
  rewrite E. cbn [negb]. rewrite andb_false_r.
  destruct (pop_default (sort_responses items)) as [|x r].
  - split; [intros _ ? ? []|]. eauto.
  - destruct (forallb _ r) eqn:Ef.
    + split; [|eauto]. intros _. rewrite forallb_forall in Ef.
      assert (Hall : forall z, In z (x :: r) -> o_typ z = o_typ x).
      { intros z [<-|Hz]; auto. apply Ef in Hz. now apply resp_kind_eqb_eq in Hz. }
      intros a b Ha Hb. rewrite (Hall a Ha), (Hall b Hb). reflexivity.
    + split; [intros (z & Hz); easy|]. intro H. exfalso.
      assert (forallb (fun y => resp_kind_eqb (o_typ y) (o_typ x)) r = true); [|congruence].
      apply forallb_forall. intros z Hz. apply resp_kind_eqb_eq. apply H; cbn; auto.
Qed.

(** ** The shape of the response list *)

Lemma filter_split {A} (f : A -> bool) l a x b : filter f l = a ++ x :: b ->
  exists a' b', l = a' ++ x :: b' /\ filter f a' = a /\ filter f b' = b.
Proof.
  revert a; induction l as [|y l IH]; cbn; intros a H; [now destruct a|].
  destruct (f y) eqn:Ey.
  - destruct a as [|z a]; cbn in H; injection H as -> H.
    + exists [], l. auto.
    + apply IH in H as (a' & b' & -> & Ha & Hb). exists (z :: a'), b'. cbn. rewrite Ey, Ha. auto.
  - apply IH in H as (a' & b' & -> & Ha & Hb). exists (y :: a'), b'. cbn. rewrite Ey. auto.
Qed.

Lemma map_split {A B} (f : A -> B) l a x b : map f l = a ++ x :: b ->
  exists a' y b', l = a' ++ y :: b' /\ map f a' = a /\ f y = x /\ map f b' = b.
Proof.
  revert a; induction l as [|z l IH]; cbn; intros a H; [now destruct a|].
  destruct a as [|w a]; cbn in H; injection H as <- H.
  - exists [], z, l. auto.
  - apply IH in H as (a' & y & b' & -> & Ha & Hy & Hb). exists (z :: a'), y, b'. cbn. rewrite Ha. auto.
Qed.

Section Gen.
Variables (pascal : str -> str) (ts : type_space) (oid : str) (ws : bool)
  (comps : option components) (op : operation) (m : op_method) (t : list (resp_status * resp_kind)).
Hypothesis Hok : process_responses pascal ts oid ws comps op = Ok (m_responses m).
Hypothesis Ht : tabulates ts (pascal (oid ++ lit "-response")) ws comps op t.
Hypothesis Hv : codes_valid op.

Lemma responses_shape : exists d rs1 extra, m_responses m = d ++ rs1 ++ extra /\
  (d = [] /\ (forall k, ~ In (SDefault, k) t) \/ exists k, d = [OpResponse SDefault k] /\ In (SDefault, k) t) /\
  map o_status rs1 = map (fun sr => status_of (fst sr)) (op_responses op) /\
  (forall key k, In (key, k) t <-> In (OpResponse key k) (d ++ rs1)) /\
  extra = (if existsb (fun r => covers_success (o_status r)) (d ++ rs1) then [] else [OpResponse (SRange 2) RRaw])
          ++ (if ws then [OpResponse (SCode 101) RUpgrade] else []).
Proof.
  destruct (process_responses_shape _ _ _ _ _ _ _ Hok) as (rs0 & HF & Hrs).
  pose proof (tabulates_iff _ _ _ _ _ _ rs0 t HF Ht) as Hi.
  assert (Hmap : map o_status rs0 = map fst (documented op)).
  { clear -HF. induction HF as [|v r l l' H _ IH]; cbn; auto. apply process_response_ok in H as (-> & _). now rewrite IH. }
  unfold documented in Hmap. rewrite map_app, map_map in Hmap. cbn [fst] in Hmap.
  destruct (op_default op) as [r|] eqn:Ed.
  - cbn [map app fst] in Hmap. destruct rs0 as [|d rs1]; [easy|]. cbn in Hmap. injection Hmap as Hd Hm.
    exists [d], rs1. eexists. split; [exact Hrs|]. split.
    + right. exists (o_typ d). rewrite <- Hd, resp_eta. split; auto. rewrite Hi, resp_eta. now left.
    + split; auto.
  - cbn [map app] in Hmap. exists [], rs0. eexists. split; [exact Hrs|]. split; [left; split; auto|].
    + intros k Hk. apply Hi in Hk. apply (in_map o_status) in Hk. rewrite Hmap in Hk. cbn in Hk.
      apply in_map_iff in Hk as ([[c|n] x] & Hk & _); easy.
    + split; auto.
Qed.

Lemma status_of_default s : status_of s <> SDefault.
Proof. now destruct s. Qed.

(** Shadowing in terms of the filtered list. *)
Lemma top2_shadowed rs1 up : map o_status rs1 = map (fun sr => status_of (fst sr)) (op_responses op) ->
  (up = [] \/ up = [OpResponse (SCode 101) RUpgrade]) ->
  (top2 (filter (fun r => is_success_or_default (o_status r)) (rs1 ++ up)) <-> default_shadowed op).
Proof.
  intros Hm Hup. rewrite filter_app. split.
  - intros (pre & s & post & E & Hs & Hpre & Hpost).
    assert (exists pre' post', filter (fun r => is_success_or_default (o_status r)) rs1 = pre' ++ s :: post' /\
      pre' = pre /\ incl post' post) as (pre' & post' & E' & -> & Hincl).
    { destruct Hup as [-> | ->].
      - cbn in E. rewrite app_nil_r in E. exists pre, post. repeat split; auto. apply incl_refl.
      - cbn in E. destruct post as [|z post _] using rev_ind.
        + apply app_inj_tail in E as (_ & <-). easy.
        + rewrite app_comm_cons, app_assoc in E. apply app_inj_tail in E as (E & <-). exists pre, post.
          repeat split; auto. intros x Hx. apply in_app_iff. auto. }
    apply filter_split in E' as (a & b & E1 & Ha & Hb). rewrite E1, map_app in Hm. cbn [map] in Hm.
    symmetry in Hm. apply map_split in Hm as (a' & [k r] & b' & E2 & Ha' & Hk & Hb'). cbn in Hk.
    rewrite Hs in Hk. assert (k = ScRange 2) by (destruct k; cbn in Hk; congruence). subst k.
    exists a', r, b'. split; auto.
    assert (Hcode : forall (l : list op_response) (l' : list (status_code * ref_or response_doc)) c x,
      map (fun sr => status_of (fst sr)) l' = map o_status l -> In (ScCode c, x) l' ->
      exists y, In y l /\ o_status y = SCode c).
    { intros l l' c x Hl Hx. apply (in_map (fun sr => status_of (fst sr))) in Hx. rewrite Hl in Hx.
      apply in_map_iff in Hx as (y & Hy & Hi). eauto. }
    split.
    + intros c x Hx Hc. apply in_app_iff in Hx as [Hx|Hx].
      * destruct (Hcode _ _ _ _ Ha' Hx) as (y & Hy & Hst).
        assert (Hf : In y pre). { rewrite <- Ha. apply filter_In. split; auto. rewrite Hst. cbn. lia. }
        rewrite Forall_forall in Hpre. apply Hpre in Hf. rewrite Hst in Hf. cbn in Hf. lia.
      * destruct (Hcode _ _ _ _ Hb' Hx) as (y & Hy & Hst).
        assert (Hf : In y post). { apply Hincl. rewrite <- Hb. apply filter_In. split; auto. rewrite Hst. cbn. lia. }
        rewrite Forall_forall in Hpost. apply Hpost in Hf. rewrite Hst in Hf. cbn in Hf. lia.
    + intros x Hx. destruct (Hcode _ _ _ _ Hb' Hx) as (y & Hy & Hst).
      assert (Hf : In y post). { apply Hincl. rewrite <- Hb. apply filter_In. split; auto. rewrite Hst. reflexivity. }
      rewrite Forall_forall in Hpost. apply Hpost in Hf. rewrite Hst in Hf. cbn in Hf. lia.
  - intros (pre & r & post & E & Hc & H2).
    (* take the last 2XX *)
    assert (exists pre r post, op_responses op = pre ++ (ScRange 2, r) :: post /\
      (forall c r', In (ScCode c, r') (pre ++ post) -> ~ (200 < c < 300)) /\
      (forall r', ~ In (ScCode 200, r') post) /\ (forall r', ~ In (ScRange 2, r') post))
      as (pre1 & r1 & post1 & E1 & Hc1 & H21 & Hr1).
    { remember (length post) as n eqn:En. revert pre r post En E Hc H2.
      induction n as [n IHn] using (well_founded_induction Wf_nat.lt_wf). intros pre r post En E Hc H2.
      destruct (existsb (fun sr => match fst sr with ScRange 2 => true | _ => false end) post) eqn:Ex.
      - apply existsb_exists in Ex as ([k r2] & Hi & Hk). cbn in Hk.
        assert (k = ScRange 2) as -> by (destruct k as [|[|[p|p|]]]; try easy; destruct p; easy).
        apply in_split in Hi as (a & b & ->).
        apply (IHn (length b)) with (pre := pre ++ (ScRange 2, r) :: a) (r := r2) (post := b); auto.
        + rewrite En, app_length. cbn. lia.
        + rewrite E, <- app_assoc. reflexivity.
        + intros c x Hx. apply (Hc c x). rewrite !in_app_iff in *. cbn in *. intuition congruence.
        + intros x Hx. apply (H2 x). rewrite in_app_iff. cbn. auto.
      - exists pre, r, post. repeat split; auto. intros x Hx.
        assert (existsb (fun sr => match fst sr with ScRange 2 => true | _ => false end) post = true); [|congruence].
        apply existsb_exists. exists (ScRange 2, x). auto. }
    rewrite E1, map_app in Hm. cbn [map] in Hm. apply map_split in Hm as (a & s & b & -> & Ha & Hs & Hb).
    cbn in Hs. rewrite filter_app. cbn [filter]. rewrite Hs. cbn [is_success_or_default N.eqb Pos.eqb].
    rewrite <- app_assoc. cbn [app]. eexists _, s, _. split; [reflexivity|]. split; auto.
    assert (Hcode : forall (l : list op_response) (l' : list (status_code * ref_or response_doc)) y,
      map o_status l = map (fun sr => status_of (fst sr)) l' -> In y l ->
      exists k x, In (k, x) l' /\ o_status y = status_of k).
    { intros l l' y Hl Hy. apply (in_map o_status) in Hy. rewrite Hl in Hy. apply in_map_iff in Hy as ([k x] & Hy & Hi).
      exists k, x. auto. }
    split; [|apply Forall_app; split].
    + apply Forall_forall. intros y Hy. apply filter_In in Hy as (Hy & Hf).
      destruct (Hcode _ _ _ Ha Hy) as (k & x & Hi & Hst). rewrite Hst in *. destruct k as [c|n]; cbn in *.
      * assert (~ (200 < c < 300)) by (apply (Hc1 c x); apply in_app_iff; auto). lia.
      * lia.
    + apply Forall_forall. intros y Hy. apply filter_In in Hy as (Hy & Hf).
      destruct (Hcode _ _ _ Hb Hy) as (k & x & Hi & Hst). rewrite Hst in *. destruct k as [c|n]; cbn in *.
      * assert (~ (200 < c < 300)) by (apply (Hc1 c x); apply in_app_iff; auto).
        assert (c <> 200) by (intros ->; now apply H21 in Hi). lia.
      * assert (n <> 2) by (intros ->; now apply Hr1 in Hi). lia.
    + destruct Hup as [-> | ->]; cbn; auto. repeat constructor.
Qed.

Lemma code_ok x rs1 : map o_status rs1 = map (fun sr => status_of (fst sr)) (op_responses op) -> In x rs1 ->
  to_value_ok (o_status x) = true /\ val x < 1000 /\ o_status x <> SDefault.
Proof.
  intros Hm Hx. apply (in_map o_status) in Hx. rewrite Hm in Hx. apply in_map_iff in Hx as ([k r] & Hk & Hi).
  cbn in Hk. rewrite <- Hk. destruct Hv as (H1 & H2). destruct k as [c|n]; cbn.
  - apply H1 in Hi. repeat split; try lia. easy.
  - apply H2 in Hi. repeat split; try lia. easy.
Qed.

Lemma all_ok x : In x (m_responses m) -> to_value_ok (o_status x) = true.
Proof.
  destruct responses_shape as (d & rs1 & extra & -> & Hd & Hm & Hi & ->). rewrite !in_app_iff.
  intros [H|[H|[H|H]]].
  - destruct Hd as [(-> & _)|(k & -> & _)]; [easy|]. destruct H as [<-|[]]. reflexivity.
  - now apply (code_ok x rs1).
  - destruct (existsb _ _); [easy|]. destruct H as [<-|[]]. reflexivity.
  - destruct ws; [|easy]. destruct H as [<-|[]]. reflexivity.
Qed.

(** The success responses compared by [extract_responses]. *)
Lemma success_items k :
  (exists x, In x (pop_default (sort_responses
      (filter (fun r => is_success_or_default (o_status r)) (m_responses m)))) /\ o_typ x = k) <->
  success_entry op ws t k.
Proof.
  destruct responses_shape as (d & rs1 & extra & Hrs & Hd & Hm & Hi & Hextra).
  pose proof (covers_success_iff t (d ++ rs1) Hi) as Hcov.
  assert (Hfd : filter (fun r => is_success_or_default (o_status r)) d = d).
  { destruct Hd as [(-> & _)|(k' & -> & _)]; reflexivity. }
  rewrite Hrs, filter_app, Hfd.
  set (rest := filter _ (rs1 ++ extra)).
  assert (Hrest : Forall (fun y => val y < 1000) rest).
  { apply Forall_forall. intros y Hy. apply filter_In in Hy as (Hy & _). apply in_app_iff in Hy as [Hy|Hy].
    - now apply (code_ok y rs1).
    - rewrite Hextra in Hy. apply in_app_iff in Hy as [Hy|Hy].
      + destruct (existsb _ _); [easy|]. destruct Hy as [<-|[]]. reflexivity.
      + destruct ws; [|easy]. destruct Hy as [<-|[]]. reflexivity. }
  assert (Hd' : d = [] \/ exists y, d = [y] /\ o_status y = SDefault).
  { destruct Hd as [(-> & _)|(k' & -> & _)]; [left; auto|right]. eexists. split; [reflexivity|]. reflexivity. }
  assert (Htop : (exists k, In (SDefault, k) t) -> (top2 rest <-> default_shadowed op)).
  { intros (k' & Hk'). unfold rest. 
    assert (existsb (fun r => covers_success (o_status r)) (d ++ rs1) = true) as E.
    { apply Hcov. right. right. eauto. }
    rewrite E in Hextra. cbn [app] in Hextra. rewrite Hextra. apply top2_shadowed; auto. destruct ws; auto. }
  assert (HinR : forall x, In x rest <-> (In x rs1 \/ In x extra) /\ is_success_or_default (o_status x) = true).
  { intro x. unfold rest. rewrite filter_In, in_app_iff. reflexivity. }
  split.
  - intros (x & Hx & <-). apply popped_In in Hx; auto. destruct Hx as [Hx|(Hx & Hnt)].
    + apply HinR in Hx as ([Hx|Hx] & Hs).
      * assert (Hxt : In (o_status x, o_typ x) t) by (apply Hi; rewrite resp_eta; apply in_app_iff; auto).
        destruct (code_ok x rs1 Hm Hx) as (_ & _ & Hnd).
        destruct (o_status x) as [c|n|] eqn:Es; cbn in Hs; [| |easy].
        -- apply (se_code _ _ _ c); auto. lia.
        -- apply N.eqb_eq in Hs. subst n. now apply se_class.
      * rewrite Hextra in Hx. apply in_app_iff in Hx as [Hx|Hx].
        -- destruct (existsb _ _) eqn:E; [easy|]. destruct Hx as [<-|[]]. apply se_generic. rewrite <- Hcov. congruence.
        -- destruct ws eqn:Ew; [|easy]. destruct Hx as [<-|[]]. now apply se_upgrade.
    + destruct Hd as [(-> & _)|(k' & -> & Hk')]; [easy|]. destruct Hx as [<-|[]]. cbn.
      apply se_default; auto. rewrite <- Htop; eauto.
  - assert (Hgo : forall key k', In (key, k') t -> key <> SDefault -> is_success_or_default key = true ->
      exists x, In x (pop_default (sort_responses (d ++ rest))) /\ o_typ x = k').
    { intros key k' Hk Hnd Hs. exists (OpResponse key k'). split; auto. apply popped_In; auto. left.
      apply HinR. split; auto. apply Hi in Hk. apply in_app_iff in Hk as [Hk|Hk]; auto.
      destruct Hd as [(-> & _)|(k2 & -> & _)]; [easy|]. destruct Hk as [[= <- _]|[]]. easy. }
    intros [c k' H Hc|k' H|k' H Hn|Hn|Hw].
    + apply (Hgo (SCode c)); auto; [easy|]. cbn. lia.
    + apply (Hgo (SRange 2)); auto. easy.
    + destruct Hd as [(_ & Hno)|(k2 & Ed & Hk2)]; [now apply Hno in H|].
      exists (OpResponse SDefault k'). split; auto. apply popped_In; auto. right. split.
      * apply Hi in H. apply in_app_iff in H as [H|H]; auto.
        destruct (code_ok _ rs1 Hm H) as (_ & _ & Hnd). easy.
      * rewrite Htop; eauto.
    + exists (OpResponse (SRange 2) RRaw). split; auto. apply popped_In; auto. left. apply HinR. split; auto. right.
      rewrite Hextra. apply in_app_iff. left. destruct (existsb _ _) eqn:E; [|now left].
      exfalso. apply Hn, Hcov. reflexivity.
    + exists (OpResponse (SCode 101) RUpgrade). split; auto. apply popped_In; auto. left. apply HinR. split; auto. right.
      rewrite Hextra, Hw. apply in_app_iff. right. now left.
Qed.

Lemma error_items x :
  In x (pop_default (sort_responses
      (filter (fun r => is_error_or_default (o_status r)) (m_responses m)))) <->
  In (o_status x, o_typ x) t /\ is_error_or_default (o_status x) = true.
Proof.
  rewrite pop_default_no_range.
  - rewrite sort_responses_In, filter_In. pose proof (process_responses_lists _ _ _ _ _ _ _ Hok t Ht (o_status x) (o_typ x)) as Hl.
    rewrite resp_eta in Hl. rewrite Hl. split.
    + intros ([H|[(_ & H & _)|(_ & H & _)]] & He); auto; rewrite H in He; easy.
    + intros (H & He). auto.
  - intros y Hy. rewrite sort_responses_In, filter_In in Hy. destruct Hy as (_ & Hy). intro E. now rewrite E in Hy.
Qed.

Lemma error_entry_iff k : error_entry t k <-> exists key, In (key, k) t /\ is_error_or_default key = true.
Proof.
  split.
  - intros [c k' H Hc|n k' H Hn|k' H]; eexists; split; eauto; cbn; lia.
  - intros ([c|n|] & H & He); cbn in He.
    + apply (ee_code t c); auto. lia.
    + apply (ee_class t n); auto. lia.
    + now apply ee_default.
Qed.

Lemma extract_success_iff :
  (exists x, extract_responses m is_success_or_default = Ok x) <-> agree (success_entry op ws t).
Proof.
  rewrite extract_iff.
  - split.
    + intros H k k' Hk Hk'. apply success_items in Hk as (x & Hx & <-). apply success_items in Hk' as (y & Hy & <-). auto.
    + intros H x y Hx Hy. apply H; apply success_items; eauto.
  - apply Forall_forall. intros x Hx. apply filter_In in Hx as (Hx & _). now apply all_ok.
Qed.

Lemma extract_error_iff :
  (exists x, extract_responses m is_error_or_default = Ok x) <-> agree (error_entry t).
Proof.
  rewrite extract_iff.
  - split.
    + intros H k k' Hk Hk'. apply error_entry_iff in Hk as (key & Hk & He), Hk' as (key' & Hk' & He').
      apply (H (OpResponse key k) (OpResponse key' k')); apply error_items; auto.
    + intros H x y Hx Hy. apply H; apply error_entry_iff; [apply error_items in Hx|apply error_items in Hy]; eauto.
  - apply Forall_forall. intros x Hx. apply filter_In in Hx as (Hx & _). now apply all_ok.
Qed.

Lemma extract_success_kind si k : extract_responses m is_success_or_default = Ok (si, k) ->
  forall k', success_entry op ws t k' <-> k' = k.
Proof.
  intros H k'. apply extract_ok in H as (-> & Hk & Hnil). rewrite <- success_items. split.
  - intros (x & Hx & <-). auto.
  - intros ->. destruct (pop_default _) as [|x l] eqn:E.
    + exfalso.
      assert (Hse : exists k', success_entry op ws t k').
      { destruct (expected_total ws t 200) as (a & _).
        destruct responses_shape as (d & rs1 & extra & _ & _ & _ & Hi & _).
        pose proof (covers_success_iff t (d ++ rs1) Hi) as Hcov.
        destruct (existsb (fun r => covers_success (o_status r)) (d ++ rs1)) eqn:Ex.
        - destruct (proj1 Hcov eq_refl) as [(c & k' & Hc & Hr)|[(k' & Hc)|(k' & Hc)]].
          + exists k'. apply (se_code _ _ _ c); auto.
          + exists k'. now apply se_class.
          + assert (Hdec : (exists x, In x (pop_default (sort_responses (filter (fun r => is_success_or_default (o_status r)) (m_responses m)))))
              \/ pop_default (sort_responses (filter (fun r => is_success_or_default (o_status r)) (m_responses m))) = []).
            { destruct (pop_default _) as [|y l]; [now right|left; exists y; now left]. }
            destruct Hdec as [(x & Hx)|Hn0]; [exists (o_typ x); apply success_items; eauto|].
            (* a default among the items is dropped only in favour of the class *)
            assert (Hin : In (OpResponse SDefault k') (sort_responses (filter (fun r => is_success_or_default (o_status r)) (m_responses m)))).
            { apply sort_responses_In, filter_In. split; auto.
              apply (process_responses_lists _ _ _ _ _ _ _ Hok t Ht). auto. }
            apply pop_default_keeps in Hin. rewrite Hn0 in Hin. destruct Hin as [[]|(_ & y & [] & _)].
        - exists RRaw. apply se_generic. rewrite <- Hcov. discriminate. }
      destruct Hse as (k' & Hse). apply success_items in Hse as (x & Hx & _). now rewrite E in Hx.
    + exists x. split; [now left|]. apply Hk. now left.
Qed.

Lemma extract_error_kind ei k : extract_responses m is_error_or_default = Ok (ei, k) ->
  (forall k', error_entry t k' -> k' = k) /\ ((forall k', ~ error_entry t k') -> k = RNone).
Proof.
  intros H. apply extract_ok in H as (Hei & Hk & Hnil). split.
  - intros k' He. apply error_entry_iff in He as (key & He & Hx).
    apply (Hk (OpResponse key k')). rewrite Hei. now apply error_items.
  - intro Hno. apply Hnil. rewrite Hei. destruct (pop_default _) as [|x l] eqn:E; auto. exfalso.
    apply (Hno (o_typ x)). apply error_entry_iff. exists (o_status x). apply error_items. rewrite E. now left.
Qed.
End Gen.

(** The types of the body parameters of processed operations. *)
Definition body_typed (p : op_param) : Prop :=
  match p_kind p, p_typ p with
  | KBody OctetStream, PRawBody | KBody (Text _), PRawBody | KBody Json, PType _ | KBody FormUrlencoded, PType _ => True
  | KBody _, _ => False
  | _, PType _ => True
  | _, _ => False
  end.

Lemma process_param_typed snake pascal ts oid p q : process_param snake pascal ts oid p = Ok q ->
  exists t, p_typ q = PType t.
Proof.
  unfold process_param. destruct p as [d []|d|d []|d]; cbn; intro H; try easy.
  - apply obind_ok in H as (s & _ & H). apply obind_ok in H as (t & _ & H).
    apply obind_ok in H as ([t' r] & Hr & H). injection H as <-. cbn. eauto.
  - apply obind_ok in H as (s & _ & H). apply obind_ok in H as (t & _ & H). injection H as <-. cbn. eauto.
  - destruct (negb _); [easy|].
    apply obind_ok in H as (s & _ & H). apply obind_ok in H as (t & _ & H). injection H as <-. cbn. eauto.
Qed.

Lemma body_types snake pascal ts op comps path method pp m :
  process_operation snake pascal ts op comps path method pp = Ok m -> Forall body_typed (m_params m).
Proof.
  intro H.
  destruct (process_operation_params _ _ _ _ _ _ _ _ _ H)
    as (oid & pi' & ops' & qs & body & _ & _ & _ & Hqs & Hb & _ & Hs & Hpres & _).
  apply (sort_params_sorted _ _ _ Hpres) in Hs as (Hperm & _).
  apply Forall_forall. intros p Hp. apply (Permutation_in _ Hperm) in Hp. apply in_app_iff in Hp as [Hp|Hp].
    - destruct (forall2_In_r _ _ _ _ Hqs Hp) as (x & _ & Hx).
      pose proof (process_param_typed _ _ _ _ _ _ Hx) as (t & Et).
      apply process_param_stands, stands_not_body in Hx. unfold is_body in Hx. unfold body_typed. rewrite Et.
      now destruct (p_kind p).
    - destruct body as [b|]; [|easy]. destruct Hp as [->|[]].
      unfold get_body_param in Hb. destruct (op_request_body op) as [r|]; [|easy].
      apply obind_ok in Hb as (b & _ & Hb). destruct (rb_content b) as [|[cs mt] [|]]; try easy.
      destruct (mt_schema mt); [|easy]. apply obind_ok in Hb as (ct & _ & Hb). apply obind_ok in Hb as (typ & Htyp & Hb).
      injection Hb as <-. cbn. destruct ct.
      + apply obind_ok in Htyp as (s0 & _ & Htyp). destruct (plain_string _ _); [|easy]. now injection Htyp as <-.
      + destruct (negb _); [easy|]. apply obind_ok in Htyp as (t0 & _ & Htyp). now injection Htyp as <-.
      + destruct (negb _); [easy|]. apply obind_ok in Htyp as (t0 & _ & Htyp). now injection Htyp as <-.
      + apply obind_ok in Htyp as (s0 & _ & Htyp). destruct (plain_string _ _); [|easy]. now injection Htyp as <-.
Qed.

(** Bodies of processed operations pass. *)
Lemma body_calls_ok snake pascal ts op comps path method pp m :
  process_operation snake pascal ts op comps path method pp = Ok m ->
  exists bs, body_calls (m_params m) = Ok bs /\ (length bs <= 1)%nat.
Proof.
  intro H. pose proof (one_body _ _ _ _ _ _ _ _ _ H) as Hone. pose proof (body_types _ _ _ _ _ _ _ _ _ H) as Hgood.
  assert (Hex : exists bs, body_calls (m_params m) = Ok bs /\ length bs = length (filter is_body (m_params m))).
  { clear -Hgood. induction Hgood as [|p l Hp _ (bs & IH & Hl)]; cbn [body_calls filter length].
    - exists []. auto.
    - unfold body_typed in Hp. unfold is_body at 1.
      destruct (p_kind p) as [| | |[]]; try (now exists bs); destruct (p_typ p); try easy;
        rewrite IH; cbn [obind]; eexists; (split; [reflexivity|]); cbn [length]; now rewrite Hl. }
  destruct Hex as (bs & Hbs & Hl). exists bs. split; auto. lia.
Qed.

(** Error arms. *)
Lemma error_arms_ok items : (exists l, concat_arms (mapM error_arm items) = Ok l) <->
  Forall (fun r => o_status r = SDefault \/ o_typ r <> RUpgrade) items.
Proof.
  assert (H1 : forall r, (exists a, error_arm r = Ok a) <-> (o_status r = SDefault \/ o_typ r <> RUpgrade)).
  { intro r. unfold error_arm. destruct (o_typ r) eqn:Et; cbv zeta.
    - split; [right; discriminate|eauto].
    - split; [right; discriminate|eauto].
    - split; [right; discriminate|eauto].
    - destruct (o_status r) eqn:Es; split; eauto; try (intros (a & Ha); easy); intros [H|H]; easy. }
  induction items as [|r l IH]; cbn.
  - split; auto. eexists. reflexivity.
  - split.
    + intros (x & H). destruct (error_arm r) as [a| |] eqn:Ea; try easy. constructor; [apply H1; eauto|].
      apply IH. destruct (mapM error_arm l) as [b| |]; try easy. eexists. reflexivity.
    + intro H. inversion H as [|? ? Ha Hl]; subst. apply H1 in Ha as (a & ->). apply IH in Hl as (x & Hl).
      destruct (mapM error_arm l) as [b| |]; try easy. cbn. eexists. reflexivity.
Qed.

(** ** When a method is generated *)

Lemma generation_iff_lax snake pascal ts comps op ps method pp h m t :
  lax ps -> process_operation snake pascal ts op comps (show ps) method pp = Ok m ->
  response_table pascal ts comps op (m_websocket m) t -> codes_valid op ->
  (forall n, In n (vars ps) -> exists p, In p (m_params m) /\ p_kind p = KPath /\ p_api_name p = n) ->
  ((exists sb, method_sig_body h m = Ok sb) <->
   agree (success_entry op (m_websocket m) t) /\ agree (error_entry t) /\
   (forall key, In (key, RUpgrade) t -> is_error_or_default key = true -> key = SDefault)).
Proof.
  intros Hst Hp (oid & Hoid & Ht) Hv Hpath.
  destruct (process_operation_params _ _ _ _ _ _ _ _ _ Hp)
    as (oid' & pi' & ops' & qs & body & Hid & _ & _ & _ & _ & Hparse & _ & _ & _ & Hr & _).
  assert (oid' = oid) by congruence. subst oid'.
  destruct (body_calls_ok _ _ _ _ _ _ _ _ _ Hp) as (bs & Hbs & Hlen).
  destruct (compile_total (m_path m) (url_renames (m_params m))) as (u & Hu).
  { intros n Hn. rewrite (parse_names ps) in Hn; auto.
    destruct (Hpath n Hn) as (p & Hi & Hk & Hn').
    destruct (assoc_last n (url_renames (m_params m))) eqn:E; eauto. apply assoc_last_None in E. exfalso. apply E.
    unfold url_renames. apply in_map_iff. exists (n, p_name p). split; auto. apply in_flat_map. exists p.
    split; auto. rewrite Hk, Hn'. now left. }
  pose proof (extract_success_iff pascal ts oid (m_websocket m) comps op m t Hr Ht Hv) as Hs.
  pose proof (extract_error_iff pascal ts oid (m_websocket m) comps op m t Hr Ht Hv) as He.
  unfold method_sig_body. cbv zeta. rewrite Hu. cbn [obind]. rewrite Hbs. cbn [obind].
  destruct (1 <? N.of_nat (length bs)) eqn:El; [lia|].
  destruct (extract_responses m is_success_or_default) as [[si k]|e|e] eqn:Es; cbn [obind].
  2,3: split; [intros (x & Hx); easy|]; intros (H & _); apply Hs in H as (x & H); easy.
  destruct (extract_responses m is_error_or_default) as [[ei ke]|e|e] eqn:Ee; cbn [obind].
  2,3: split; [intros (x & Hx); easy|]; intros (_ & H & _); apply He in H as (x & H); easy.
  pose proof (error_arms_ok ei) as Ha.
  assert (Hei : Forall (fun r => o_status r = SDefault \/ o_typ r <> RUpgrade) ei <->
    (forall key, In (key, RUpgrade) t -> is_error_or_default key = true -> key = SDefault)).
  { pose proof (error_items pascal ts oid (m_websocket m) comps op m t Hr Ht) as Hit.
    apply extract_ok in Ee as (-> & _). rewrite Forall_forall. split.
    - intros H key Hk Hx. destruct (H (OpResponse key RUpgrade)) as [H'|H']; auto; [|easy].
      apply Hit. auto.
    - intros H x Hx. apply Hit in Hx as (Hx & Hb). destruct (o_typ x) eqn:Et; try (right; discriminate).
      left. auto. }
  rewrite <- Hei, <- Ha. split.
  - intros (sb & Hsb). split; [apply Hs; eauto|]. split; [apply He; eauto|].
    destruct (concat_arms _) as [l| |]; try easy. eauto.
  - intros (_ & _ & l & ->). cbn [obind]. eauto.
Qed.

Lemma generation_iff snake pascal ts comps op ps method pp h m t :
  strict ps -> process_operation snake pascal ts op comps (show ps) method pp = Ok m ->
  response_table pascal ts comps op (m_websocket m) t -> codes_valid op ->
  (forall n, In n (vars ps) -> exists p, In p (m_params m) /\ p_kind p = KPath /\ p_api_name p = n) ->
  ((exists sb, method_sig_body h m = Ok sb) <->
   agree (success_entry op (m_websocket m) t) /\ agree (error_entry t) /\
   (forall key, In (key, RUpgrade) t -> is_error_or_default key = true -> key = SDefault)).
Proof. intro Hst. apply generation_iff_lax. now apply strict_lax. Qed.

Lemma generated_kinds snake pascal ts comps op ps method pp h m sb t :
  generated snake pascal ts comps op ps method pp h m sb ->
  response_table pascal ts comps op (m_websocket m) t -> codes_valid op ->
  (forall k, success_entry op (m_websocket m) t k <-> k = sb_success sb) /\
  (forall k, error_entry t k -> k = sb_error sb) /\
  ((forall k, ~ error_entry t k) -> sb_error sb = RNone).
Proof.
  intros [Hst Hp Hme _ _] (oid & Hoid & Ht) Hv.
  destruct (process_operation_params _ _ _ _ _ _ _ _ _ Hp)
    as (oid' & pi' & ops' & qs & body & Hid & _ & _ & _ & _ & Hparse & _ & _ & _ & Hr & _).
  assert (oid' = oid) by congruence. subst oid'.
  unfold method_sig_body in Hme. cbv zeta in Hme.
  apply obind_ok in Hme as (u & _ & Hme). apply obind_ok in Hme as (bs & _ & Hme).
  destruct (1 <? _); [easy|].
  apply obind_ok in Hme as ([si k] & Hs & Hme). apply obind_ok in Hme as ([ei ke] & He & Hme).
  apply obind_ok in Hme as (ea & _ & Hme). injection Hme as <-. cbn [sb_success sb_error].
  pose proof (extract_success_kind pascal ts oid (m_websocket m) comps op m t Hr Ht Hv _ _ Hs) as H1.
  pose proof (extract_error_kind pascal ts oid (m_websocket m) comps op m t Hr Ht _ _ He) as H2.
  tauto.
Qed.

Lemma error_entries t : (exists k, error_entry t k) \/ (forall k, ~ error_entry t k).
Proof.
  destruct (existsb (fun e : resp_status * resp_kind => is_error_or_default (fst e)) t) eqn:E.
  - left. apply existsb_exists in E as ([key k] & Hi & Hk). exists k. apply error_entry_iff. eauto.
  - right. intros k H. apply error_entry_iff in H as (key & Hi & Hk).
    assert (existsb (fun e : resp_status * resp_kind => is_error_or_default (fst e)) t = true); [|congruence].
    apply existsb_exists. exists (key, k). auto.
Qed.

(** Mocks of documents. *)
From Coq Require Import ZifyBool ZifyN Permutation.
From Verif Require Import Base OasModel TemplateModel MethodModel OpModel ParamProofs BuilderModel ExtractProofs SanitizeModel
  SanitizeSpec GenerateModel GenerateSpec ValidateProofs GenerateProofs GenerateCor MockModel MockSpec MockDoc.
Local Open Scope N_scope.

(** ** Status codes with names *)

Lemma reasons_codes : map fst canonical_reasons = named_codes.
Proof. reflexivity. Qed.

Lemma canonical_named c : canonical_reason c <> None <-> In c named_codes.
Proof.
  rewrite <- reasons_codes. unfold canonical_reason. split.
  - destruct (find _ _) as [[c' r]|] eqn:E; [|easy]. intros _. apply find_some in E as (Hin & E). apply N.eqb_eq in E.
    cbn in E. subst. now apply (in_map fst) in Hin.
  - intro Hin. apply in_map_iff in Hin as ([c' r] & <- & Hin). destruct (find _ _) as [x|] eqn:E; [easy|].
    apply (find_none _ _ E) in Hin. cbn in Hin. now rewrite N.eqb_refl in Hin.
Qed.

Lemma named_range c : In c named_codes -> 100 <= c <= 999.
Proof.
  intro Hin. assert (HF : Forall (fun c => (100 <=? c) && (c <=? 999) = true) named_codes) by (vm_compute; repeat constructor).
  rewrite Forall_forall in HF. specialize (HF _ Hin). lia.
Qed.

Lemma then_status_ok U s : (exists x, then_status_of U s = Ok x) <-> mockable_status s.
Proof.
  destruct s as [c|c|]; unfold then_status_of, mockable_status.
  - rewrite <- canonical_named. destruct (_ || _) eqn:E.
    + split; [intros (x & Hx); easy|]. intro Hn. apply canonical_named, named_range in Hn. lia.
    + destruct (canonical_reason c); split; eauto; try easy. now intros (x & Hx).
  - split.
    + intros (x & Hx). destruct c as [|[[[|[]|]|[]|]|[[]|[|[]|]|]|]]; cbn in Hx; try easy; lia.
    + intro Hc. assert (Hr : c = 1 \/ c = 2 \/ c = 3 \/ c = 4 \/ c = 5) by lia.
      destruct Hr as [->|[->|[->|[->| ->]]]]; eauto.
  - split; eauto.
Qed.

Lemma responses_statuses snake pascal ts op comps path method pp m :
  process_operation snake pascal ts op comps path method pp = Ok m ->
  exists extra, map o_status (m_responses m) = map fst (documented op) ++ extra
    /\ Forall mockable_status extra
    /\ (~ In (SRange 2) extra \/ ~ In (SRange 2) (map fst (documented op)))
    /\ (In (SCode 101) extra -> m_websocket m = true)
    /\ NoDup extra /\ (forall s, In s extra -> s = SRange 2 \/ s = SCode 101).
Proof.
  intro H. destruct (process_operation_params _ _ _ _ _ _ _ _ _ H)
    as (oid & pi' & ops' & qs & body & _ & _ & _ & _ & _ & _ & _ & _ & _ & Hr & _).
  unfold process_responses in Hr. apply obind_ok in Hr as (rs & Hrs & Hr). injection Hr as <-.
  assert (E : map o_status rs = map fst (documented op)).
  { apply mapM_ok in Hrs. eapply Forall2_map_eq; [|exact Hrs]. intros a b Hab. cbn in Hab. unfold process_response in Hab.
    apply obind_ok in Hab as (doc & _ & Hab). apply obind_ok in Hab as (typ & _ & Hab). now injection Hab as <-. }
  rewrite !map_app, E. eexists. split; [reflexivity|].
  destruct (existsb _ rs) eqn:Ex, (m_websocket m); cbn; (split; [|split; [|split; [|split]]]); auto; try tauto;
    try (repeat constructor; cbn; intuition (try discriminate; lia)); try (left; intuition discriminate).
  all: try (right; rewrite <- E; intro Hin; apply in_map_iff in Hin as (r & Er & Hin);
    assert (Hc : existsb (fun r => covers_success (o_status r)) rs = true) by
      (apply existsb_exists; exists r; split; auto; rewrite Er; reflexivity); congruence).
  all: intuition congruence.
Qed.

Section Gen.
Variable U : unicode.
Variable add_ref_types : list (str * ref_or schema) -> outcome type_space.
Variable types : type_id -> option type_info.
Variable is_path : str -> bool.

(** ** One operation *)

Lemma mapM_ok_all {A B} (f : A -> outcome B) l : (exists bs, mapM f l = Ok bs) <-> Forall (fun a => exists b, f a = Ok b) l.
Proof.
  split.
  - intros (bs & E). apply mapM_ok in E. induction E; constructor; eauto.
  - induction 1 as [|a l (b & Hb) _ (bs & IH)]; [now exists []|]. exists (b :: bs). cbn. rewrite Hb. cbn. now rewrite IH.
Qed.

Lemma mock_op_iff m : Forall body_typed (m_params m) -> known_types types m ->
  ((exists o, httpmock_method U types m = Ok o) <-> Forall (fun r => mockable_status (o_status r)) (m_responses m)).
Proof.
  intros Hb (Hkp & Hkr).
  assert (Hw : exists ws, mapM (when_method_of types (m_path m)) (m_params m) = Ok ws).
  { apply mapM_ok_all. rewrite Forall_forall in *. intros p Hp. specialize (Hb p Hp). unfold body_typed in Hb.
    unfold when_method_of, when_type. destruct (p_typ p) as [t|] eqn:Et.
    - destruct (types t) eqn:Ety; [|exfalso; exact (Hkp p t Hp Et Ety)]. cbn.
      destruct (p_kind p) as [|[]| |ct]; try rewrite Et; cbn; eauto.
    - destruct (p_kind p) as [|[]| |[]]; try easy; cbn; rewrite ?Et; cbn; eauto. }
  destruct Hw as (ws & Hw).
  assert (Ht : (exists ts, mapM (then_method_of U types) (m_responses m) = Ok ts)
               <-> Forall (fun r => mockable_status (o_status r)) (m_responses m)).
  { rewrite mapM_ok_all, !Forall_forall. split; intros HF r Hr.
    - apply (then_status_ok U). destruct (HF r Hr) as (t & E). unfold then_method_of in E. apply obind_ok in E as (v & _ & E).
      apply obind_ok in E as (x & Hx & _). eauto.
    - specialize (HF r Hr). apply (then_status_ok U) in HF as ([n s] & E). unfold then_method_of.
      assert (exists v, then_value_of types (o_typ r) = Ok v) as (v & ->).
      { unfold then_value_of. destruct (o_typ r) as [t| | |] eqn:Et; eauto.
        destruct (types t) eqn:Ety; eauto. exfalso. exact (Hkr r t Hr Et Ety). }
      cbn. rewrite E. cbn. eauto. }
  rewrite <- Ht. unfold httpmock_method. rewrite Hw. cbn [obind]. split.
  - intros (o & E). apply obind_ok in E as (ts & E & _). eauto.
  - intros (ts & ->). cbn. eauto.
Qed.

(** ** Documents *)

Lemma mock_ops d cp k l : httpmock U add_ref_types types is_path d cp = Ok k -> operations_in_order d l ->
  exists ts, Forall2 (fun e no => exists m, processed U ts d e m /\ fst no = method_name U e
      /\ httpmock_method U types m = Ok (snd no)) l (mk_ops k).
Proof.
  intros H Hl. unfold httpmock in H. apply obind_ok in H as ([] & Hv & H). apply obind_ok in H as (ts & _ & H).
  apply obind_ok in H as (groups & Hg & H). apply obind_ok in H as (ops & Ho & H).
  destruct (is_path cp); [|easy]. injection H as <-. cbn [mk_ops]. exists ts.
  apply (process_paths U ts d _ 0) in Hg. rewrite (in_order_unique d l Hl).
  apply mapM_ok in Ho. revert ops Ho. induction Hg as [|e m es ms Hp HF IH]; intros ops Ho; inversion Ho; subst; cbn; constructor; auto.
  exists m. cbn. repeat split; auto. apply processed_facts in Hp. apply Hp.
Qed.

(** Mocks are generated exactly when every documented status has a response method. *)
Lemma mock_iff s d cp g : is_path cp = true -> (forall t, types t <> None) ->
  generate_tokens U add_ref_types types s d = Ok g ->
  ((exists k, httpmock U add_ref_types types is_path d cp = Ok k) <->
   forall e, in_document d e -> Forall mockable_status (map fst (documented (do_op e)))).
Proof.
  intros Hcp Hty Hg. unfold generate_tokens in Hg. apply obind_ok in Hg as ([] & Hv & Hg). apply obind_ok in Hg as (ts & Hts & Hg).
  apply obind_ok in Hg as (groups & Hgr & _). unfold httpmock. rewrite Hv. cbn [obind]. rewrite Hts. cbn [obind]. rewrite Hgr, Hcp. cbn [obind].
  apply (process_paths U ts d _ 0) in Hgr. destruct (doc_ops_in_order d) as (Hin & _).
  assert (Hm : forall m, In m (concat groups) -> exists e, In e (doc_ops 0 (oa_paths d)) /\ processed U ts d e m).
  { intros m Hi. clear - Hgr Hi. induction Hgr as [|e m' es ms Hp _ IH]; [easy|]. destruct Hi as [<-|Hi].
    - exists e. split; auto. now left.
    - destruct (IH Hi) as (e' & He' & Hp'). exists e'. split; auto. now right. }
  assert (Hone : forall e m, processed U ts d e m ->
    ((exists o, httpmock_method U types m = Ok o) <-> Forall mockable_status (map fst (documented (do_op e))))).
  { intros e m Hp. rewrite mock_op_iff.
    - destruct (responses_statuses _ _ _ _ _ _ _ _ _ Hp) as (extra & E & He & _).
      rewrite <- Forall_map, E, Forall_app. tauto.
    - eapply body_types. exact Hp.
    - split; auto. }
  split.
  - intros (k & E). apply obind_ok in E as (ops & Ho & _). intros e He. apply Hin in He.
    assert (exists m, In m (concat groups) /\ processed U ts d e m) as (m & Him & Hp).
    { clear - Hgr He. induction Hgr as [|e' m' es ms Hp _ IH]; [easy|]. destruct He as [<-|He].
      - exists m'. split; auto. now left.
      - destruct (IH He) as (m & Hm & Hp'). exists m. split; auto. now right. }
    apply (Hone e m Hp). assert (HF : Forall (fun m => exists o, httpmock_method U types m = Ok o) (concat groups)).
    { apply mapM_ok_all. eauto. }
    rewrite Forall_forall in HF. auto.
  - intro HF. assert (exists ops, mapM (httpmock_method U types) (concat groups) = Ok ops) as (ops & ->); [|cbn; eauto].
    apply mapM_ok_all, Forall_forall. intros m Hi. destruct (Hm m Hi) as (e & He & Hp). apply (Hone e m Hp). apply HF.
    now apply Hin.
Qed.
End Gen.

(** ** Names of response methods *)

Definition own_names : list str :=
  [lit "informational"; lit "success"; lit "redirect"; lit "client_error"; lit "server_error"; lit "default_response";
   lit "new"; lit "into_inner"].

Fixpoint distinct (l : list str) : bool :=
  match l with [] => true | s :: r => negb (existsb (str_eqb s) r) && distinct r end.
Lemma distinct_NoDup l : distinct l = true -> NoDup l.
Proof.
  induction l as [|s l IH]; cbn; [constructor|]. intro H. apply andb_true_iff in H as (H1 & H2). constructor; auto.
  intro Hin. apply negb_true_iff in H1. assert (existsb (str_eqb s) l = true); [|congruence].
  apply existsb_exists. exists s. split; auto. apply str_eqb_refl.
Qed.

Lemma reason_names : NoDup (map (fun cr => sanitize unicode15 (snd cr) Snake) canonical_reasons ++ own_names).
Proof. apply distinct_NoDup. vm_compute. reflexivity. Qed.

Definition name_of (s : resp_status) : str :=
  match s with
  | SCode c => match find (fun cr => fst cr =? c) canonical_reasons with
               | Some cr => sanitize unicode15 (snd cr) Snake | None => [] end
  | SRange 1 => lit "informational" | SRange 2 => lit "success" | SRange 3 => lit "redirect"
  | SRange 4 => lit "client_error" | SRange _ => lit "server_error"
  | SDefault => lit "default_response"
  end.

Lemma then_status_name s n t : then_status_of unicode15 s = Ok (n, t) -> n = name_of s /\ mockable_status s.
Proof.
  intro E. assert (Hm : mockable_status s) by (apply (then_status_ok unicode15); eauto). split; auto.
  destruct s as [c|c|].
  - unfold then_status_of in E. destruct (_ || _); [easy|]. unfold canonical_reason in E. unfold name_of.
    destruct (find _ _) as [cr|]; cbn [option_map] in E; [|easy]. now injection E as <- _.
  - unfold then_status_of in E. cbn in Hm. assert (Hr : c = 1 \/ c = 2 \/ c = 3 \/ c = 4 \/ c = 5) by lia.
    destruct Hr as [->|[->|[->|[->| ->]]]]; injection E as <- _; reflexivity.
  - injection E as <- _. reflexivity.
Qed.

Lemma NoDup_app_inv {A} (l r : list A) : NoDup (l ++ r) -> NoDup l /\ NoDup r /\ forall x, In x l -> ~ In x r.
Proof.
  induction l as [|a l IH]; cbn; [repeat split; auto; constructor|]. intro H. inversion H; subst. apply IH in H3 as (H1 & H4 & H5).
  split; [|split; auto].
  - constructor; auto. intro Hin. apply H2, in_or_app. auto.
  - intros x [<-|Hx]; auto. intro Hin. apply H2, in_or_app. auto.
Qed.

Lemma name_of_inj s s' : mockable_status s -> mockable_status s' -> name_of s = name_of s' -> s = s'.
Proof.
  destruct (NoDup_app_inv _ _ reason_names) as (Hr & Ho & Hd).
  assert (Hcode : forall c, In c named_codes -> exists r, In (c, r) canonical_reasons /\ name_of (SCode c) = sanitize unicode15 r Snake).
  { intros c Hc. rewrite <- reasons_codes in Hc. apply in_map_iff in Hc as ([c' r] & <- & Hc). cbn [name_of fst].
    destruct (find _ _) as [[c1 r1]|] eqn:E.
    - apply find_some in E as (Hin & E). apply N.eqb_eq in E. cbn in E. subst. eauto.
    - apply (find_none _ _ E) in Hc. cbn in Hc. now rewrite N.eqb_refl in Hc. }
  assert (Hown : forall s, mockable_status s -> (exists c, s = SCode c) \/ In (name_of s) own_names).
  { intros [c|c|] Hm; [eauto| |right; cbn; tauto]. right. cbn in Hm.
    assert (Hc : c = 1 \/ c = 2 \/ c = 3 \/ c = 4 \/ c = 5) by lia. destruct Hc as [->|[->|[->|[->| ->]]]]; cbn; tauto. }
  assert (Hin : forall c, In c named_codes ->
    In (name_of (SCode c)) (map (fun cr => sanitize unicode15 (snd cr) Snake) canonical_reasons)).
  { intros c Hc. destruct (Hcode c Hc) as (r & Hr' & ->). apply in_map_iff. exists (c, r). auto. }
  assert (Hfive : forall c, mockable_status (SRange c) -> c = 1 \/ c = 2 \/ c = 3 \/ c = 4 \/ c = 5).
  { intros c Hc. cbn in Hc. lia. }
  assert (Hmixed : forall c s, In c named_codes -> mockable_status s -> (forall x, s <> SCode x) ->
    name_of (SCode c) = name_of s -> False).
  { intros c s0 Hc Hs0 Hx E0. destruct (Hown s0 Hs0) as [(x & Ex)|Hx0]; [exact (Hx x Ex)|].
    rewrite <- E0 in Hx0. exact (Hd _ (Hin c Hc) Hx0). }
  intros Hm Hm' E.
  destruct s as [c|c|], s' as [c'|c'|].
  - destruct (Hcode c Hm) as (r & Hi & En), (Hcode c' Hm') as (r' & Hi' & En'). rewrite En, En' in E. f_equal.
    clear - Hr Hi Hi' E. induction canonical_reasons as [|[c1 r1] l IH]; [easy|]. cbn [map snd] in Hr. inversion Hr; subst.
    destruct Hi as [[= -> ->]|Hi], Hi' as [[= -> ->]|Hi']; auto; exfalso; apply H1; apply in_map_iff.
    + exists (c', r'). auto.
    + exists (c, r). auto.
  - exfalso. apply (Hmixed c (SRange c') Hm Hm'); [discriminate|exact E].
  - exfalso. apply (Hmixed c SDefault Hm Hm'); [discriminate|exact E].
  - exfalso. apply (Hmixed c' (SRange c) Hm' Hm); [discriminate|symmetry; exact E].
  - f_equal. destruct (Hfive c Hm) as [->|[->|[->|[->| ->]]]], (Hfive c' Hm') as [->|[->|[->|[->| ->]]]];
      vm_compute in E; congruence.
  - destruct (Hfive c Hm) as [->|[->|[->|[->| ->]]]]; vm_compute in E; congruence.
  - exfalso. apply (Hmixed c' SDefault Hm' Hm); [discriminate|symmetry; exact E].
  - destruct (Hfive c' Hm') as [->|[->|[->|[->| ->]]]]; vm_compute in E; congruence.
  - reflexivity.
Qed.

Lemma name_of_fresh s : mockable_status s -> name_of s <> lit "new" /\ name_of s <> lit "into_inner".
Proof.
  destruct (NoDup_app_inv _ _ reason_names) as (_ & _ & Hd). destruct s as [c|c|]; intro Hm.
  - unfold mockable_status in Hm. assert (Hin : In (name_of (SCode c)) (map (fun cr => sanitize unicode15 (snd cr) Snake) canonical_reasons)).
    { rewrite <- reasons_codes in Hm. apply in_map_iff in Hm as ([c' r] & <- & Hc). cbn [name_of fst].
      destruct (find _ _) as [cr|] eqn:E.
      - apply find_some in E as (Hin & _). now apply in_map with (f := fun cr => sanitize unicode15 (snd cr) Snake).
      - apply (find_none _ _ E) in Hc. cbn in Hc. now rewrite N.eqb_refl in Hc. }
    specialize (Hd _ Hin). split; intro E; apply Hd; rewrite E; cbn; tauto.
  - cbn in Hm. assert (Hc : c = 1 \/ c = 2 \/ c = 3 \/ c = 4 \/ c = 5) by lia.
    destruct Hc as [->|[->|[->|[->| ->]]]]; split; discriminate.
  - split; discriminate.
Qed.

Lemma then_names types m o : httpmock_method unicode15 types m = Ok o ->
  map tm_name (mo_then_methods o) = map name_of (map o_status (m_responses m))
  /\ Forall mockable_status (map o_status (m_responses m)).
Proof.
  intro Ho. destruct (mock_parts _ _ _ _ Ho) as (_ & _ & _ & HF). induction HF as [|r t rs ts H _ (IH1 & IH2)]; cbn; auto.
  unfold then_method_of in H. apply obind_ok in H as (v & _ & H). apply obind_ok in H as ([n s] & Hs & H). injection H as <-.
  apply then_status_name in Hs as (-> & Hm). cbn. split; [f_equal; auto|constructor; auto].
Qed.

Lemma NoDup_map_inj {A B} (f : A -> B) l : (forall x y, In x l -> In y l -> f x = f y -> x = y) -> NoDup l -> NoDup (map f l).
Proof.
  intros Hf Hl. induction Hl as [|x l Hx Hl IH]; cbn; constructor.
  - intro Hin. apply in_map_iff in Hin as (y & E & Hy). apply Hx. rewrite (Hf x y); auto; [now left|now right].
  - apply IH. intros a b Ha Hb. apply Hf; now right.
Qed.

(** The response methods of a mocked operation have different names, and none is called like the
    wrapper's own methods. *)
Lemma then_names_distinct snake pascal ts op comps path method pp m types o :
  process_operation snake pascal ts op comps path method pp = Ok m ->
  httpmock_method unicode15 types m = Ok o ->
  NoDup (map fst (documented op)) ->
  (m_websocket m = true -> ~ In (SCode 101) (map fst (documented op))) ->
  NoDup (lit "new" :: lit "into_inner" :: map tm_name (mo_then_methods o)).
Proof.
  intros Hp Ho Hnd Hws. destruct (then_names _ _ _ Ho) as (-> & Hm).
  assert (Hst : NoDup (map o_status (m_responses m))).
  { destruct (responses_statuses _ _ _ _ _ _ _ _ _ Hp) as (extra & -> & _ & H2 & H101 & Hne & Hex).
    assert (Hdisj : forall s, In s (map fst (documented op)) -> ~ In s extra).
    { intros s Hs He. destruct (Hex s He) as [->| ->].
      - destruct H2 as [H2|H2]; auto.
      - apply Hws; auto. }
    clear - Hnd Hne Hdisj. induction Hnd as [|x l Hx Hl IH]; cbn; auto. constructor.
    - rewrite in_app_iff. intros [H|H]; auto. apply (Hdisj x); auto. now left.
    - apply IH. intros s Hs. apply Hdisj. now right. }
  rewrite Forall_forall in Hm.
  assert (Hnd' : NoDup (map name_of (map o_status (m_responses m)))).
  { apply NoDup_map_inj; auto. intros x y Hx Hy. apply name_of_inj; auto. }
  repeat constructor; auto.
  - intros [H|H]; [discriminate|]. apply in_map_iff in H as (s & E & Hs). exact (proj1 (name_of_fresh s (Hm s Hs)) E).
  - intro H. apply in_map_iff in H as (s & E & Hs). exact (proj2 (name_of_fresh s (Hm s Hs)) E).
Qed.

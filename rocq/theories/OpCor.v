(** Parameters and bodies of processed operations. *)
From Verif Require Import Base OasModel TemplateModel TemplateSpec TemplateProofs MethodModel OpModel RefSpec RefProofs
  ResponseSpec RequestSpec ParamSpec ParamProofs DocSpec DocProofs.
Local Open Scope N_scope.

Section Op.
Variables (snake pascal : str -> str) (ts : type_space).

Lemma process_param_stands oid p q : process_param snake pascal ts oid p = Ok q -> stands_for snake p q.
Proof.
  unfold process_param, stands_for, param_name. destruct p as [d []|d|d []|d]; cbn; intro H; try easy.
  - apply obind_ok in H as (s & _ & H). apply obind_ok in H as (t & _ & H).
    apply obind_ok in H as ([t' r] & Hr & H). injection H as <-. cbn. repeat split.
    exists r. split; auto. destruct (ts_details ts t) as [[]|]; try easy; injection Hr as <- <-; auto. easy.
  - apply obind_ok in H as (s & _ & H). apply obind_ok in H as (t & _ & H). injection H as <-. cbn. repeat split; eauto.
  - destruct (negb _); [easy|].
    apply obind_ok in H as (s & _ & H). apply obind_ok in H as (t & _ & H). injection H as <-. cbn. repeat split; eauto.
Qed.

Lemma stands_not_body p q : stands_for snake p q -> is_body q = false.
Proof.
  intros (_ & _ & _ & H). unfold is_body. destruct p; try easy.
  - destruct H as (r & -> & _). auto.
  - now rewrite H.
  - now rewrite H.
Qed.

Lemma filter_all {A} (f : A -> bool) l : Forall (fun x => f x = true) l -> filter f l = l.
Proof. induction 1 as [|a l H _ IH]; cbn; auto. now rewrite H, IH. Qed.

Lemma perm_filter {A} (f : A -> bool) l l' : Permutation l l' -> Permutation (filter f l) (filter f l').
Proof.
  induction 1; cbn; auto.
  - destruct (f x); auto.
  - destruct (f x), (f y); auto. constructor.
  - eauto using Permutation_trans.
Qed.

Lemma resolved_fun {A} (get : components -> list (str * ref_or A)) comps l a b :
  Forall2 (resolves get comps) l a -> Forall2 (resolves get comps) l b -> a = b.
Proof.
  intro H. revert b. induction H as [|r x l a Hr H IH]; intros b Hb; inversion Hb; subst; auto.
  f_equal; [eapply resolves_fun; eauto|auto].
Qed.

(** Exactly the effective parameters, each once. *)
Lemma effective_params op comps path method pp m pi ops :
  process_operation snake pascal ts op comps path method pp = Ok m ->
  Forall2 (resolves co_parameters comps) pp pi ->
  Forall2 (resolves co_parameters comps) (op_parameters op) ops ->
  exists ps qs, NoDup (map param_name ps) /\ (forall p, In p ps <-> effective pi ops p) /\
    Forall2 (stands_for snake) ps qs /\
    Permutation (filter (fun q => negb (is_body q)) (m_params m)) qs.
Proof.
  intros H Hpi Hops. destruct (process_operation_params _ _ _ _ _ _ _ _ _ H)
    as (oid & pi' & ops' & qs & body & _ & Hpi' & Hops' & Hqs & Hb & _ & Hs & Hpres & _).
  rewrite (resolved_fun _ _ _ _ _ Hpi' Hpi), (resolved_fun _ _ _ _ _ Hops' Hops) in Hqs.
  exists (map snd (combined pi ops)), qs. split; [apply combined_nodup|]. split; [apply combined_effective|].
  assert (Hst : Forall2 (stands_for snake) (map snd (combined pi ops)) qs).
  { eapply forall2_impl; [|exact Hqs]. intros a b. apply process_param_stands. }
  split; auto. apply (sort_params_sorted _ _ _ Hpres) in Hs as (Hperm & _).
  apply (perm_filter (fun q => negb (is_body q))) in Hperm. rewrite filter_app in Hperm.
  replace (filter _ qs) with qs in Hperm.
  2:{ symmetry. apply filter_all. clear -Hst. induction Hst as [|p q l l' Hpq _ IH]; constructor; auto.
      now rewrite (stands_not_body _ _ Hpq). }
  destruct body as [b|].
  - apply get_body_param_ok in Hb as (ct & Hk & _). cbn in Hperm. unfold is_body in Hperm at 2. rewrite Hk in Hperm.
    cbn in Hperm. now rewrite app_nil_r in Hperm.
  - cbn in Hperm. now rewrite app_nil_r in Hperm.
Qed.

(** By name and location, when no name is used at two locations. *)
Lemma effective_location pi ops p :
  (forall a b, In a (pi ++ ops) -> In b (pi ++ ops) -> param_name a = param_name b -> location a = location b) ->
  (effective_by_location pi ops p <-> effective pi ops p).
Proof.
  intro Hl.
  assert (Hex : forall l, In p (pi ++ ops) -> incl l (pi ++ ops) ->
    (Exists (same_param p) l <-> In (param_name p) (map param_name l))).
  { intros l Hp Hi. rewrite Exists_exists, in_map_iff. split.
    - intros (q & Hq & Hs & _). exists q. auto.
    - intros (q & E & Hq). exists q. split; auto. split; auto. }
  unfold effective_by_location, effective, last_of_location, last_of_name. split.
  - intros [(pre & post & -> & H)|((pre & post & -> & H) & H')].
    + left. exists pre, post. split; auto. rewrite <- Hex; auto.
      * rewrite !in_app_iff. cbn. auto.
      * intros x Hx. rewrite !in_app_iff. cbn. auto.
    + right. split; [exists pre, post; split; auto|]; rewrite <- Hex; auto;
        try (intros x Hx); rewrite !in_app_iff; cbn; auto.
  - intros [(pre & post & -> & H)|((pre & post & -> & H) & H')].
    + left. exists pre, post. split; auto. rewrite Hex; auto.
      * rewrite !in_app_iff. cbn. auto.
      * intros x Hx. rewrite !in_app_iff. cbn. auto.
    + right. split; [exists pre, post; split; auto|]; rewrite Hex; auto;
        try (intros x Hx); rewrite !in_app_iff; cbn; auto.
Qed.

Lemma effective_params_location op comps path method pp m pi ops :
  process_operation snake pascal ts op comps path method pp = Ok m ->
  Forall2 (resolves co_parameters comps) pp pi ->
  Forall2 (resolves co_parameters comps) (op_parameters op) ops ->
  (forall a b, In a (pi ++ ops) -> In b (pi ++ ops) -> param_name a = param_name b -> location a = location b) ->
  exists ps qs, NoDup (map param_name ps) /\ (forall p, In p ps <-> effective_by_location pi ops p) /\
    Forall2 (stands_for snake) ps qs /\
    Permutation (filter (fun q => negb (is_body q)) (m_params m)) qs.
Proof.
  intros H Hpi Hops Hl. destruct (effective_params _ _ _ _ _ _ _ _ H Hpi Hops) as (ps & qs & H1 & H2 & H3 & H4).
  exists ps, qs. repeat split; auto.
  - rewrite effective_location; auto. apply H2.
  - rewrite effective_location; auto. apply H2.
Qed.

(** Exactly: every parameter that counts by name and location is there if and only if no two of those that count
    share a name. *)
Lemma exists_same x l : Exists (same_param x) l \/ ~ Exists (same_param x) l.
Proof.
  induction l as [|b l IH]; [right; inversion 1|]. destruct IH as [IH|IH]; [left; now right|].
  destruct (str_eq_dec (param_name x) (param_name b)) as [E|E], (N.eq_dec (location x) (location b)) as [F|F];
    [left; left; split; assumption|right|right|right]; inversion 1 as [? ? (H1 & H2)|? ? H1]; subst; auto.
Qed.

Lemma last_same x l : Exists (same_param x) l -> exists y, In y l /\ same_param x y /\ last_of_location l y.
Proof.
  induction l as [|a l IH]; [inversion 1|]. intro H. destruct (exists_same x l) as [Hd|Hd].
  - destruct (IH Hd) as (y & Hy & Hs & pre & post & E & Hn). exists y. split; [now right|]. split; [exact Hs|].
    exists (a :: pre), post. split; [cbn; now f_equal|exact Hn].
  - inversion H as [? ? Hs|? ? Hs]; subst; [|easy]. exists a. split; [now left|]. split; [exact Hs|].
    exists [], l. split; [reflexivity|]. intro He. apply Hd. apply Exists_exists in He as (z & Hz & Hz1 & Hz2). apply Exists_exists.
    exists z. destruct Hs. split; [exact Hz|]. split; congruence.
Qed.

Lemma same_self l x : In x l -> Exists (same_param x) l.
Proof. intro H. apply Exists_exists. exists x. repeat split; auto. Qed.

Lemma last_more pre l y : last_of_location l y -> last_of_location (pre ++ l) y.
Proof. intros (a & b & -> & H). exists (pre ++ a), b. split; [now rewrite app_assoc|exact H]. Qed.

Lemma location_names pi ops :
  (forall a b, effective_by_location pi ops a -> effective_by_location pi ops b -> param_name a = param_name b -> location a = location b) ->
  forall p, effective_by_location pi ops p -> effective pi ops p.
Proof.
  intros Hu p Hp. pose proof Hp as Heff.
  assert (Hops : forall b, In b ops -> param_name p = param_name b -> exists y, In y ops /\ same_param b y /\ same_param p y).
  { intros b Hb E. destruct (last_same b ops (same_self _ _ Hb)) as (y & Hy & (S1 & S2) & Hl). exists y. split; [exact Hy|].
    split; [now split|]. split; [congruence|]. apply Hu; [exact Hp|now left|congruence]. }
  destruct Hp as [(pre & post & E & Hn)|((pre & post & E & Hn) & Ho)].
  - left. exists pre, post. split; [exact E|]. intro Hi. apply in_map_iff in Hi as (b & Eb & Hb).
    destruct (last_same b post (same_self _ _ Hb)) as (y & Hy & (S1 & S2) & Hl). apply Hn, Exists_exists. exists y. split; [exact Hy|].
    split; [congruence|]. apply Hu; [exact Heff| |congruence]. left. rewrite E. now apply last_more, (last_more [p]).
  - assert (Hno : ~ In (param_name p) (map param_name ops)).
    { intro Hi. apply in_map_iff in Hi as (b & Eb & Hb). destruct (Hops b Hb (eq_sym Eb)) as (y & Hy & _ & S). apply Ho, Exists_exists. eauto. }
    right. split; [|exact Hno]. exists pre, post. split; [exact E|]. intro Hi. apply in_map_iff in Hi as (b & Eb & Hb).
    destruct (last_same b post (same_self _ _ Hb)) as (y & Hy & (S1 & S2) & Hl). apply Hn, Exists_exists. exists y. split; [exact Hy|].
    split; [congruence|]. apply Hu; [exact Heff| |congruence]. right. split.
    + rewrite E. now apply last_more, (last_more [p]).
    + intro He. apply Exists_exists in He as (z & Hz & Hz1 & _). apply Hno. apply in_map_iff. exists z. split; [congruence|exact Hz].
Qed.

Lemma location_iff op comps path method pp m pi ops :
  process_operation snake pascal ts op comps path method pp = Ok m ->
  Forall2 (resolves co_parameters comps) pp pi ->
  Forall2 (resolves co_parameters comps) (op_parameters op) ops ->
  ((forall p, effective_by_location pi ops p -> exists q, In q (m_params m) /\ stands_for snake p q) <->
   (forall a b, effective_by_location pi ops a -> effective_by_location pi ops b -> param_name a = param_name b -> location a = location b)).
Proof.
  intros H Hpi Hops. destruct (effective_params _ _ _ _ _ _ _ _ H Hpi Hops) as (ps & qs & H1 & H2 & H3 & H4). split.
  - intros Hall a b Ha Hb E. destruct (Hall a Ha) as (qa & Hqa & Sa). destruct (Hall b Hb) as (qb & Hqb & Sb).
    assert (Hin : forall p q, In q (m_params m) -> stands_for snake p q -> In q qs).
    { intros p q Hq Hs. apply (Permutation_in q H4), filter_In. split; [exact Hq|]. now rewrite (stands_not_body _ _ Hs). }
    apply (Hin a) in Hqa; [|exact Sa]. apply (Hin b) in Hqb; [|exact Sb].
    assert (Hnd : NoDup (map p_api_name qs)).
    { replace (map p_api_name qs) with (map param_name ps); [exact H1|]. clear -H3. induction H3 as [|p q l l' (Hn & _) _ IH]; [reflexivity|]. cbn. now f_equal. }
    assert (qa = qb).
    { destruct Sa as (Na & _), Sb as (Nb & _). assert (En : p_api_name qa = p_api_name qb) by congruence. clear -Hnd Hqa Hqb En.
      induction qs as [|x l IH]; [easy|]. inversion Hnd as [|? ? Hn Hd]; subst. destruct Hqa as [->|Ha], Hqb as [->|Hb]; auto.
      - exfalso. apply Hn. rewrite En. now apply in_map.
      - exfalso. apply Hn. rewrite <- En. now apply in_map. }
    subst qb. destruct Sa as (_ & _ & _ & Ka), Sb as (_ & _ & _ & Kb).
    destruct a, b; cbn in *; auto; try (destruct Ka as (r & Ka & _)); try (destruct Kb as (r' & Kb & _)); congruence || easy.
  - intros Hu p Hp. apply (location_names _ _ Hu) in Hp. apply H2 in Hp.
    assert (Hq : exists q, In q qs /\ stands_for snake p q).
    { clear -H3 Hp. induction H3 as [|a q l l' Hs _ IH]; [easy|]. destruct Hp as [->|Hp]; [exists q; split; [now left|exact Hs]|].
      destruct (IH Hp) as (q' & Hq' & Hs'). exists q'. split; [now right|exact Hs']. }
    destruct Hq as (q & Hq & Hs). exists q. split; [|exact Hs]. apply (Permutation_in q (Permutation_sym H4)) in Hq. now apply filter_In in Hq.
Qed.

Lemma location_sound op comps path method pp m pi ops :
  process_operation snake pascal ts op comps path method pp = Ok m ->
  Forall2 (resolves co_parameters comps) pp pi ->
  Forall2 (resolves co_parameters comps) (op_parameters op) ops ->
  forall q, In q (m_params m) -> is_body q = false -> exists p, effective_by_location pi ops p /\ stands_for snake p q.
Proof.
  intros H Hpi Hops q Hq Hb. destruct (effective_params _ _ _ _ _ _ _ _ H Hpi Hops) as (ps & qs & _ & H2 & H3 & H4).
  assert (Hin : In q qs) by (apply (Permutation_in q H4), filter_In; split; [exact Hq|now rewrite Hb]).
  assert (Hp : exists p, In p ps /\ stands_for snake p q).
  { clear -H3 Hin. induction H3 as [|a x l l' Hs _ IH]; [easy|]. destruct Hin as [->|Hi]; [exists a; split; [now left|exact Hs]|].
    destruct (IH Hi) as (p & Hp & Hs'). exists p. split; [now right|exact Hs']. }
  destruct Hp as (p & Hp & Hs). exists p. split; [|exact Hs]. apply H2 in Hp.
  destruct Hp as [(pre & post & E & Hn)|((pre & post & E & Hn) & Ho)]; [left|right; split]; try (exists pre, post; split; [exact E|]);
    intro He; apply Exists_exists in He as (z & Hz & Hz1 & _); [apply Hn|apply Hn|apply Ho]; rewrite Hz1; now apply in_map.
Qed.

(** Order. *)
Lemma params_in_order op comps ps method pp m :
  strict ps -> process_operation snake pascal ts op comps (show ps) method pp = Ok m ->
  StronglySorted (precedes (vars ps)) (m_params m).
Proof.
  intros Hst H. destruct (process_operation_params _ _ _ _ _ _ _ _ _ H)
    as (oid & pi' & ops' & qs & body & _ & Hpi' & Hops' & Hqs & Hb & Hp & Hs & Hpres & _).
  apply (sort_params_sorted _ _ _ Hpres) in Hs as (_ & Hs).
  rewrite (parse_names ps) in Hs; auto. now apply strict_lax.
Qed.

Lemma forall2_perm {A B} (P : A -> B -> Prop) l l' r : Permutation l l' -> Forall2 P l r ->
  exists r', Permutation r r' /\ Forall2 P l' r'.
Proof.
  intro Hp; revert r; induction Hp as [|x l l' Hp IH|x y l|l l' l'' Hp1 IH1 Hp2 IH2]; intros r H.
  - inversion H; subst. exists []. auto.
  - inversion H as [|? y ? r0 Hxy Hr0]; subst. destruct (IH _ Hr0) as (r' & Hr & HF). exists (y :: r'). auto.
  - inversion H as [|? y1 ? r0 H1 Hr0]; subst. inversion Hr0 as [|? y2 ? r1 H2 Hr1]; subst.
    exists (y2 :: y1 :: r1). split; [constructor|]. auto.
  - destruct (IH1 _ H) as (r1 & Hr1 & HF1). destruct (IH2 _ HF1) as (r2 & Hr2 & HF2).
    exists r2. split; auto. eauto using Permutation_trans.
Qed.

Lemma order_independent op comps path method pp m pi ops l' pp' :
  process_operation snake pascal ts op comps path method pp = Ok m ->
  Forall2 (resolves co_parameters comps) pp pi ->
  Forall2 (resolves co_parameters comps) (op_parameters op) ops ->
  NoDup (map param_name pi) -> NoDup (map param_name ops) ->
  Permutation (op_parameters op) l' -> Permutation pp pp' ->
  process_operation snake pascal ts (with_parameters op l') comps path method pp' = Ok m.
Proof.
  intros H Hpi Hops Npi Nops Hl Hpp.
  destruct (forall2_perm _ _ _ _ Hpp Hpi) as (pi' & Ppi & Hpi').
  destruct (forall2_perm _ _ _ _ Hl Hops) as (ops' & Pops & Hops').
  assert (Hitems : forall refs xs, Forall2 (resolves co_parameters comps) refs xs ->
    items co_parameters refs comps = Ok xs).
  { intros refs xs HF. unfold items. apply mapM_ok_iff. eapply forall2_impl; [|exact HF].
    intros a b Hab. now apply item_ok_iff. }
  pose proof (combined_perm pi ops pi' ops' Ppi Pops Npi Nops) as E. unfold combined in E.
  unfold process_operation in *. cbn [op_id with_parameters op_parameters op_extensions op_request_body op_tags op_summary op_description].
  destruct (op_id op) as [oid|]; [|easy]. unfold parameter_map in *.
  rewrite (Hitems _ _ Hpi), (Hitems _ _ Hops) in H. rewrite (Hitems _ _ Hpi'), (Hitems _ _ Hops').
  cbn [obind] in *. rewrite <- E. exact H.
Qed.

(** The body parameter and its documented media type. *)
Lemma body_documented op comps path method pp m p ct :
  process_operation snake pascal ts op comps path method pp = Ok m ->
  In p (m_params m) -> p_kind p = KBody ct ->
  exists r b cs mt, op_request_body op = Some r /\ resolves co_request_bodies comps r b /\
    rb_content b = [(cs, mt)] /\ names_media cs (media_of ct).
Proof.
  intros H Hp Hk. destruct (process_operation_params _ _ _ _ _ _ _ _ _ H)
    as (oid & pi' & ops' & qs & body & _ & Hpi' & Hops' & Hqs & Hb & _ & Hs & Hpres & _).
  apply (sort_params_sorted _ _ _ Hpres) in Hs as (Hperm & _).
  assert (Hi : In p (qs ++ match body with Some b => [b] | None => [] end)) by (eapply Permutation_in; eauto).
  apply in_app_iff in Hi as [Hi|Hi].
  - exfalso. clear -Hqs Hi Hk. induction Hqs as [|a q l l' Haq _ IH]; [easy|]. destruct Hi as [->|Hi]; auto.
    apply process_param_stands, stands_not_body in Haq. unfold is_body in Haq. now rewrite Hk in Haq.
  - destruct body as [b|]; [|easy]. destruct Hi as [->|[]].
    unfold get_body_param in Hb. destruct (op_request_body op) as [r|]; [|easy].
    apply obind_ok in Hb as (b & Hit & Hb). apply item_ok_iff in Hit.
    destruct (rb_content b) as [|[cs mt] [|]] eqn:Ec; try easy. exists r, b, cs, mt. repeat split; auto;
    destruct (mt_schema mt); try easy; apply obind_ok in Hb as (ct' & Hct & Hb);
    apply obind_ok in Hb as (typ & _ & Hb); injection Hb as <-; cbn in Hk; injection Hk as ->;
    apply body_content_type_iff in Hct as (t & Hn & Hm); apply media_type_of_media in Hm; subst t; apply Hn.
Qed.

Lemma plain_string_iff fmt f s : (forall g, fmt g = true <-> g = f) -> (plain_string fmt s = true <-> bare_string f s).
Proof.
  intro Hf. unfold plain_string, bare_string. destruct s as [[n ro wo de ex ti des di df es] k].
  cbn [s_data s_kind sd_nullable sd_discriminator sd_default]. rewrite !andb_true_iff, !negb_true_iff.
  split.
  - intros (((Hn & Hd) & Hdf) & Hk). destruct df; [easy|]. repeat split; auto. destruct k; try easy.
    destruct t as [fo pa en mi ma]. cbn in Hk. rewrite !andb_true_iff in Hk. destruct Hk as ((((H1 & H2) & H3) & H4) & H5).
    apply Hf in H1. subst fo. destruct pa, en, mi, ma; (discriminate||reflexivity).
  - intros (-> & -> & -> & ->). cbn. now rewrite (proj2 (Hf f) eq_refl).
Qed.

(** A documented body becomes a parameter. *)
Lemma body_parameter op comps path method pp m oid r b :
  process_operation snake pascal ts op comps path method pp = Ok m -> op_id op = Some oid ->
  op_request_body op = Some r -> resolves co_request_bodies comps r b -> rb_content b <> [] ->
  exists cs mt ct p, rb_content b = [(cs, mt)] /\ names_media cs (media_of ct) /\ In p (m_params m) /\
    p_kind p = KBody ct /\ p_description p = rb_description b /\ body_typed ts comps (pascal (oid ++ lit "-body")) ct mt (p_typ p).
Proof.
  intros H Ho Hr Hres Hc. destruct (process_operation_params _ _ _ _ _ _ _ _ _ H)
    as (oid' & pi' & ops' & qs & body & Ho' & Hpi' & Hops' & Hqs & Hb & _ & Hs & Hpres & _).
  assert (oid' = oid) by congruence. subst oid'.
  apply (sort_params_sorted _ _ _ Hpres) in Hs as (Hperm & _).
  unfold get_body_param in Hb. rewrite Hr in Hb. apply obind_ok in Hb as (b' & Hit & Hb). apply item_ok_iff in Hit.
  rewrite (resolves_fun _ _ _ _ _ Hit Hres) in Hb.
  destruct (rb_content b) as [|[cs mt] [|]] eqn:Ec; [easy| |discriminate].
  destruct (mt_schema mt) as [sch|] eqn:Es; [|discriminate].
  apply obind_ok in Hb as (ct & Hct & Hb). apply obind_ok in Hb as (typ & Ht & Hb). injection Hb as <-.
  exists cs, mt, ct. eexists. split; [reflexivity|]. split.
  { apply body_content_type_iff in Hct as (t & Hn & Hm). apply media_type_of_media in Hm. subst t. exact Hn. }
  split; [eapply Permutation_in; [apply Permutation_sym; exact Hperm|]; apply in_app_iff; right; now left|].
  split; [reflexivity|]. split; [reflexivity|]. cbn [p_typ].
  destruct ct as [| | |mime].
  1: { apply obind_ok in Ht as (s & Hs & Ht). apply item_ok_iff in Hs.
       destruct (plain_string is_binary_format s) eqn:E; [|discriminate]. injection Ht as <-.
       apply (plain_string_iff _ (VItem SfBinary)) in E; [|intros [[]|?|]; split; intro G; (discriminate||reflexivity)].
       exact (bt_octets _ _ _ _ _ _ Es Hs E). }
  3: { apply obind_ok in Ht as (s & Hs & Ht). apply item_ok_iff in Hs.
       destruct (plain_string is_empty_format s) eqn:E; [|discriminate]. injection Ht as <-.
       apply (plain_string_iff _ VEmpty) in E; [|intros [[]|?|]; split; intro G; (discriminate||reflexivity)].
       exact (bt_text _ _ _ _ _ _ _ Es Hs E). }
  all: destruct (mt_encoding_empty mt) eqn:Ee; cbn [negb] in Ht; [|discriminate];
       apply obind_ok in Ht as (t & Ha & Ht); injection Ht as <-.
  - exact (bt_json _ _ _ _ _ _ Es Ee Ha).
  - exact (bt_form _ _ _ _ _ _ Es Ee Ha).
Qed.

Lemma no_body_documented op comps path method pp m :
  process_operation snake pascal ts op comps path method pp = Ok m ->
  (op_request_body op = None \/
   exists r b, op_request_body op = Some r /\ resolves co_request_bodies comps r b /\ rb_content b = []) ->
  Forall (fun p => is_body p = false) (m_params m).
Proof.
  intros H Hn. apply Forall_forall. intros p Hp. unfold is_body. destruct (p_kind p) eqn:Hk; auto.
  destruct (body_documented _ _ _ _ _ _ _ _ H Hp Hk) as (r & b & cs & mt & Hr & Hb & Hc & _).
  destruct Hn as [Hn|(r' & b' & Hr' & Hb' & Hc')]; [congruence|].
  assert (r = r') by congruence. subst. rewrite (resolves_fun _ _ _ _ _ Hb Hb') in Hc. congruence.
Qed.

(** At most one body. *)
Lemma one_body op comps path method pp m :
  process_operation snake pascal ts op comps path method pp = Ok m ->
  (length (filter is_body (m_params m)) <= 1)%nat.
Proof.
  intros H. destruct (process_operation_params _ _ _ _ _ _ _ _ _ H)
    as (oid & pi' & ops' & qs & body & _ & Hpi' & Hops' & Hqs & Hb & _ & Hs & Hpres & _).
  apply (sort_params_sorted _ _ _ Hpres) in Hs as (Hperm & _).
  apply (perm_filter is_body), Permutation_length in Hperm. rewrite Hperm, filter_app, app_length.
  replace (filter is_body qs) with (@nil op_param).
  - cbn. destruct body; cbn; [destruct (is_body o); cbn|]; lia.
  - symmetry. clear -Hqs. induction Hqs as [|a q l l' Haq _ IH]; auto. cbn.
    apply process_param_stands, stands_not_body in Haq. now rewrite Haq.
Qed.
End Op.

(** A generator with a state does what the generator of GenerateModel.v does with the type space that it ends up with. *)
From Coq Require Import Sorted.
From Verif Require Import Base OasModel TemplateModel MethodModel OpModel BuilderModel ToSchemaModel TypesModel TypesSpec TypesProofs
  RefSpec RefProofs ResponseSpec ResponseProofs ParamSpec ParamProofs DocSpec DocProofs OpCor SanitizeModel
  GenerateModel GenerateSpec GenerateProofs SupportSpec SupportProofs ValidateProofs GeneratorModel GeneratorSpec.
Local Open Scope N_scope.

Section Machine.
Context {S : Type}.
Variable U : unicode.
Variable tm : typify_machine S.

Local Notation run := (@run S).
Local Notation later := (later tm).
Local Notation asked := (asked tm).
Local Notation final s := (space_of (frozen tm s)).

Lemma later_trans s1 s2 s3 : later s1 s2 -> later s2 s3 -> later s1 s3.
Proof. induction 1; auto. intro. econstructor; eauto. Qed.

Lemma asked_later s ws ts s' : asked s ws ts s' -> later s s'.
Proof. induction 1; [constructor|]. econstructor; eauto. Qed.

Lemma asked_app s ws ts s1 ws' ts' s2 : asked s ws ts s1 -> asked s1 ws' ts' s2 -> asked s (ws ++ ws') (ts ++ ts') s2.
Proof. induction 1; auto. intro. cbn. econstructor; eauto. Qed.

Lemma asked_known s ws ts s' : remembers tm -> asked s ws ts s' -> forall t, In t ts -> tm_details tm s' t <> None.
Proof.
  intros R. induction 1 as [|s n sch j t s1 ws ts s2 _ _ Ha H IH]; [easy|]. intros t' [->|Hin]; [|auto].
  pose proof (rm_known _ R _ _ _ _ _ Ha) as Hk. destruct (tm_details tm s1 t') as [x|] eqn:E; [|easy].
  rewrite (rm_stays _ R _ _ _ _ E (asked_later _ _ _ _ H)). discriminate.
Qed.

(** ** Simulation *)

(** [x] does with the generator what [p] does with the type space it ends up with, asking for types as [Q] says. *)
Definition sim {A} (x : run A) (p : type_space -> outcome A) (Q : A -> list (str * ref_or schema) -> list type_id -> Prop) : Prop :=
  forall g a g', x g = (Ok a, g') -> exists ws ts, asked (gr_space g) ws ts (gr_space g') /\ Q a ws ts
    /\ (remembers tm -> forall sf, later (gr_space g') sf -> p (final sf) = Ok a).

Lemma rbind_ok {A B} (x : run A) (f : A -> run B) g b g2 :
  rbind x f g = (Ok b, g2) -> exists a g1, x g = (Ok a, g1) /\ f a g1 = (Ok b, g2).
Proof. unfold rbind. destruct (x g) as [[a|e|m] g1]; [|discriminate|discriminate]. eauto. Qed.

Lemma sim_weaken {A} (x : run A) p (Q R : A -> list (str * ref_or schema) -> list type_id -> Prop) :
  sim x p Q -> (forall a ws ts, Q a ws ts -> R a ws ts) -> sim x p R.
Proof. intros H I g a g' E. destruct (H g a g' E) as (ws & ts & ? & ? & ?). exists ws, ts. auto. Qed.

Lemma sim_bind {A B} (x : run A) p Q (f : A -> run B) h R (T : B -> list (str * ref_or schema) -> list type_id -> Prop) :
  sim x p Q -> (forall a, sim (f a) (h a) (R a)) ->
  (forall a b ws ts ws' ts', Q a ws ts -> R a b ws' ts' -> T b (ws ++ ws') (ts ++ ts')) ->
  sim (rbind x f) (fun s => do a <- p s; h a s) T.
Proof.
  intros Hx Hf HT g b g2 E. apply rbind_ok in E as (a & g1 & E1 & E2).
  destruct (Hx _ _ _ E1) as (ws & ts & Ha & HQ & Hp). destruct (Hf a _ _ _ E2) as (ws' & ts' & Ha' & HR & Hp').
  exists (ws ++ ws'), (ts ++ ts'). split; [now apply asked_app with (gr_space g1)|]. split; [eauto|].
  intros R0 sf Hl. rewrite Hp; auto; [cbn; auto|]. now apply later_trans with (gr_space g2); [apply asked_later in Ha'|].
Qed.

Definition nothing {A} (P : A -> Prop) (a : A) (ws : list (str * ref_or schema)) (ts : list type_id) : Prop :=
  P a /\ ws = [] /\ ts = [].

Lemma sim_pure {A} (x : outcome A) : sim (pure x) (fun _ => x) (nothing (fun a => x = Ok a)).
Proof. intros g a g' [= -> <-]. exists [], []. split; [constructor|]. split; [easy|auto]. Qed.

(** A first step that does not touch the generator. *)
Lemma sim_first {A B} (x : outcome A) (f : A -> run B) h T :
  (forall a, x = Ok a -> sim (f a) (h a) T) -> sim (rbind (pure x) f) (fun s => do a <- x; h a s) T.
Proof.
  intros Hf g b g2 E. apply rbind_ok in E as (a & g1 & E1 & E2). injection E1 as -> <-.
  exact (Hf a eq_refl _ _ _ E2).
Qed.

(** A last step that does not. *)
Lemma sim_last {A B} (x : run A) p Q (f : A -> outcome B) (T : B -> list (str * ref_or schema) -> list type_id -> Prop) :
  sim x p Q -> (forall a b ws ts, Q a ws ts -> f a = Ok b -> T b ws ts) ->
  sim (rbind x (fun a => pure (f a))) (fun s => do a <- p s; f a) T.
Proof.
  intros Hx HT. apply (sim_bind x p Q (fun a => pure (f a)) (fun a _ => f a) (fun a => nothing (fun b => f a = Ok b))); auto.
  - intro a. apply sim_pure.
  - intros a b ws ts ws' ts' HQ (E & -> & ->). rewrite !app_nil_r. eauto.
Qed.

Lemma sim_ask sch n : sim (ask tm sch n) (fun s => ts_add s sch n) (fun t ws ts => ws = [(n, sch)] /\ ts = [t]).
Proof.
  intros g t g' E. unfold ask in E. apply rbind_ok in E as (j & g1 & Ej & E). injection Ej as Ej <-.
  destruct (tm_add tm (gr_space g) j n) as [t' s] eqn:Ea. injection E as -> <-. cbn [gr_space].
  exists [(n, sch)], [t]. split; [|split; [easy|]].
  - apply asked_cons with j s; auto; [apply to_schema_convertible; eauto|now apply to_schema_translated|constructor].
  - intros R sf Hl. cbn. rewrite Ej. cbn. exact (rm_same _ R _ _ _ _ _ _ Ea Hl).
Qed.

Inductive each {A B} (Q : A -> B -> list (str * ref_or schema) -> list type_id -> Prop) :
  list A -> list B -> list (str * ref_or schema) -> list type_id -> Prop :=
| each_nil : each Q [] [] [] []
| each_cons a b ws ts la lb ws' ts' : Q a b ws ts -> each Q la lb ws' ts' -> each Q (a :: la) (b :: lb) (ws ++ ws') (ts ++ ts').

Lemma sim_map {A B} (f : A -> run B) h Q l :
  (forall a, In a l -> sim (f a) (h a) (Q a)) -> sim (mapR f l) (fun s => mapM (fun a => h a s) l) (each Q l).
Proof.
  induction l as [|a l IH]; intro H; cbn [mapR mapM].
  - eapply sim_weaken; [apply sim_pure|]. intros b ws ts (E & -> & ->). injection E as <-. constructor.
  - eapply sim_bind; [apply H; now left| |].
    + intro b. apply sim_last with (Q := each Q l); [apply IH; intros; apply H; now right|].
      instantiate (1 := fun b bs ws ts => exists bs', bs = b :: bs' /\ each Q l bs' ws ts). cbn.
      intros bs bs2 ws ts He E. injection E as <-. eauto.
    + intros b bs ws ts ws' ts' HQ (bs' & -> & He). now constructor.
Qed.

(** ** The steps *)

Lemma param_sim oid p : sim (param_r U tm oid p)
  (fun s => process_param (fun x => sanitize U x Snake) (fun x => sanitize U x Pascal) s oid p)
  (fun _ ws ts => exists w, of_parameter U oid p w /\ ws = [w]).
Proof.
  destruct p as [d []|d|d []|d]; cbn [param_r process_param]; cbv zeta;
    try (eapply sim_weaken; [apply sim_pure|intros a ws ts (E & _); discriminate E]).
  - apply sim_first. intros s Es g q g' E. apply rbind_ok in E as (t & g1 & Ea & E).
    destruct (sim_ask _ _ _ _ _ Ea) as (ws & ts & Hk & (-> & ->) & Hp).
    assert (Hex : exists w, of_parameter U oid (ParQuery d QsForm) w /\ [(sanitize U (oid ++ lit "-" ++ pd_name d) Pascal, s)] = [w]).
    { eexists. split; [|reflexivity]. split; [reflexivity|]. unfold param_schema in Es. cbn. destruct (pd_schema d); congruence. }
    destruct (tm_details tm (gr_space g1) t) as [x|] eqn:Ed; [|discriminate E].
    assert (g' = g1) by (destruct x; injection E; auto). subst g'.
    eexists _, _. split; [exact Hk|]. split; [exact Hex|]. intros R sf Hl. rewrite (Hp R sf Hl). cbn [obind ts_details space_of frozen ty_details].
    rewrite (rm_stays _ R _ _ _ _ Ed Hl). destruct x; cbn [obind]; congruence.
  - apply sim_first. intros s Es. eapply sim_last; [apply sim_ask|]. cbn. intros t q ws ts (-> & _) _.
    eexists. split; [|reflexivity]. split; [reflexivity|]. unfold param_schema in Es. cbn. destruct (pd_schema d); congruence.
  - destruct (negb (pd_required d)); [eapply sim_weaken; [apply sim_pure|intros a ws ts (E & _); discriminate E]|].
    apply sim_first. intros s Es. eapply sim_last; [apply sim_ask|]. cbn. intros t q ws ts (-> & _) _.
    eexists. split; [|reflexivity]. split; [reflexivity|]. unfold param_schema in Es. cbn. destruct (pd_schema d); congruence.
Qed.

Lemma body_sim oid body comps : sim (body_r U tm oid body comps)
  (fun s => get_body_param (fun x => sanitize U x Pascal) s oid body comps)
  (fun _ ws ts => of_body U comps oid body ws).
Proof.
  destruct body as [r|]; cbn [body_r get_body_param].
  2: { eapply sim_weaken; [apply sim_pure|]. intros a ws ts (_ & -> & _). constructor. }
  apply sim_first. intros b Hb. apply item_ok_iff in Hb.
  destruct (rb_content b) as [|[cs mt] [|]] eqn:Ec.
  - eapply sim_weaken; [apply sim_pure|]. intros a ws ts (_ & -> & _). now apply ob_empty with b.
  - destruct (mt_schema mt) as [sch|] eqn:Es; [|eapply sim_weaken; [apply sim_pure|intros a ws ts (E & _); discriminate E]].
    apply sim_first. intros ct Hct. apply body_content_type_iff in Hct as (name & Hn & Hm).
    eapply sim_last with (Q := fun _ ws _ => of_body U comps oid (Some r) ws); [|auto].
    destruct ct as [| | |mime].
    + eapply sim_weaken; [apply sim_pure|]. intros a ws ts (_ & -> & _). now apply ob_raw with b cs name mt OctetStream.
    + destruct (negb (mt_encoding_empty mt)); [eapply sim_weaken; [apply sim_pure|intros a ws ts (E & _); discriminate E]|].
      eapply sim_last; [apply sim_ask|]. cbn. intros t q ws ts (-> & _) _. apply ob_typed with b cs name mt Json; auto.
    + destruct (negb (mt_encoding_empty mt)); [eapply sim_weaken; [apply sim_pure|intros a ws ts (E & _); discriminate E]|].
      eapply sim_last; [apply sim_ask|]. cbn. intros t q ws ts (-> & _) _. apply ob_typed with b cs name mt FormUrlencoded; auto.
    + eapply sim_weaken; [apply sim_pure|]. intros a ws ts (_ & -> & _). now apply ob_raw with b cs name mt (Text mime).
  - eapply sim_weaken; [apply sim_pure|intros a ws ts (E & _); discriminate E].
Qed.

Lemma response_sim oid websocket comps v : sim (response_r U tm oid websocket comps v)
  (fun s => process_response (fun x => sanitize U x Pascal) s oid websocket comps v)
  (fun o ws ts => of_response U comps oid (snd v) ws /\ forall t, o_typ o = RType t -> In t ts).
Proof.
  unfold response_r, process_response. apply sim_first. intros doc Hd. apply item_ok_iff in Hd.
  eapply sim_last with (Q := fun k ws ts => of_response U comps oid (snd v) ws /\ forall t, k = RType t -> In t ts).
  2: { cbn. intros k o ws ts (H1 & H2) E. injection E as <-. auto. }
  pose proof (find_split (fun xm => is_json_name (fst xm)) (rd_content doc)) as Hf.
  destruct (find (fun xm => is_json_name (fst xm)) (rd_content doc)) as [[n mt]|].
  - destruct Hf as (pre & post & Ec & Hpre & Hn).
    destruct (negb (mt_encoding_empty mt)); [eapply sim_weaken; [apply sim_pure|intros a ws ts (E & _); discriminate E]|].
    destruct (mt_schema mt) as [sch|] eqn:Es; [|eapply sim_weaken; [apply sim_pure|intros a ws ts (E & _); discriminate E]].
    eapply sim_last; [apply sim_ask|]. cbn. intros t k ws ts (-> & ->) E. injection E as <-. split.
    + apply or_typed with doc pre n mt post; auto; [now apply not_json_iff|now apply is_json_name_iff in Hn].
    + intros t' E. injection E as ->. now left.
  - eapply sim_weaken; [apply sim_pure|]. intros k ws ts (E & -> & ->). split.
    + apply or_other with doc; auto. now apply not_json_iff.
    + intros t ->. destruct websocket; [discriminate E|]. destruct (rd_content doc); discriminate E.
Qed.

Lemma responses_sim oid websocket comps op : sim (responses_r U tm oid websocket comps op)
  (fun s => process_responses (fun x => sanitize U x Pascal) s oid websocket comps op)
  (fun rs ws ts => (exists wrs, Forall2 (of_response U comps oid)
       (match op_default op with Some r => [r] | None => [] end ++ map snd (op_responses op)) wrs /\ ws = concat wrs)
     /\ forall o t, In o rs -> o_typ o = RType t -> In t ts).
Proof.
  unfold responses_r, process_responses. eapply sim_last.
  - apply (sim_map (response_r U tm oid websocket comps)
      (fun v s => process_response (fun x => sanitize U x Pascal) s oid websocket comps v)
      (fun v o ws ts => of_response U comps oid (snd v) ws /\ forall t, o_typ o = RType t -> In t ts)).
    intros. apply response_sim.
  - cbv zeta. intros rs rs' ws ts H E. injection E as <-. split.
    + assert (Es : match op_default op with Some r => [r] | None => [] end ++ map snd (op_responses op) = map snd (documented op)).
      { unfold documented. rewrite map_app, map_map. cbn. destruct (op_default op); reflexivity. }
      rewrite Es. clear -H. induction H as [|v o ws ts la lb ws' ts' (Hr & _) _ (wrs & Hf & ->)]; [exists []; split; [constructor|reflexivity]|].
      exists (ws :: wrs). split; [now constructor|reflexivity].
    + intros o t Ho Ht. apply in_app_iff in Ho as [Ho|Ho].
      * clear -H Ho Ht. induction H as [|v o' ws ts la lb ws' ts' (_ & Hr) _ IH]; [easy|]. apply in_app_iff.
        destruct Ho as [->|Ho]; auto.
      * apply in_app_iff in Ho as [Ho|Ho].
        -- destruct (existsb _ rs); [easy|]. destruct Ho as [<-|[]]. discriminate Ht.
        -- destruct websocket; [|easy]. destruct Ho as [<-|[]]. discriminate Ht.
Qed.

(** Pagination looks at the types of the answers and at those inside. *)
Lemma pagination_same (d1 d2 : type_id -> option type_details) add1 add2 ext ps rs :
  (forall t x, d1 t = Some x -> d2 t = Some x) -> (forall t x i, d1 t = Some x -> inside x i -> d1 i <> None) ->
  (forall o t, In o rs -> o_typ o = RType t -> d1 t <> None) ->
  dropshot_pagination_data (TypeSpace add1 d1) ext ps rs = dropshot_pagination_data (TypeSpace add2 d2) ext ps rs.
Proof.
  intros Hm Hi Hk. unfold dropshot_pagination_data. destruct (assoc _ ext) as [v|]; [|reflexivity].
  destruct (negb _); [reflexivity|]. destruct (negb _); [reflexivity|]. destruct (existsb _ ps); [reflexivity|].
  set (l := flat_map _ rs). assert (Hl : forall t, In t l -> d1 t <> None).
  { intros t Ht. apply in_flat_map in Ht as (o & Ho & Ht). apply (Hk o t Ho).
    destruct (o_status o) as [c|c|], (o_typ o) as [t'| | |]; try easy.
    - destruct (_ && _); [|easy]. destruct Ht as [->|[]]. reflexivity.
    - destruct (c =? 2); [|easy]. destruct Ht as [->|[]]. reflexivity. }
  destruct l as [|t [|? ?]]; try reflexivity. cbn [ts_details].
  destruct (d1 t) as [x|] eqn:E; [|elim (Hl t); [now left|exact E]]. rewrite (Hm _ _ E).
  destruct x as [i| |i|props|]; try reflexivity. cbv zeta.
  assert (Ha : forall n i, assoc n (bt_inserts props []) = Some i -> d1 i <> None).
  { intros n i Hn. rewrite bt_inserts_assoc in Hn by constructor. cbn [assoc] in Hn.
    destruct (assoc_last n props) as [i'|] eqn:El; [|discriminate]. injection Hn as ->. apply assoc_last_In in El.
    apply (Hi _ _ _ E). cbn. apply in_map_iff. exists (n, i). auto. }
  destruct (negb _); [reflexivity|]. destruct (assoc (lit "next_page") _) as [np|] eqn:En; [|reflexivity].
  destruct (d1 np) as [x|] eqn:Ex; [|elim (Ha _ _ En Ex)]. rewrite (Hm _ _ Ex). destruct x as [o| |i|pr|]; try reflexivity.
  pose proof (Hi _ _ o Ex eq_refl) as Ho. destruct (d1 o) as [x|] eqn:Eo; [|easy]. rewrite (Hm _ _ Eo). destruct x; try reflexivity.
  destruct (assoc (lit "items") _) as [it|] eqn:Ei; [|reflexivity].
  destruct (d1 it) as [x|] eqn:Ex2; [|elim (Ha _ _ Ei Ex2)]. now rewrite (Hm _ _ Ex2).
Qed.

(** ** The flags *)

Definition plain {A} (x : run A) : Prop := forall g a g', x g = (Ok a, g') ->
  gr_futures g' = gr_futures g /\ gr_websockets g' = gr_websockets g.

Lemma plain_pure {A} (x : outcome A) : plain (pure x).
Proof. intros g a g' E. injection E as _ <-. auto. Qed.

Lemma plain_bind {A B} (x : run A) (f : A -> run B) : plain x -> (forall a, plain (f a)) -> plain (rbind x f).
Proof.
  intros Hx Hf g b g2 E. apply rbind_ok in E as (a & g1 & E1 & E2). destruct (Hx _ _ _ E1), (Hf _ _ _ _ E2). split; congruence.
Qed.

Lemma plain_map {A B} (f : A -> run B) l : (forall a, plain (f a)) -> plain (mapR f l).
Proof.
  intro H. induction l as [|a l IH]; cbn [mapR]; [apply plain_pure|]. apply plain_bind; [apply H|]. intro b.
  apply plain_bind; [apply IH|]. intro. apply plain_pure.
Qed.

Lemma plain_ask sch n : plain (ask tm sch n).
Proof.
  apply plain_bind; [apply plain_pure|]. intros j g t g' E. destruct (tm_add tm (gr_space g) j n) as [t' s]. injection E as _ <-. auto.
Qed.

Local Ltac plain_tac := repeat first [apply plain_pure | apply plain_ask | apply plain_bind; [|intro]].

Lemma plain_param oid p : plain (param_r U tm oid p).
Proof.
  destruct p as [d []|d|d []|d]; cbn [param_r]; cbv zeta; try (destruct (negb (pd_required d))); plain_tac.
  all: intros g q g' E; destruct (tm_details tm (gr_space g) _) as [[]|]; (discriminate E || (injection E as _ <-; auto)).
Qed.

Lemma plain_body oid body comps : plain (body_r U tm oid body comps).
Proof.
  destruct body as [r|]; cbn [body_r]; plain_tac. destruct (rb_content _) as [|[cs mt] [|]]; plain_tac.
  destruct (mt_schema mt); plain_tac. destruct a0; try (destruct (negb (mt_encoding_empty mt))); plain_tac.
Qed.

Lemma plain_responses oid websocket comps op : plain (responses_r U tm oid websocket comps op).
Proof.
  unfold responses_r. plain_tac. apply plain_map. intro v. unfold response_r. plain_tac.
  destruct (find _ _) as [[n mt]|]; [|plain_tac]. destruct (negb _); [plain_tac|]. destruct (mt_schema mt); plain_tac.
Qed.

(** ** An operation *)

Lemma operation_done e d g m g' :
  operation_r U tm (do_op e) (oa_components d) (do_path e) (http_method_str (do_method e)) (do_params e) g = (Ok m, g') ->
  (exists ws ts, asked (gr_space g) ws ts (gr_space g') /\ needs U d e ws)
  /\ (remembers tm -> forall sf, later (gr_space g') sf -> processed U (final sf) d e m)
  /\ gr_futures g' = gr_futures g /\ gr_websockets g' = gr_websockets g || m_websocket m
  /\ (m_websocket m = true <-> assoc (lit "x-dropshot-websocket") (op_extensions (do_op e)) <> None).
Proof.
  unfold operation_r. destruct (op_id (do_op e)) as [oid|] eqn:Eid; [|discriminate]. cbv zeta. intro E.
  apply rbind_ok in E as (m0 & g1 & Em0 & E). injection Em0 as Em0 <-.
  apply rbind_ok in E as (ops & g1 & Eops & E). injection Eops as Eops <-.
  apply rbind_ok in E as (params & g1 & Epar & E).
  apply rbind_ok in E as ([] & g2 & Ews & E). injection Ews as Ews.
  apply rbind_ok in E as (body & g3 & Ebody & E).
  apply rbind_ok in E as (tmp & g4 & Etmp & E). injection Etmp as Etmp <-.
  apply rbind_ok in E as (params' & g4 & Epar' & E). injection Epar' as Epar' <-.
  apply rbind_ok in E as (rs & g4 & Ers & E).
  set (websocket := match assoc (lit "x-dropshot-websocket") _ with Some _ => true | None => false end) in *.
  assert (Hsp : gr_space g2 = gr_space g1) by (subst g2; destruct websocket; reflexivity).
  assert (Hpm := fun l => sim_map (param_r U tm oid)
    (fun p s => process_param (fun x => sanitize U x Snake) (fun x => sanitize U x Pascal) s oid p)
    (fun p _ ws ts => exists w, of_parameter U oid p w /\ ws = [w]) l (fun p _ => param_sim oid p)).
  destruct (Hpm _ _ _ _ Epar) as (w1 & t1 & A1 & Q1 & P1). clear Hpm.
  destruct (body_sim _ _ _ _ _ _ Ebody) as (w2 & t2 & A2 & Q2 & P2).
  destruct (responses_sim _ _ _ _ _ _ _ Ers) as (w3 & t3 & A3 & (Q3 & K3) & P3).
  destruct (plain_map _ _ (plain_param oid) _ _ _ Epar) as (F1 & W1).
  destruct (plain_body _ _ _ _ _ _ Ebody) as (F2 & W2). destruct (plain_responses _ _ _ _ _ _ _ Ers) as (F3 & W3).
  rewrite Hsp in A2.
  match type of E with context [dropshot_pagination_data ?a ?b ?c ?f] => set (pag := dropshot_pagination_data a b c f) in E end.
  destruct (websocket && match pag with Some _ => true | None => false end) eqn:Ec; [discriminate|].
  destruct (http_method_of (http_method_str (do_method e))) as [mt| |] eqn:Emt; [|discriminate|discriminate].
  cbn [obind] in E. injection E as <- <-.
  split; [|split; [|split; [|split]]].
  - exists (w1 ++ w2 ++ w3), (t1 ++ t2 ++ t3). split; [eapply asked_app; [exact A1|]; eapply asked_app; eassumption|].
    unfold parameter_map in Em0. apply obind_ok in Em0 as (others & Eo & Em0). injection Em0 as <-.
    unfold items in Eo, Eops. apply mapM_ok_iff in Eo, Eops. destruct Q3 as (wrs & Q3 & ->).
    assert (Hw1 : Forall2 (of_parameter U oid) (map snd (combined others ops)) w1).
    { change (bt_inserts (map param_entry ops) _) with (combined others ops) in Q1.
      clear -Q1. induction Q1 as [|p q ws ts la lb ws' ts' (w & Hw & ->) _ IH]; constructor; auto. }
    exists oid, others, ops, (map snd (combined others ops)), w1, w2, wrs. split; [exact Eid|].
    split; [eapply forall2_impl; [|exact Eo]; intros a b Hab; now apply item_ok_iff|].
    split; [eapply forall2_impl; [|exact Eops]; intros a b Hab; now apply item_ok_iff|].
    split; [|split; [|split; [exact Hw1|split; [exact Q2|split; [exact Q3|reflexivity]]]]].
    + intro p. apply combined_effective.
    + assert (En : map param_name (map snd (combined others ops)) = map fst (combined others ops)).
      { rewrite map_map. apply map_ext_in. intros [n p] Hin. apply combined_In in Hin as (_ & En). exact En. }
      rewrite En. pose proof (combined_sorted others ops) as Hs. clear -Hs. induction Hs as [|a l H IH Hf]; cbn; constructor; auto.
      clear -Hf. induction Hf; constructor; auto.
  - intros R sf Hl. unfold processed, process_operation. rewrite Eid, Em0. cbn [obind]. rewrite Eops. cbn [obind]. cbv zeta.
    assert (L3 : later (gr_space g3) sf) by (eapply later_trans; [eapply asked_later, A3|exact Hl]).
    assert (L1 : later (gr_space g1) sf) by (eapply later_trans; [eapply asked_later, A2|exact L3]).
    assert (X1 : mapM (process_param (snake U) (pascal U) (final sf) oid) (map snd (bt_inserts (map param_entry ops) m0)) = Ok params)
      by exact (P1 R sf L1).
    assert (X2 : get_body_param (pascal U) (final sf) oid (op_request_body (do_op e)) (oa_components d) = Ok body) by exact (P2 R sf L3).
    assert (X3 : process_responses (pascal U) (final sf) oid websocket (oa_components d) (do_op e) = Ok rs) by exact (P3 R sf Hl).
    rewrite X1. cbn [obind]. rewrite X2. cbn [obind]. rewrite Etmp. cbn [obind]. rewrite Epar'. cbn [obind].
    fold websocket. rewrite X3. cbn [obind].
    assert (Hpag : dropshot_pagination_data (final sf) (op_extensions (do_op e)) params' rs = pag).
    { symmetry. apply pagination_same.
      - intros t x Ht. exact (rm_stays _ R _ _ _ _ Ht Hl).
      - intros t x i. apply (rm_inside _ R).
      - intros o t Ho Ht. apply (asked_known _ _ _ _ R A3). now apply (K3 o). }
    rewrite Hpag, Ec, Emt. reflexivity.
  - subst g2. destruct websocket; cbn in *; congruence.
  - subst g2. cbn [m_websocket]. rewrite W3, W2, <- W1. destruct websocket; cbn; [now rewrite orb_true_r|now rewrite orb_false_r].
  - cbn [m_websocket]. unfold websocket. destruct (assoc _ _); split; (easy || congruence).
Qed.

(** ** All operations *)

Lemma mapR_map {A B C} (f : B -> run C) (h : A -> B) l g : mapR f (map h l) g = mapR (fun a => f (h a)) l g.
Proof.
  revert g. induction l as [|a l IH]; intro g; [reflexivity|]. cbn [map mapR]. unfold rbind at 1 3.
  destruct (f (h a) g) as [[c|x|p] g1]; [|reflexivity|reflexivity]. unfold rbind. rewrite IH. reflexivity.
Qed.

Lemma mapR_ext {A B} (f h : A -> run B) l g : (forall a, In a l -> f a = h a) -> mapR f l g = mapR h l g.
Proof.
  revert g. induction l as [|a l IH]; intros g H; [reflexivity|]. cbn [mapR]. unfold rbind at 1 3.
  rewrite (H a) by now left. destruct (h a g) as [[c|x|p] g1]; [|reflexivity|reflexivity]. unfold rbind. rewrite IH; [reflexivity|].
  intros b Hb. apply H. now right.
Qed.

Lemma mapR_cons {A B} (f : A -> run B) a l g bs g' : mapR f (a :: l) g = (Ok bs, g') ->
  exists b bs' g1, bs = b :: bs' /\ f a g = (Ok b, g1) /\ mapR f l g1 = (Ok bs', g').
Proof.
  cbn [mapR]. intro E. apply rbind_ok in E as (b & g1 & E1 & E). apply rbind_ok in E as (bs' & g2 & E2 & E).
  injection E as <- <-. eauto 7.
Qed.

Definition op_run (d : openapi) (e : doc_op) : run op_method :=
  operation_r U tm (do_op e) (oa_components d) (do_path e) (http_method_str (do_method e)) (do_params e).

(** What the methods of some operations have asked for, and done to the flags. *)
Definition ops_done (d : openapi) (l : list doc_op) (ms : list op_method) (g g' : generator S) : Prop :=
  (exists wss ts, Forall2 (needs U d) l wss /\ asked (gr_space g) (concat wss) ts (gr_space g'))
  /\ (remembers tm -> forall sf, later (gr_space g') sf -> Forall2 (processed U (final sf) d) l ms)
  /\ gr_futures g' = gr_futures g /\ gr_websockets g' = gr_websockets g || existsb m_websocket ms
  /\ Forall2 (fun e m => m_websocket m = true <-> assoc (lit "x-dropshot-websocket") (op_extensions (do_op e)) <> None) l ms.

Lemma ops_done_later d l ms g g' : ops_done d l ms g g' -> later (gr_space g) (gr_space g').
Proof. intros ((wss & ts & _ & H) & _). eapply asked_later, H. Qed.

Lemma ops_done_app d l l' ms ms' g g1 g2 : ops_done d l ms g g1 -> ops_done d l' ms' g1 g2 -> ops_done d (l ++ l') (ms ++ ms') g g2.
Proof.
  intros H1 H2. pose proof (ops_done_later _ _ _ _ _ H2) as L. destruct H1 as ((w1 & t1 & N1 & A1) & P1 & F1 & W1 & E1), H2 as ((w2 & t2 & N2 & A2) & P2 & F2 & W2 & E2).
  split; [|split; [|split; [|split]]].
  - exists (w1 ++ w2), (t1 ++ t2). split; [now apply Forall2_app|]. rewrite concat_app. now apply asked_app with (gr_space g1).
  - intros R sf Hl. apply Forall2_app; [apply P1; auto; now apply later_trans with (gr_space g2)|auto].
  - congruence.
  - rewrite W2, W1, existsb_app. now rewrite orb_assoc.
  - now apply Forall2_app.
Qed.

Lemma ops_run d l : forall g ms g', mapR (op_run d) l g = (Ok ms, g') -> ops_done d l ms g g'.
Proof.
  induction l as [|e l IH]; intros g ms g' E.
  - injection E as <- <-. split; [exists [], []; split; constructor|]. split; [intros; constructor|]. cbn. rewrite orb_false_r. repeat split; constructor.
  - apply mapR_cons in E as (m & ms' & g1 & -> & E1 & E2). apply IH in E2.
    change (e :: l) with ([e] ++ l). change (m :: ms') with ([m] ++ ms'). apply ops_done_app with g1; [|exact E2].
    apply operation_done in E1 as ((ws & ts & Ha & Hn) & Hp & Hf & Hw & Hx). split; [|split; [|split; [|split]]].
    + exists [ws], ts. split; [repeat constructor; exact Hn|]. cbn. now rewrite app_nil_r.
    + intros R sf Hl. repeat constructor. auto.
    + exact Hf.
    + cbn. now rewrite orb_false_r.
    + constructor; [exact Hx|constructor].
Qed.

Lemma paths_run d paths : forall k g groups g', mapR (path_r U tm (oa_components d)) paths g = (Ok groups, g') ->
  ops_done d (doc_ops k paths) (concat groups) g g'.
Proof.
  induction paths as [|[path [r|i]] l IH]; intros k g groups g' E.
  - injection E as <- <-. apply ops_run. reflexivity.
  - apply mapR_cons in E as (m & ms' & g1 & _ & E1 & _). discriminate E1.
  - apply mapR_cons in E as (ms & groups' & g1 & -> & E1 & E2). cbn [doc_ops concat].
    apply ops_done_app with g1; [|now apply IH]. unfold path_r in E1. cbn [snd fst] in E1.
    rewrite (path_item_iter_ops k path), mapR_map in E1. apply ops_run. rewrite <- E1. apply mapR_ext.
    intros e He. apply in_item_ops in He. unfold op_run. cbn. destruct He as (_ & Hp & _ & Hq). now rewrite Hp, Hq.
Qed.
End Machine.

(** Every failure of [httpmock] and [cli] has one of the listed reasons, and every reason makes them fail. *)
From Coq Require Import ZifyBool ZifyN.
From Verif Require Import Base OasModel TemplateModel TemplateSpec TemplateProofs MethodModel OpModel BuilderModel
  SanitizeModel GenerateModel RefSpec RefProofs ResponseSpec ResponseProofs RequestSpec ParamSpec ParamProofs DocSpec
  DocProofs OpCor ExtractProofs BuilderSpec BuilderSend GenerateSpec GenerateProofs ValidateProofs SupportSpec SupportProofs
  FailSpec FailProofs PageSpec PageProofs MockModel MockSpec MockGen CliModel CliSpec CliProofs CliCor ToolFailSpec.
Local Open Scope N_scope.

(** ** An operation that is read has nothing wrong with it *)

Definition all_known (t : type_id) : option type_info := Some (TypeInfo [] false).

Section Read.
Variables (snake pascal : str -> str) (ts : type_space).
Variables (comps : option components) (op : operation) (path : str) (shared : list (ref_or parameter)) (oid : str).

Lemma read_causes verb m : process_operation snake pascal ts op comps path (http_method_str verb) shared = Ok m ->
  op_id op = Some oid -> ordinary op ->
  (forall e, ~ made_error pascal ts comps op path shared oid e) /\ forall t, ~ made_panic pascal ts comps op path shared oid t.
Proof.
  intros Hm Hid Hord.
  destruct (process_operation_params _ _ _ _ _ _ _ _ _ Hm)
    as (oid' & others & own & qs & body & Hid' & Hoth & Hown & Hqs & Hbody & Hparse & Hsort & Hpres & Hws & Hresp & _).
  assert (oid' = oid) by congruence. subst oid'.
  destruct (proj1 (parse_accepts_iff path) (ex_intro _ _ Hparse)) as (pieces & Hpath & Hlax).
  assert (Hnames : names (m_path m) = vars pieces) by (apply parse_names; [exact Hlax|now rewrite <- Hpath]).
  pose proof (sort_params_checked _ _ _ Hpres Hsort) as Hknown.
  destruct (params_made _ _ _ _ _ _ Hqs) as (Hm1 & Hm2).
  assert (Hpass : forall i x t r, i = Positional -> passable all_known i x t r).
  { intros i x t r ->. exists (TypeInfo [] false). split; [reflexivity|discriminate]. }
  assert (Hpar : forall p, effective others own p -> exists t required,
    typed_param ts (pascal (oid ++ lit "-" ++ param_name p)) p t required
    /\ passable all_known Positional (snake (param_name p)) t required).
  { intros p Hp. apply combined_effective in Hp. destruct (Hm1 p Hp) as (t & r & Ht & _). exists t, r. split; auto. }
  assert (Hsup : supported_body ts all_known comps (pascal (oid ++ lit "-body")) (op_request_body op)).
  { apply (made_supported_body pascal ts all_known Positional _ _ _ _ Hbody). intros q ->. unfold fits.
    destruct (p_typ q) as [t|] eqn:Et; [now apply Hpass|].
    apply (argument_raw _ _ _ _ _ _ _ _ _ Hm q); [|exact Et].
    destruct (sort_params_sorted _ _ _ Hpres Hsort) as (Hperm & _). eapply Permutation_in; [apply Permutation_sym; exact Hperm|].
    apply in_or_app. right. now left. }
  assert (Hans : forall key r, doc_entry op key r -> exists doc, resolves co_responses comps r doc
     /\ supported_response ts (pascal (oid ++ lit "-response")) doc).
  { apply (process_responses_iff pascal ts oid (m_websocket m)). eauto. }
  split.
  - intros e. exact (no_made_error snake _ _ all_known Positional _ _ _ _ _ _ _ Hoth Hown Hpar Hsup Hans pieces Hpath Hlax e Hord).
  - refine (no_made_panic snake _ _ all_known Positional _ _ _ _ _ _ _ Hoth Hown Hpar Hsup Hans pieces Hpath Hlax _).
    intros p q Hp Hq Hpp Hqp Hne. apply combined_effective in Hp, Hq.
    destruct (Hm1 p Hp) as (t & r & Ht & Hip). destruct (Hm1 q Hq) as (t' & r' & Ht' & Hiq).
    assert (Hnn : param_name p <> param_name q).
    { intro E. apply Hne. pose proof (combined_nodup others own) as Hnd. clear -Hp Hq E Hnd.
      induction (map snd (combined others own)) as [|a l IH]; [easy|]. cbn in Hnd. inversion Hnd as [|? ? Hni Hnd']; subst.
      destruct Hp as [<-|Hp], Hq as [<-|Hq]; auto; exfalso; apply Hni; apply in_map_iff; eauto. }
    rewrite <- Hnames. apply checked_known in Hknown. destruct Hknown as [Hk|Hk].
    + exfalso. enough (2 <= length (filter is_path (qs ++ match body with Some b => [b] | None => [] end)))%nat by lia.
      apply (filter_two is_path _ (made snake p t r) (made snake q t' r')).
      * apply in_or_app. now left.
      * apply in_or_app. now left.
      * intro E. apply Hnn. unfold made in E. congruence.
      * unfold is_path, made. cbn. apply (typed_in_path _ _ _ _ _ Ht) in Hpp. now rewrite Hpp.
      * unfold is_path, made. cbn. apply (typed_in_path _ _ _ _ _ Ht') in Hqp. now rewrite Hqp.
    + change (param_name p) with (p_api_name (made snake p t r)). apply Hk; [apply in_or_app; now left|].
      cbn. now apply (typed_in_path _ _ _ _ _ Ht).
Qed.
End Read.

(** The arguments of the method are its parameters. *)
Section Arguments.
Variables (snake pascal : str -> str) (ts : type_space).
Variables (comps : option components) (op : operation) (path : str) (shared : list (ref_or parameter)) (oid : str).
Variables (verb : http_method) (m : op_method).
Hypothesis Hid : op_id op = Some oid.
Hypothesis Hm : process_operation snake pascal ts op comps path (http_method_str verb) shared = Ok m.

Lemma passed_argument x t r : passed snake pascal ts comps op shared oid x t r ->
  exists q, In q (m_params m) /\ p_typ q = PType t.
Proof.
  destruct (process_operation_params _ _ _ _ _ _ _ _ _ Hm)
    as (oid' & others & own & qs & body & Hid' & Hoth & Hown & Hqs & Hbody & Hparse & Hsort & Hpres & Hws & Hresp & _).
  assert (oid' = oid) by congruence. subst oid'.
  destruct (sort_params_sorted _ _ _ Hpres Hsort) as (Hperm & _).
  destruct (params_made _ _ _ _ _ _ Hqs) as (Hm1 & Hm2).
  assert (Hin : forall q, In q (qs ++ match body with Some b => [b] | None => [] end) -> In q (m_params m)).
  { intros q Hq. eapply Permutation_in; [apply Permutation_sym; exact Hperm|exact Hq]. }
  intros [p t' r' Hp Ht|cs mt ct t' Ho Hct Ht].
  - apply (counted_iff _ _ _ _ _ Hoth Hown) in Hp. apply combined_effective in Hp. destruct (Hm1 p Hp) as (t2 & r2 & Ht2 & Hi).
    exists (made snake p t2 r2). split; [apply Hin, in_or_app; now left|]. cbn.
    assert (E : process_param snake pascal ts oid p = Ok (made snake p t' r')) by (apply process_param_iff; eauto).
    assert (E' : process_param snake pascal ts oid p = Ok (made snake p t2 r2)) by (apply process_param_iff; eauto).
    rewrite E in E'. injection E' as ? ?. congruence.
  - assert (G : exists b, get_body_param pascal ts oid (op_request_body op) comps = Ok (Some b) /\ p_typ b = PType t').
    { revert Ho Hct Ht. clear. intros [r b cs' mt' Hr Hc] Hct Ht. apply body_content_type_iff in Hct. apply item_ok_iff in Hr.
      unfold get_body_param. rewrite Hr. cbn [obind]. rewrite Hc.
      inversion Ht as [| |mt2 sch t2 Es Ee Ha|mt2 sch t2 Es Ee Ha]; subst; rewrite Es, Hct; cbn [obind]; rewrite Ee; cbn [negb];
        rewrite Ha; cbn [obind]; eexists; split; reflexivity. }
    destruct G as (b & Hb & Et). rewrite Hbody in Hb. injection Hb as ->. exists b. split; [|exact Et].
    apply Hin, in_or_app. right. now left.
Qed.

Lemma answer_listed key r : doc_entry op key r -> exists k, In (OpResponse key k) (m_responses m).
Proof.
  intro He. destruct (process_operation_params _ _ _ _ _ _ _ _ _ Hm)
    as (oid' & others & own & qs & body & Hid' & _ & _ & _ & _ & _ & _ & _ & _ & Hresp & _).
  destruct (process_responses_shape _ _ _ _ _ _ _ Hresp) as (rs0 & HF & ->). apply documented_iff in He.
  destruct (forall2_In_l _ _ _ _ HF He) as ([key' k] & Hx & Hpr). apply process_response_ok in Hpr as (E & _). cbn in E. subst key'.
  exists k. apply in_or_app. now left.
Qed.
End Arguments.

(** ** Reading a document *)

Section Document.
Variables (U : unicode) (add_ref_types : list (str * ref_or schema) -> outcome type_space) (d : openapi).
Hypothesis Hvalid : forall d, validate_openapi U d = Ok tt <-> valid_document U d.
Notation RE := (read_error U add_ref_types d).
Notation RP := (read_panic U add_ref_types d).
Notation reading f := (do _ <- validate_openapi U d;
  do ts <- add_ref_types (component_schemas d);
  do groups <- mapM (process_path U ts (oa_components d)) (oa_paths d); f groups).

Lemma reading_explained {A} (f : list (list op_method) -> outcome A) (Q : str -> Prop) : (forall t, RP t -> Q t) ->
  (forall ts groups, valid_document U d -> add_ref_types (component_schemas d) = Ok ts ->
     Forall2 (processed U ts d) (doc_ops 0 (oa_paths d)) (concat groups) -> explained (fun _ => False) Q (f groups)) ->
  explained RE Q (reading f).
Proof.
  intros HQ Hf. apply explained_bind; [apply validate_explained; [exact Hvalid|]; apply re_invalid|].
  intros [] Hv. apply Hvalid in Hv. apply explained_bind.
  { destruct (add_ref_types (component_schemas d)) as [ts|e|m] eqn:E; cbn; [exact I| |].
    - exact (re_components _ _ _ _ Hv E).
    - apply HQ. exact (rp_components _ _ _ _ Hv E). }
  intros ts Hts. apply explained_bind.
  { apply paths_explained; [exact Hv|]. intros B g o oid Ho Hoid. apply explained_weaken.
    - intros e He. exact (re_operation _ _ _ ts o oid e Hv Hts Ho Hoid He).
    - intros t Hp. apply HQ. exact (rp_operation _ _ _ ts o oid t Hv Hts Ho Hoid Hp). }
  intros groups Hg. apply (process_paths U ts d _ 0) in Hg.
  apply (explained_weaken (fun _ => False) _ Q Q); [easy|auto|]. now apply (Hf ts).
Qed.

Lemma reading_ok {A} (f : list (list op_method) -> outcome A) x : reading f = Ok x ->
  exists ts groups, valid_document U d /\ add_ref_types (component_schemas d) = Ok ts
    /\ Forall2 (processed U ts d) (doc_ops 0 (oa_paths d)) (concat groups) /\ f groups = Ok x.
Proof.
  intro H. apply obind_ok in H as ([] & Hv & H). apply Hvalid in Hv. apply obind_ok in H as (ts & Hts & H).
  apply obind_ok in H as (groups & Hg & H). apply (process_paths U ts d _ 0) in Hg. exists ts, groups. auto.
Qed.

Lemma processed_of ts ms o : Forall2 (processed U ts d) (doc_ops 0 (oa_paths d)) ms -> in_document d o ->
  exists m, In m ms /\ processed U ts d o m.
Proof. intros HF Ho. apply (doc_ops_in_order d) in Ho. destruct (forall2_In_l _ _ _ _ HF Ho) as (m & Hm & Hp). eauto. Qed.
Lemma processed_from ts ms m : valid_document U d -> Forall2 (processed U ts d) (doc_ops 0 (oa_paths d)) ms -> In m ms ->
  exists o oid, in_document d o /\ op_id (do_op o) = Some oid /\ processed U ts d o m.
Proof.
  intros Hv HF Hm. destruct (forall2_In_r _ _ _ _ HF Hm) as (e & He & Hp). apply (doc_ops_in_order d) in He.
  destruct (op_id (do_op e)) as [oid|] eqn:Eid; [eauto|]. now elim (vd_ids _ _ Hv e He).
Qed.

Lemma read_nothing {A} (f : list (list op_method) -> outcome A) x : (forall o, in_document d o -> ordinary (do_op o)) ->
  reading f = Ok x -> (forall e, ~ RE e) /\ forall t, ~ RP t.
Proof.
  intros Hord H. apply reading_ok in H as (ts & groups & Hv & Hts & HF & _).
  assert (G : forall ts' o oid, add_ref_types (component_schemas d) = Ok ts' -> in_document d o -> op_id (do_op o) = Some oid ->
    (forall e, ~ made_error (GenerateSpec.pascal U) ts' (oa_components d) (do_op o) (do_path o) (do_params o) oid e)
    /\ forall t, ~ made_panic (GenerateSpec.pascal U) ts' (oa_components d) (do_op o) (do_path o) (do_params o) oid t).
  { intros ts' o oid Hts' Ho Hoid. assert (ts' = ts) by congruence. subst ts'.
    destruct (processed_of ts _ o HF Ho) as (m & _ & Hp). exact (read_causes _ _ _ _ _ _ _ _ _ _ Hp Hoid (Hord o Ho)). }
  split.
  - intros e [y Hn|e' _ He|ts' o oid e' _ Hts' Ho Hoid He]; [auto|congruence|]. exact (proj1 (G ts' o oid Hts' Ho Hoid) e' He).
  - intros t [m _ He|ts' o oid m _ Hts' Ho Hoid He]; [congruence|]. exact (proj2 (G ts' o oid Hts' Ho Hoid) m He).
Qed.

(** ** Mocks *)

Lemma named_range : Forall (fun c => 100 <= c <= 999) named_codes.
Proof. clear. unfold named_codes. repeat (apply Forall_cons; [lia|]). apply Forall_nil. Qed.

Section Mock.
Variables (types : type_id -> option type_info) (is_path : str -> bool) (crate : str).

(** What is said of a status that has no name. *)
Definition unnamed (s : resp_status) (t : str) : Prop :=
  match s with
  | SCode c => (c < 100 \/ 999 < c) /\ t = unwrapped
      \/ 100 <= c <= 999 /\ t = lit "called `Option::unwrap()` on a `None` value"
  | SRange _ => t = lit "internal error: entered unreachable code"
  | SDefault => False
  end.
Lemma then_status_explained s : explained (fun _ => False) (fun t => ~ mockable_status s /\ unnamed s t) (then_status_of U s).
Proof.
  destruct (then_status_of U s) as [x|e|m] eqn:E; cbn; [exact I| |].
  - destruct s as [c|r|]; cbn in E; [destruct (_ || _); [discriminate|]; destruct (canonical_reason c); discriminate| |discriminate].
    destruct r as [|[[[]|[]|]|[[]|[]|]|]]; discriminate.
  - split; [intro Hm; apply (then_status_ok U) in Hm as (x & Hx); congruence|].
    destruct s as [c|r|]; cbn in E |- *; [| |discriminate].
    + destruct (_ || _) eqn:Eb.
      * injection E as <-. left. split; [|reflexivity]. apply orb_true_iff in Eb as [Eb|Eb]; apply N.ltb_lt in Eb; auto.
      * destruct (canonical_reason c); [discriminate|]. injection E as <-. right. split; [|reflexivity].
        apply orb_false_iff in Eb as (E1 & E2). apply N.ltb_ge in E1, E2. auto.
    + destruct r as [|[[[]|[]|]|[[]|[]|]|]]; try discriminate; now injection E as <-.
Qed.

Section Operation.
Variables (ts : type_space) (o : doc_op) (oid : str) (m : op_method).
Hypothesis Hoid : op_id (do_op o) = Some oid.
Hypothesis Hp : processed U ts d o m.
Notation obstacle := (mock_obstacle U d types ts o oid).

Lemma answers : exists table,
  response_table (GenerateSpec.pascal U) ts (oa_components d) (do_op o) (is_websocket (do_op o)) table
  /\ lists (is_websocket (do_op o)) table (m_responses m).
Proof.
  destruct (process_operation_params _ _ _ _ _ _ _ _ _ Hp)
    as (oid' & others & own & qs & body & Hid' & _ & _ & _ & _ & _ & _ & _ & Hws & Hresp & _).
  assert (oid' = oid) by congruence. subst oid'. fold (is_websocket (do_op o)) in Hws.
  destruct (table_exists _ _ _ _ _ _ _ Hresp) as (table & Htab). rewrite Hws in *. exists table. split.
  - exists oid. auto.
  - exact (process_responses_lists _ _ _ _ _ _ _ Hresp _ Htab).
Qed.

Lemma obstructs key r t : doc_entry (do_op o) key r -> ~ mockable_status key -> unnamed key t -> obstacle t.
Proof.
  intros He Hn Hu. destruct key as [c|n|]; cbn in Hu; [|subst t; exact (ob_range _ _ _ _ _ _ n r He Hn)|easy].
  destruct Hu as [(Hc & ->)|(Hc & ->)]; [exact (ob_code _ _ _ _ _ _ c r He Hc)|exact (ob_nameless _ _ _ _ _ _ c r He Hc Hn)].
Qed.

Lemma mock_method_explained : explained (fun _ => False) obstacle (httpmock_method U types m).
Proof.
  unfold httpmock_method. apply explained_bind.
  { apply explained_mapM. intros q Hq. unfold when_method_of. apply explained_bind.
    - unfold when_type. destruct (p_typ q) as [t|] eqn:Et.
      + destruct (types t) eqn:Ey; [exact I|]. cbn.
        exact (ob_argument _ _ _ _ _ _ _ _ _ (argument_passed _ _ _ _ _ _ _ _ _ _ Hoid Hp q t Hq Et) Ey).
      + destruct (argument_raw _ _ _ _ _ _ _ _ _ Hp q Hq Et) as [->|(mime & ->)]; exact I.
    - intros [] _. apply explained_bind; [|intros b _; exact I].
      destruct (p_kind q) as [|[]| |ct] eqn:Ek; try exact I. destruct (p_typ q) as [t|] eqn:Et; [exact I|].
      destruct (argument_raw _ _ _ _ _ _ _ _ _ Hp q Hq Et) as [E|(mime & E)]; rewrite Ek in E; injection E as ->; exact I. }
  intros whens _. apply explained_bind; [|intros thens _; exact I].
  destruct answers as (table & Htab & Hl).
  apply explained_mapM. intros [key k] Hr. apply Hl in Hr. unfold then_method_of. cbn [o_typ o_status]. apply explained_bind.
  - unfold then_value_of. destruct k as [t| | |]; try exact I. destruct (types t) eqn:Ey; [exact I|]. cbn.
    destruct Hr as [Hr|[(_ & _ & E)|(_ & _ & E)]]; try discriminate. exact (ob_answer _ _ _ _ _ _ table key t Htab Hr Ey).
  - intros v _. apply explained_bind; [|intros [n s] _; exact I].
    apply (explained_weaken (fun _ => False) _ (fun t => ~ mockable_status key /\ unnamed key t)); [easy| |apply then_status_explained]. intros msg (Hn & Hu).
    destruct Hr as [Hr|[(_ & -> & _)|(_ & -> & _)]].
    + destruct Htab as (oid' & _ & Htab). apply Htab in Hr as (r & doc & He & _). exact (obstructs key r msg He Hn Hu).
    + elim Hn. cbn. lia.
    + elim Hn. cbn. auto.
Qed.

Lemma mocked_no_obstacle x : httpmock_method U types m = Ok x -> forall msg, ~ obstacle msg.
Proof.
  intros H msg. unfold httpmock_method in H. apply obind_ok in H as (whens & Hw & H). apply obind_ok in H as (thens & Ht & _).
  apply mapM_ok in Hw, Ht. destruct answers as (table & Htab & Hl). intro Hob.
  assert (Hst : forall key r, doc_entry (do_op o) key r -> mockable_status key).
  { intros key r He. destruct (answer_listed _ _ _ _ _ _ _ _ _ Hp key r He) as (k & Hr).
    destruct (forall2_In_l _ _ _ _ Ht Hr) as (w & _ & Hm'). apply (then_status_ok U).
    unfold then_method_of in Hm'. apply obind_ok in Hm' as (v & _ & Hm'). apply obind_ok in Hm' as (x' & Hx & _). eauto. }
  destruct Hob as [n t r Hpa Ey|table' key t Htab' Hi Ey|c r He Hc|c r He _ Hn|n r He Hn].
  - assert (Hq : exists q, In q (m_params m) /\ p_typ q = PType t).
    { exact (passed_argument _ _ _ _ _ _ _ _ _ _ Hoid Hp n t r Hpa). }
    destruct Hq as (q & Hq & Et). destruct (forall2_In_l _ _ _ _ Hw Hq) as (w & _ & Hm').
    unfold when_method_of, when_type in Hm'. rewrite Et, Ey in Hm'. discriminate.
  - assert (Hi' : In (key, RType t) table).
    { destruct Htab as (o1 & E1 & T1), Htab' as (o2 & E2 & T2). assert (o2 = o1) by congruence. subst o2. apply T1. now apply T2. }
    assert (Hr : In (OpResponse key (RType t)) (m_responses m)) by (apply Hl; auto).
    destruct (forall2_In_l _ _ _ _ Ht Hr) as (w & _ & Hm'). unfold then_method_of, then_value_of in Hm'. cbn [o_typ] in Hm'.
    rewrite Ey in Hm'. discriminate.
  - pose proof (Hst _ _ He) as Hn. cbn in Hn. pose proof named_range as Hr. rewrite Forall_forall in Hr. specialize (Hr c Hn). lia.
  - exact (Hn (Hst _ _ He)).
  - exact (Hn (Hst _ _ He)).
Qed.
End Operation.

Lemma mock_explained : explained RE (mock_panic U add_ref_types d types is_path crate)
  (httpmock U add_ref_types types is_path d crate).
Proof.
  unfold httpmock. fold (component_schemas d).
  apply (reading_explained (fun groups => do ops <- mapM (httpmock_method U types) (concat groups);
    if is_path crate then Ok (MockCode crate (combine (map m_operation_id (concat groups)) ops))
    else Panic (crate ++ lit " is not a valid identifier"))).
  { apply mp_read. }
  intros ts groups Hv Hts HF. apply explained_bind.
  - apply explained_mapM. intros m Hm. destruct (processed_from ts _ m Hv HF Hm) as (o & oid & Ho & Hoid & Hp).
    refine (explained_weaken _ _ _ _ _ (fun e H => H) _ (mock_method_explained ts o oid m Hoid Hp)).
    exact (fun msg => mp_operation _ _ _ _ _ _ ts o oid msg Hv Hts Ho Hoid).
  - intros ops _. destruct (is_path crate) eqn:E; [exact I|]. now apply mp_crate.
Qed.

Lemma mocked_unless : (forall o, in_document d o -> ordinary (do_op o)) ->
  ((exists k, httpmock U add_ref_types types is_path d crate = Ok k) <->
   (forall e, ~ RE e) /\ forall t, ~ mock_panic U add_ref_types d types is_path crate t).
Proof.
  intro Hord. split.
  - intros (k & H). unfold httpmock in H. fold (component_schemas d) in H.
    pose proof (read_nothing (fun groups => do ops <- mapM (httpmock_method U types) (concat groups);
      if is_path crate then Ok (MockCode crate (combine (map m_operation_id (concat groups)) ops))
      else Panic (crate ++ lit " is not a valid identifier")) k Hord H) as (H1 & H2).
    split; [exact H1|]. apply reading_ok in H as (ts & groups & Hv & Hts & HF & H).
    apply obind_ok in H as (ops & Ho & H). apply mapM_ok in Ho.
    intros t [t' Hr|ts' o oid t' _ Hts' Ho' Hoid Hob|Hc]; [exact (H2 t' Hr)| |rewrite Hc in H; discriminate].
    assert (ts' = ts) by congruence. subst ts'. destruct (processed_of ts _ o HF Ho') as (m & Hm & Hp).
    destruct (forall2_In_l _ _ _ _ Ho Hm) as (x & _ & Hx). exact (mocked_no_obstacle ts o oid m Hoid Hp x Hx _ Hob).
  - intros (H1 & H2). pose proof mock_explained as H. destruct (httpmock _ _ _ _ _ _) as [k|e|m]; [eauto|now elim (H1 e)|now elim (H2 m)].
Qed.
End Mock.

(** ** Command line interfaces *)

Section Cli.
Variables (types : type_id -> option cli_type) (is_path : str -> bool) (crate : str).
Hypothesis Hcases : forall c, lowercase U c = true -> uppercase U c = false.
Hypothesis Hdash : alphanumeric U (ch "-") = false.

Lemma kept_app {A} (P : A -> Prop) l1 : forall l2 r, kept P (l1 ++ l2) r ->
  exists r1 r2, r = r1 ++ r2 /\ kept P l1 r1 /\ kept P l2 r2.
Proof.
  induction l1 as [|a l1 IH]; intros l2 r H; cbn in H; [exists [], r; repeat split; auto; constructor|].
  inversion H as [|a' l l' Ha Hk|a' l l' Ha Hk]; subst; destruct (IH _ _ Hk) as (r1 & r2 & -> & H1 & H2).
  - exists (a :: r1), r2. repeat split; auto. now apply ke_keep.
  - exists r1, r2. repeat split; auto. now apply ke_drop.
Qed.
Lemma kept_mem {A} (P : A -> Prop) a l r : P a -> kept P (a :: l) r -> exists r', r = a :: r' /\ kept P l r'.
Proof. intros Ha H. inversion H; subst; [eauto|easy]. Qed.

Section Operation.
Variables (ts : type_space) (o : doc_op) (oid : str) (m : op_method).
Hypothesis Hoid : op_id (do_op o) = Some oid.
Hypothesis Hp : processed U ts d o m.
Hypothesis Hcv : codes_valid (do_op o).
Notation obstacle := (cli_obstacle U d types ts o m).

Lemma unwrap_explained t : (types t = None -> obstacle unwrapped) -> explained (fun _ => False) obstacle (unwrap_type types t).
Proof. intro H. unfold unwrap_type. destruct (types t) eqn:E; cbn; auto. Qed.

Lemma params_explained ps : forall pre args, m_params m = pre ++ ps ->
  (forall n, In n (map fst args) -> exists p, In p pre /\ has_argument m p /\ argument_name U (p_name p) n) ->
  explained (fun _ => False) obstacle (param_args U types m args ps).
Proof.
  pose proof (body_types _ _ _ _ _ _ _ _ _ Hp) as Hbt. rewrite Forall_forall in Hbt.
  induction ps as [|p ps IH]; intros pre args E Hargs; cbn [param_args]; [exact I|].
  assert (Hin : In p (m_params m)) by (rewrite E; apply in_or_app; right; now left).
  assert (E' : m_params m = (pre ++ [p]) ++ ps) by (rewrite <- app_assoc; exact E).
  assert (Hskip : forall n, In n (map fst args) -> exists p', In p' (pre ++ [p]) /\ has_argument m p' /\ argument_name U (p_name p') n).
  { intros n Hn. destruct (Hargs n Hn) as (p' & Hi & H). exists p'. split; [apply in_or_app; now left|exact H]. }
  unfold param_arg. destruct (innately_required (p_kind p)) as [req|] eqn:Er; [|cbn [obind]; now apply (IH (pre ++ [p]))].
  destruct (is_paginated m && str_eqb (p_name p) (lit "page_token")) eqn:Epg; [cbn [obind]; now apply (IH (pre ++ [p]))|].
  assert (Hh : has_argument m p).
  { split; [intros ct Ek; rewrite Ek in Er; discriminate|]. intros (H1 & H2). unfold is_paginated in Epg.
    destruct (m_paginated m); [|easy]. cbn [andb] in Epg. apply (proj2 (str_eqb_spec _ _)) in H2. congruence. }
  cbv zeta. specialize (Hbt p Hin). unfold ExtractProofs.body_typed in Hbt.
  destruct (p_typ p) as [t|] eqn:Et; [|destruct (p_kind p); try discriminate; easy].
  apply explained_bind.
  - apply explained_bind; [apply unwrap_explained; exact (oc_parameter _ _ _ _ _ _ p t Hin Hh Et)|]. intros ct _.
    destruct (has_arg args (to_kebab_case U (p_name p))) eqn:Ea; [|exact I]. cbn.
    assert (Hn : In (to_kebab_case U (p_name p)) (map fst args)).
    { unfold has_arg in Ea. destruct (assoc _ args) as [v|] eqn:Es; [|discriminate]. apply assoc_In in Es. now apply (in_map fst) in Es. }
    destruct (Hargs _ Hn) as (p' & Hi & Hh' & Hn'). apply in_split in Hi as (l1 & l2 & ->).
    apply (oc_names _ _ _ _ _ _ l1 p' l2 p ps (to_kebab_case U (p_name p))); auto.
    + rewrite E, <- app_assoc. reflexivity.
    + now apply (kebab_name U Hcases Hdash).
  - intros args' H. apply (IH (pre ++ [p])); [exact E'|]. apply obind_ok in H as (ct & _ & H).
    destruct (has_arg args (to_kebab_case U (p_name p))) eqn:Ea; [discriminate|]. injection H as <-.
    assert (Ha : assoc (to_kebab_case U (p_name p)) args = None) by (unfold has_arg in Ea; destruct (assoc _ args); [discriminate|reflexivity]).
    intros n Hn. rewrite (Permutation_map fst (bt_insert_perm _ _ _ Ha)) in Hn. cbn [map fst] in Hn. destruct Hn as [<-|Hn]; [|now apply Hskip].
    exists p. split; [apply in_or_app; right; now left|]. split; [exact Hh|]. now apply (kebab_name U Hcases Hdash).
Qed.

Lemma body_args_explained prs : (forall pr, In pr prs -> (forall ct, ~ value_type types (pr_type pr) ct) -> obstacle unwrapped) ->
  forall args b, b <> BaNone -> explained (fun _ => False) obstacle (body_args U types (args, b) prs).
Proof.
  induction prs as [|pr prs IH]; intros H args b Hb; cbn [body_args]; [exact I|]. apply explained_bind.
  - unfold cli_method_body_arg. apply explained_bind.
    + destruct (prop_value_type types (pr_type pr)) as [ct|e|msg] eqn:Ev; cbn; [exact I| |].
      * unfold prop_value_type, unwrap_type in Ev. destruct (types (pr_type pr)) as [ct|]; [|discriminate]. cbn [obind] in Ev.
        destruct (ct_details ct) as [| |i|]; try discriminate. destruct (types i); discriminate.
      * assert (Em : msg = unwrapped).
        { unfold prop_value_type, unwrap_type in Ev. destruct (types (pr_type pr)) as [ct|]; [|now injection Ev as <-].
          cbn [obind] in Ev. destruct (ct_details ct) as [| |i|]; try discriminate. destruct (types i); [discriminate|now injection Ev as <-]. }
        subst msg. apply (H pr); [now left|]. intros ct Hct. apply value_type_ok in Hct. congruence.
    + intros ct _. cbv zeta. destruct (_ && _); [exact I|]. destruct (pr_required pr); [|exact I].
      unfold body_required. destruct b; [easy| |]; exact I.
  - intros [args' b'] Hst. apply IH; [intros pr' Hi; apply H; now right|].
    unfold cli_method_body_arg in Hst. apply obind_ok in Hst as (ct & _ & Hst). cbv zeta in Hst.
    destruct (_ && _); [injection Hst as <- <-; exact Hb|]. destruct (pr_required pr); [|injection Hst as <- <-; exact Hb].
    apply obind_ok in Hst as (b2 & Hb2 & Hst). injection Hst as <- <-. unfold body_required in Hb2. destruct b; try discriminate; injection Hb2 as <-; discriminate.
Qed.

Lemma cli_args_explained : explained (fun _ => False) obstacle (cli_method_args U types m).
Proof.
  unfold cli_method_args. apply explained_bind; [apply (params_explained (m_params m) []); [reflexivity|easy]|]. intros args _.
  destruct (body_type_id m) as [t|] eqn:Et; [|cbn [obind]; exact I]. apply body_type_spec in Et. cbn [body_present obind].
  apply explained_bind.
  - apply explained_bind; [apply unwrap_explained; exact (oc_body _ _ _ _ _ _ t Et)|]. intros ct Hct.
    assert (Hct' : types t = Some ct) by (unfold unwrap_type in Hct; destruct (types t); [now injection Hct as ->|discriminate]).
    destruct (ct_details ct) as [|prs| |] eqn:Ed; try exact I. apply body_args_explained; [|discriminate].
    intros pr Hi Hno. exact (oc_property _ _ _ _ _ _ t ct prs pr Et Hct' Ed Hi Hno).
  - intros [args' b] _. apply explained_bind; [|intros j _; exact I]. apply explained_bind; [|intros ct _; exact I].
    apply unwrap_explained. exact (oc_body _ _ _ _ _ _ t Et).
Qed.

Lemma extract_never_err f e : extract_responses m f <> Err e.
Proof.
  unfold extract_responses. cbv zeta. destruct (_ && _); [discriminate|].
  destruct (pop_default _); [discriminate|]. destruct (forallb _ _); discriminate.
Qed.

Lemma page_kind pg si k : m_paginated m = Some pg -> extract_responses m is_success_or_default = Ok (si, k) ->
  exists t, k = RType t.
Proof.
  intros Hpg Hs. assert (Hpb : pageable ts (op_extensions (do_op o)) (m_params m) (m_responses m) (pg_item pg)).
  { apply (recognised_iff Hp). eauto. }
  destruct Hpb as [_ _ _ _ _ (pre & r & post & t & E & (Et & Hst) & _)]. exists t.
  destruct (extract_ok _ _ _ _ Hs) as (Ei & Hk & _). rewrite <- Et. symmetry. apply Hk. rewrite Ei.
  match goal with |- In _ (pop_default ?l) => destruct (pop_default_keeps r l) as [H0|(H0 & _)]; [|exact H0|] end.
  - apply sort_responses_In, filter_In. split; [rewrite E; apply in_or_app; right; now left|].
    destruct Hst as [(c & -> & Hc)| ->]; cbn; [|reflexivity]. apply orb_true_iff. right. apply andb_true_iff.
    split; apply N.leb_le; lia.
  - destruct Hst as [(c & Hc & _)|Hc]; rewrite Hc in H0; easy.
Qed.

Lemma tables : exists table,
  response_table (GenerateSpec.pascal U) ts (oa_components d) (do_op o) (is_websocket (do_op o)) table
  /\ ((exists x, extract_responses m is_success_or_default = Ok x) <-> agree (success_entry (do_op o) (is_websocket (do_op o)) table))
  /\ ((exists x, extract_responses m is_error_or_default = Ok x) <-> agree (error_entry table))
  /\ (forall x, In x (m_responses m) -> to_value_ok (o_status x) = true)
  /\ forall si k, extract_responses m is_success_or_default = Ok (si, k) ->
       forall k', success_entry (do_op o) (is_websocket (do_op o)) table k' <-> k' = k.
Proof.
  destruct (process_operation_params _ _ _ _ _ _ _ _ _ Hp)
    as (oid' & others & own & qs & body & Hid' & _ & _ & _ & _ & _ & _ & _ & Hws & Hresp & _).
  assert (oid' = oid) by congruence. subst oid'. fold (is_websocket (do_op o)) in Hws.
  destruct (table_exists _ _ _ _ _ _ _ Hresp) as (table & Htab). rewrite Hws in *. exists table. split; [exists oid; auto|].
  split; [exact (extract_success_iff _ _ _ _ _ _ _ _ Hresp Htab Hcv)|].
  split; [exact (extract_error_iff _ _ _ _ _ _ _ _ Hresp Htab Hcv)|].
  split; [exact (all_ok _ _ _ _ _ _ _ _ Hresp Htab Hcv)|].
  intros si k Hk. exact (extract_success_kind _ _ _ _ _ _ _ _ Hresp Htab Hcv si k Hk).
Qed.

Lemma cli_method_explained : explained (fun _ => False) obstacle (cli_method U types m).
Proof.
  destruct tables as (table & Htab & Hs & He & Hall & Hk).
  unfold cli_method. apply explained_bind; [exact cli_args_explained|]. intros args _. apply explained_bind.
  { destruct (extract_responses m is_success_or_default) as [x|e|msg] eqn:E; cbn; [exact I|now elim (extract_never_err _ _ E)|].
    rewrite (extract_says m _ _ Hall E). apply (oc_disagree _ _ _ _ _ _ table Htab). intros (H & _). apply Hs in H as (x & Hx). congruence. }
  intros [si sk] Hsk. apply explained_bind.
  { destruct (extract_responses m is_error_or_default) as [x|e|msg] eqn:E; cbn; [exact I|now elim (extract_never_err _ _ E)|].
    rewrite (extract_says m _ _ Hall E). apply (oc_disagree _ _ _ _ _ _ table Htab). intros (_ & H). apply He in H as (x & Hx). congruence. }
  intros [ei ek] _. apply explained_bind; [|intros out _; exact I].
  destruct (m_paginated m) as [pg|] eqn:Epg; [|exact I]. destruct (page_kind pg si sk Epg Hsk) as (t & ->).
  apply explained_bind; [|intros ct _; exact I]. apply unwrap_explained.
  apply (oc_page _ _ _ _ _ _ table t); [congruence|exact Htab|]. now apply (Hk si (RType t) Hsk).
Qed.

Lemma commanded_no_obstacle x : cli_method U types m = Ok x -> forall msg, ~ obstacle msg.
Proof.
  intros H msg. destruct tables as (table & Htab & Hs & He & _ & Hk). unfold cli_method in H.
  apply obind_ok in H as (args & Ha & H). apply obind_ok in H as ([si sk] & Hsk & H). apply obind_ok in H as ([ei ek] & Hek & H).
  apply obind_ok in H as (out & Hout & _).
  destruct (proj1 (args_iff U types Hcases Hdash m) (ex_intro _ args Ha)) as ((params & ns & Hke & Hty & Hns & Hnd) & Hbody).
  assert (Hsame : forall table', response_table (GenerateSpec.pascal U) ts (oa_components d) (do_op o) (is_websocket (do_op o)) table' ->
    forall y, In y table' <-> In y table).
  { intros table' (o2 & E2 & T2) [key k]. destruct Htab as (o1 & E1 & T1). assert (o2 = o1) by congruence. subst o2.
    rewrite (T1 key k), (T2 key k). reflexivity. }
  intros [p t Hi Hh Et Ey|t Hb Ey|t ct prs pr Hb Ey Ed Hi Hno|tab t Hpg Ht Hse Ey|pre p mid q post n E Hhp Hhq Hn Hn'|tab Ht Hn].
  - rewrite Forall_forall in Hty. destruct (Hty p) as (t' & ct & Et' & Ey'); [apply (proj2 (kept_in _ _ _ p Hke)); auto|]. congruence.
  - destruct (Hbody t Hb) as (ct & Ey' & _). congruence.
  - destruct (Hbody t Hb) as (ct' & Ey' & Hpr). assert (ct' = ct) by congruence. subst ct'. specialize (Hpr prs Ed).
    rewrite Forall_forall in Hpr. destruct (Hpr pr Hi) as (ct' & Hct'). exact (Hno ct' Hct').
  - destruct (m_paginated m) as [pg|] eqn:Epg; [|easy]. assert (Hse' : success_entry (do_op o) (is_websocket (do_op o)) table (RType t)).
    { eapply success_same; [|exact Hse]. now apply Hsame. }
    apply (Hk si sk Hsk) in Hse'. subst sk. unfold unwrap_type in Hout. rewrite Ey in Hout. discriminate.
  - rewrite E in Hke. apply kept_app in Hke as (r1 & r2 & -> & _ & Hk2). apply (kept_mem _ _ _ _ Hhp) in Hk2 as (r3 & -> & Hk3).
    apply kept_app in Hk3 as (r4 & r5 & -> & _ & Hk5). apply (kept_mem _ _ _ _ Hhq) in Hk5 as (r6 & -> & _).
    apply (names_iff U Hcases Hdash) in Hns. subst ns. apply (kebab_name U Hcases Hdash) in Hn, Hn'.
    rewrite map_app in Hnd. apply NoDup_app_inv in Hnd as (_ & Hnd & _). cbn [map] in Hnd. inversion Hnd as [|? ? Hni _]; subst.
    apply Hni. rewrite map_app. apply in_or_app. right. left. exact Hn'.
  - apply Hn. split.
    + intros k k' H1 H2. apply (proj1 Hs (ex_intro _ _ Hsk)); eapply success_same; eauto.
    + intros k k' H1 H2. apply (proj1 He (ex_intro _ _ Hek)); eapply error_same; eauto.
Qed.
End Operation.

Lemma cli_explained : (forall o, in_document d o -> codes_valid (do_op o)) ->
  explained RE (cli_panic U add_ref_types d types is_path crate) (cli U types is_path add_ref_types d crate).
Proof.
  intro Hcv. unfold cli. fold (component_schemas d).
  apply (reading_explained (fun groups => do methods <- mapM (cli_method U types) (concat groups);
    if is_path crate then
      Ok (CliCode crate methods
        (combine (map (fun m => sanitize U (m_operation_id m) Pascal) (concat groups)) (map (fun m => lit "cli_" ++ sanitize U (m_operation_id m) Snake) (concat groups)))
        (combine (map (fun m => sanitize U (m_operation_id m) Pascal) (concat groups)) (map (fun m => lit "execute_" ++ sanitize U (m_operation_id m) Snake) (concat groups)))
        (map (fun m => sanitize U (m_operation_id m) Pascal) (concat groups)))
    else Panic (lit "called `Result::unwrap()` on an `Err` value"))).
  { apply cp_read. }
  intros ts groups Hv Hts HF. apply explained_bind.
  - apply explained_mapM. intros m Hm. destruct (processed_from ts _ m Hv HF Hm) as (o & oid & Ho & Hoid & Hp).
    refine (explained_weaken _ _ _ _ _ (fun e H => H) _ (cli_method_explained ts o oid m Hoid Hp (Hcv o Ho))).
    exact (fun msg => cp_operation _ _ _ _ _ _ ts o m msg Hv Hts Ho Hp).
  - intros ops _. destruct (is_path crate) eqn:E; [exact I|]. now apply cp_crate.
Qed.

Lemma cli_unless : (forall o, in_document d o -> ordinary (do_op o)) ->
  ((exists k, cli U types is_path add_ref_types d crate = Ok k) <->
   (forall e, ~ RE e) /\ forall t, ~ cli_panic U add_ref_types d types is_path crate t).
Proof.
  intro Hord. split.
  - intros (k & H). unfold cli in H. fold (component_schemas d) in H. cbv zeta in H.
    pose proof (read_nothing _ k Hord H) as (H1 & H2).
    split; [exact H1|]. apply reading_ok in H as (ts & groups & Hv & Hts & HF & H).
    apply obind_ok in H as (ops & Ho & H). apply mapM_ok in Ho.
    intros t [t' Hr|ts' o m' t' _ Hts' Ho' Hp' Hob|Hc]; [exact (H2 t' Hr)| |rewrite Hc in H; discriminate].
    assert (ts' = ts) by congruence. subst ts'. destruct (processed_of ts _ o HF Ho') as (m & Hm & Hp).
    assert (m' = m) by (unfold processed in *; congruence). subst m'.
    destruct (forall2_In_l _ _ _ _ Ho Hm) as (x & _ & Hx).
    destruct (op_id (do_op o)) as [oid|] eqn:Eid; [|now elim (vd_ids _ _ Hv o Ho')].
    exact (commanded_no_obstacle ts o oid m Eid Hp (proj1 (Hord o Ho')) x Hx _ Hob).
  - intros (H1 & H2). pose proof (cli_explained (fun o Ho => proj1 (Hord o Ho))) as H.
    destruct (cli _ _ _ _ _ _) as [k|e|m]; [eauto|now elim (H1 e)|now elim (H2 m)].
Qed.
End Cli.
End Document.

(** ** Beside a client *)

Section Client.
Variables (U : unicode) (add_ref_types : list (str * ref_or schema) -> outcome type_space)
  (types : type_id -> option type_info) (s : settings) (d : openapi) (g : generated_code).
Hypothesis Hvalid : forall d, validate_openapi U d = Ok tt <-> valid_document U d.
Hypothesis Hel : forall ts, add_ref_types (component_schemas d) = Ok ts -> elements_known ts types.
Hypothesis Hord : forall o, in_document d o -> ordinary (do_op o).
Hypothesis Hg : generate_tokens U add_ref_types types s d = Ok g.

Lemma client_reads : (forall e, ~ read_error U add_ref_types d e) /\ forall t, ~ read_panic U add_ref_types d t.
Proof.
  destruct (proj1 (generated_unless U add_ref_types types s d Hvalid Hel Hord) (ex_intro _ g Hg)) as (He & Hp). split.
  - intros e [x Hn|e' Hv Ha|ts o oid e' Hv Ha Ho Hoid Hm].
    + apply (He (UnexpectedFormat x)). now constructor.
    + apply (He e'). now apply rr_components.
    + apply (He e'). apply (rr_operation _ _ _ _ _ ts o oid); auto. now apply er_made.
  - intros t [m Hv Ha|ts o oid m Hv Ha Ho Hoid Hm]; apply (Hp m).
    + now apply (pr_components _ _ _ _ _ m).
    + apply (pr_operation _ _ _ _ _ ts o oid); auto. now apply pn_made.
Qed.

Lemma client_valid : valid_document U d.
Proof.
  apply Hvalid. unfold generate_tokens in Hg. apply obind_ok in Hg as ([] & H & _). exact H.
Qed.

Lemma client_passes ts o oid x t r : add_ref_types (component_schemas d) = Ok ts -> in_document d o -> op_id (do_op o) = Some oid ->
  passed (GenerateSpec.snake U) (GenerateSpec.pascal U) ts (oa_components d) (do_op o) (do_params o) oid x t r -> types t <> None.
Proof.
  intros Ha Ho Hoid Hx Ht.
  destruct (proj1 (generated_unless U add_ref_types types s d Hvalid Hel Hord) (ex_intro _ g Hg)) as (He & Hp).
  destruct (se_interface s) eqn:Ei.
  - eapply Hp. apply (pr_operation _ _ _ _ _ ts o oid _ client_valid Ha Ho Hoid). rewrite Ei. now apply (pn_unknown _ _ _ _ _ _ _ _ _ _ x t r).
  - eapply He. apply (rr_operation _ _ _ _ _ ts o oid _ client_valid Ha Ho Hoid). rewrite Ei.
    now apply (er_unknown _ _ _ _ _ _ _ _ _ _ x t r).
Qed.

Lemma client_mocked is_path crate : (exists k, httpmock U add_ref_types types is_path d crate = Ok k) <->
  is_path crate = true
  /\ forall ts o, add_ref_types (component_schemas d) = Ok ts -> in_document d o ->
     (forall key r, doc_entry (do_op o) key r -> mockable_status key)
     /\ forall table key t, response_table (GenerateSpec.pascal U) ts (oa_components d) (do_op o) (is_websocket (do_op o)) table ->
          In (key, RType t) table -> types t <> None.
Proof.
  pose proof client_reads as (He & Hp). pose proof client_valid as Hv.
  split.
  - intro H. apply (mocked_unless U add_ref_types d Hvalid) in H as (_ & H); [|exact Hord]. split.
    + destruct (is_path crate) eqn:E; [reflexivity|]. elim (H _ (mp_crate _ _ _ _ _ _ E)).
    + intros ts o Ha Ho. destruct (op_id (do_op o)) as [oid|] eqn:Eid; [|now elim (vd_ids _ _ Hv o Ho)].
      assert (Hn : forall t, ~ mock_obstacle U d types ts o oid t) by (intros t Hob; apply (H t); now apply (mp_operation _ _ _ _ _ _ ts o oid)).
      split.
      { intros key r Hk. apply (then_status_ok U). pose proof (then_status_explained U key) as Hx.
        destruct (then_status_of U key) as [x|e|m]; [eauto|easy|]. destruct Hx as (Hm & Hu).
        elim (Hn m). exact (obstructs U d types ts o oid key r m Hk Hm Hu). }
      intros table key t Ht Hi Hk. eapply Hn. exact (ob_answer _ _ _ _ _ _ table key t Ht Hi Hk).
  - intros (Hc & Hops). apply (mocked_unless U add_ref_types d Hvalid); [exact Hord|]. split; [exact He|].
    intros msg [t' Hr|ts o oid t' _ Ha Ho Hoid Hob|Hc']; [exact (Hp t' Hr)| |congruence].
    destruct (Hops ts o Ha Ho) as (H1 & H2). destruct Hob as [x t r Hx Ht|table key t Ht Hi Hk|c r Hk Hc'|c r Hk _ Hm|n r Hk Hm].
    + exact (client_passes ts o oid x t r Ha Ho Hoid Hx Ht).
    + exact (H2 table key t Ht Hi Hk).
    + pose proof (H1 _ r Hk) as Hn. unfold mockable_status in Hn. apply (proj1 (Forall_forall _ _) named_range) in Hn. lia.
    + exact (Hm (H1 _ r Hk)).
    + exact (Hm (H1 _ r Hk)).
Qed.

Hypothesis Hcases : forall c, lowercase U c = true -> uppercase U c = false.
Hypothesis Hdash : alphanumeric U (ch "-") = false.

Lemma client_commanded (ctypes : type_id -> option cli_type) is_path crate :
  (exists k, cli U ctypes is_path add_ref_types d crate = Ok k) <->
  is_path crate = true
  /\ forall ts o m, add_ref_types (component_schemas d) = Ok ts -> in_document d o -> processed U ts d o m ->
     forall t, ~ cli_obstacle U d ctypes ts o m t.
Proof.
  pose proof client_reads as (He & Hp). pose proof client_valid as Hv.
  split.
  - intro H. apply (cli_unless U add_ref_types d Hvalid _ _ _ Hcases Hdash) in H as (_ & H); [|exact Hord]. split.
    + destruct (is_path crate) eqn:E; [reflexivity|]. elim (H _ (cp_crate _ _ _ _ _ _ E)).
    + intros ts o m Ha Ho Hm t Hob. apply (H t). now apply (cp_operation _ _ _ _ _ _ ts o m).
  - intros (Hc & Hops). apply (cli_unless U add_ref_types d Hvalid _ _ _ Hcases Hdash); [exact Hord|]. split; [exact He|].
    intros msg [t' Hr|ts o m t' _ Ha Ho Hm Hob|Hc']; [exact (Hp t' Hr)| |congruence]. exact (Hops ts o m Ha Ho Hm t' Hob).
Qed.
End Client.

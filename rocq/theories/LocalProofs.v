(** The code for an operation depends on nothing but the operation and what it refers to. *)
From Coq Require Import Permutation.
From Verif Require Import Base OasModel TemplateModel TemplateSpec MethodModel OpModel BuilderModel SanitizeModel GenerateModel
  RefSpec RefProofs ResponseSpec ResponseProofs RequestSpec ParamSpec ParamProofs DocSpec DocProofs OpCor GenerateSpec GenerateProofs
  ValidateProofs SupportSpec SupportProofs FailSpec FailProofs LocalSpec.
Local Open Scope N_scope.

Lemma mapM_carry {A B} (f g : A -> outcome B) l : forall r, mapM f l = Ok r ->
  (forall a b, In a l -> f a = Ok b -> g a = Ok b) -> mapM g l = Ok r.
Proof.
  induction l as [|a l IH]; intros r H Hg; cbn [mapM] in *; [exact H|].
  apply obind_ok in H as (b & Hb & H). apply obind_ok in H as (bs & Hbs & H).
  rewrite (Hg a b (or_introl eq_refl) Hb). cbn [obind]. rewrite (IH bs Hbs) by (intros x y Hx; apply Hg; now right).
  exact H.
Qed.

Lemma f2_impl {A B} (P Q : A -> B -> Prop) : (forall a b, P a b -> Q a b) -> forall l r, Forall2 P l r -> Forall2 Q l r.
Proof. intros H l r. induction 1; constructor; auto. Qed.
Lemma f2_nth {A B} (R : A -> B -> Prop) l r : Forall2 R l r -> forall k a, nth_error l k = Some a -> exists b, nth_error r k = Some b /\ R a b.
Proof.
  induction 1 as [|a b l r Hab _ IH]; intros [|k] x H; cbn in *; try discriminate; [injection H as <-; eauto|eauto].
Qed.

Section Op.
Variables (snake pascal : str -> str) (ts ts' : type_space) (comps comps' : option components) (op : operation)
  (shared : list (ref_or parameter)) (oid : str).
Hypothesis Htg : same_targets comps comps' op shared.
Hypothesis Hty : same_types pascal ts ts' comps op shared oid.

Lemma item_carry {A} (get : components -> list (str * ref_or A)) r x :
  (resolves get comps r x -> resolves get comps' r x) -> item get comps r = Ok x -> item get comps' r = Ok x.
Proof. intros H E. apply item_ok_iff, H, item_ok_iff, E. Qed.

Lemma items_carry refs ps : (forall r, In r refs -> In r (shared ++ op_parameters op)) ->
  items co_parameters refs comps = Ok ps -> items co_parameters refs comps' = Ok ps.
Proof.
  unfold items. intros Hin H. apply (mapM_carry _ _ _ _ H). intros r x Hr. apply item_carry. apply (tg_parameters _ _ _ _ Htg). auto.
Qed.

Lemma param_carry p q : counts comps shared (op_parameters op) p ->
  process_param snake pascal ts oid p = Ok q -> process_param snake pascal ts' oid p = Ok q.
Proof.
  intros Hc H. unfold process_param in *.
  assert (Ha : forall s t, param_schema (parameter_data p) = Ok s ->
    ts_add ts s (pascal (oid ++ lit "-" ++ pd_name (parameter_data p))) = Ok t ->
    ts_add ts' s (pascal (oid ++ lit "-" ++ pd_name (parameter_data p))) = Ok t).
  { intros s t Hs. apply (sy_add _ _ _ _ _ _ _ Hty). apply (ty_param _ _ _ _ _ p s Hc). unfold param_schema in Hs.
    destruct (pd_schema _); [now injection Hs as ->|discriminate]. }
  destruct p as [dt st|dt|dt st|dt]; cbn [parameter_data] in Ha.
  - destruct st; try discriminate. apply obind_ok in H as (s & Hs & H). apply obind_ok in H as (t & Ht & H).
    rewrite Hs. cbn [obind]. rewrite (Ha s t Hs Ht). cbn [obind]. rewrite (sy_details _ _ _ _ _ _ _ Hty). exact H.
  - apply obind_ok in H as (s & Hs & H). apply obind_ok in H as (t & Ht & H).
    rewrite Hs. cbn [obind]. rewrite (Ha s t Hs Ht). exact H.
  - destruct st; try discriminate. destruct (negb _); [discriminate|].
    apply obind_ok in H as (s & Hs & H). apply obind_ok in H as (t & Ht & H).
    rewrite Hs. cbn [obind]. rewrite (Ha s t Hs Ht). exact H.
  - discriminate.
Qed.

Lemma body_carry b : get_body_param pascal ts oid (op_request_body op) comps = Ok b ->
  get_body_param pascal ts' oid (op_request_body op) comps' = Ok b.
Proof.
  unfold get_body_param. destruct (op_request_body op) as [r|] eqn:Er; [|auto]. intro H.
  apply obind_ok in H as (rb & Hrb & H). rewrite (item_carry _ _ _ (tg_body _ _ _ _ Htg r rb Er) Hrb). cbn [obind].
  destruct (rb_content rb) as [|[cs mt] [|? ?]] eqn:Ec; try exact H.
  assert (Ho : only_media comps (op_request_body op) cs mt).
  { rewrite Er. apply (only_media_intro _ _ rb); [now apply item_ok_iff|exact Ec]. }
  destruct (mt_schema mt) as [sch|] eqn:Es; [|exact H].
  apply obind_ok in H as (ct & Hct & H). rewrite Hct. cbn [obind]. apply obind_ok in H as (typ & Htyp & H).
  assert (Hm : media_is cs ct) by (apply body_content_type_iff; exact Hct).
  enough (E : match ct with
    | OctetStream => do s <- item co_schemas comps' sch;
        if plain_string is_binary_format s then Ok PRawBody else Err (UnexpectedFormat (lit "invalid schema for application/octet-stream"))
    | Text _ => do s <- item co_schemas comps' sch;
        if plain_string is_empty_format s then Ok PRawBody else Err (UnexpectedFormat (lit "invalid schema for " ++ body_content_type_str ct))
    | Json | FormUrlencoded => if negb (mt_encoding_empty mt) then Panic (lit "not yet implemented: media type encoding not empty")
        else do t <- ts_add ts' sch (pascal (oid ++ lit "-body")); Ok (PType t)
    end = Ok typ) by (rewrite E; exact H). clear H.
  assert (Hs : forall x, ct = OctetStream \/ (exists mime, ct = Text mime) -> item co_schemas comps sch = Ok x -> item co_schemas comps' sch = Ok x).
  { intros x Hk. apply item_carry. exact (tg_schema _ _ _ _ Htg cs mt ct sch x Ho Hm Hk Es). }
  assert (Hj : forall t, ct = Json \/ ct = FormUrlencoded ->
    ts_add ts sch (pascal (oid ++ lit "-body")) = Ok t -> ts_add ts' sch (pascal (oid ++ lit "-body")) = Ok t).
  { intros t Hk. apply (sy_add _ _ _ _ _ _ _ Hty). exact (ty_body _ _ _ _ _ cs mt sch ct Ho Es Hm Hk). }
  destruct ct as [| | |].
  all: try (apply obind_ok in Htyp as (s & Hi & Htyp); rewrite (Hs s) by eauto; exact Htyp).
  all: destruct (negb _); [discriminate|]; apply obind_ok in Htyp as (t & Ht & Htyp); rewrite (Hj t) by eauto; exact Htyp.
Qed.

Lemma response_carry ws v r : In v (documented op) ->
  process_response pascal ts oid ws comps v = Ok r -> process_response pascal ts' oid ws comps' v = Ok r.
Proof.
  intros Hv H. unfold process_response in *. destruct v as [key rr]. cbn [fst snd] in *.
  assert (He : doc_entry op key rr) by now apply documented_iff.
  apply obind_ok in H as (doc & Hd & H). rewrite (item_carry _ _ _ (tg_answers _ _ _ _ Htg key rr doc He) Hd). cbn [obind].
  apply obind_ok in H as (typ & Ht & H).
  destruct (find (fun xm => is_json_name (fst xm)) (rd_content doc)) as [[n mt]|] eqn:Ef.
  - destruct (negb (mt_encoding_empty mt)); [discriminate|]. destruct (mt_schema mt) as [sch|] eqn:Es; [|discriminate].
    apply obind_ok in Ht as (t & Ha & Ht).
    rewrite (sy_add _ _ _ _ _ _ _ Hty sch _ t); [cbn [obind]; injection Ht as <-; exact H| |exact Ha].
    apply (ty_answer _ _ _ _ _ mt sch); [|exact Es].
    pose proof (find_split (fun xm : str * media_type => is_json_name (fst xm)) (rd_content doc)) as Hf. rewrite Ef in Hf.
    destruct Hf as (pre & post & Ec & Hpre & Hn). apply item_ok_iff in Hd.
    apply (json_answer_intro comps op key rr doc pre n mt post He Hd Ec).
    + revert Hpre. apply Forall_impl. intros xm Hx Hj. apply is_json_name_iff in Hj. congruence.
    + now apply is_json_name_iff.
  - injection Ht as <-. exact H.
Qed.

Lemma pagination_carry ext ps rs : dropshot_pagination_data ts' ext ps rs = dropshot_pagination_data ts ext ps rs.
Proof.
  pose proof (sy_details _ _ _ _ _ _ _ Hty) as Hd. unfold dropshot_pagination_data.
  repeat first [rewrite Hd | reflexivity | match goal with |- match ?x with _ => _ end = _ => destruct x end].
Qed.

Lemma operation_carry path verb m : op_id op = Some oid ->
  process_operation snake pascal ts op comps path verb shared = Ok m ->
  process_operation snake pascal ts' op comps' path verb shared = Ok m.
Proof.
  intros Hid H. unfold process_operation in *. rewrite Hid in *.
  apply obind_ok in H as (m0 & Hm0 & H). unfold parameter_map in Hm0. apply obind_ok in Hm0 as (others & Hoth & Hm0).
  assert (Hoth' : parameter_map shared comps' = Ok m0).
  { unfold parameter_map. rewrite (items_carry shared others); [exact Hm0| |exact Hoth]. intros r Hr. apply in_or_app. now left. }
  rewrite Hoth'. cbn [obind]. apply obind_ok in H as (own & Hown & H).
  rewrite (items_carry (op_parameters op) own); [|intros r Hr; apply in_or_app; now right|exact Hown]. cbn [obind]. cbv zeta in *.
  apply obind_ok in H as (qs & Hqs & H). injection Hm0 as <-.
  rewrite (mapM_carry _ (process_param snake pascal ts' oid) _ _ Hqs).
  2: { intros p q Hp. apply param_carry. unfold items in Hoth, Hown. apply mapM_ok in Hoth, Hown.
       apply (in_counts _ _ _ others own); auto.
       - revert Hoth. apply f2_impl. intros r x. apply item_ok_iff.
       - revert Hown. apply f2_impl. intros r x. apply item_ok_iff. }
  cbn [obind]. apply obind_ok in H as (body & Hb & H). rewrite (body_carry _ Hb). cbn [obind].
  apply obind_ok in H as (tmp & Htmp & H). rewrite Htmp. cbn [obind].
  apply obind_ok in H as (ps & Hps & H). rewrite Hps. cbn [obind].
  apply obind_ok in H as (rs & Hrs & H). unfold process_responses in *. apply obind_ok in Hrs as (rs0 & Hrs0 & Hrs).
  rewrite (mapM_carry _ (process_response pascal ts' oid _ comps') _ _ Hrs0) by (intros v r; apply response_carry). cbn [obind].
  cbv zeta in *. injection Hrs as <-. rewrite pagination_carry. exact H.
Qed.
End Op.

Section Document.
Variables (U : unicode) (add_ref_types : list (str * ref_or schema) -> outcome type_space)
  (types : type_id -> option type_info) (s : settings).
Hypothesis Hvalid : forall d, validate_openapi U d = Ok tt <-> valid_document U d.

Lemma generate_inv d g : generate_tokens U add_ref_types types s d = Ok g ->
  exists ts ms, valid_document U d /\ add_ref_types (component_schemas d) = Ok ts
    /\ Forall2 (processed U ts d) (doc_ops 0 (oa_paths d)) ms /\ code_for U types s d ms = Ok (ge_code g).
Proof.
  unfold generate_tokens. fold (component_schemas d). intro H. apply obind_ok in H as ([] & Hv & H).
  apply obind_ok in H as (ts & Hts & H). apply obind_ok in H as (groups & Hg & H).
  fold (code_for U types s d (concat groups)) in H. apply obind_ok in H as (code & Hc & H). injection H as <-.
  exists ts, (concat groups). split; [now apply Hvalid|]. split; [exact Hts|]. split; [now apply process_paths|exact Hc].
Qed.

Lemma processed_carry d d' e e' ts ts' m : shared_by U add_ref_types d d' e e' ->
  add_ref_types (component_schemas d) = Ok ts -> add_ref_types (component_schemas d') = Ok ts' ->
  processed U ts d e m -> processed U ts' d' e' m.
Proof.
  intros [(E1 & E2 & E3 & E4) Htg Hty] Hts Hts' H. unfold processed in *. rewrite <- E1, <- E2, <- E3, <- E4.
  destruct (op_id (do_op e)) as [oid|] eqn:Eid; [|unfold process_operation in H; rewrite Eid in H; discriminate].
  exact (operation_carry _ _ _ _ _ _ _ _ oid Htg (Hty ts ts' oid Hts Hts' eq_refl) _ _ _ Eid H).
Qed.

(** *** Generated *)

Lemma local_generated d' ts' : valid_document U d' -> add_ref_types (component_schemas d') = Ok ts' ->
  ~ (se_interface s = Positional /\ se_tag s = Separate) ->
  (forall e', in_document d' e' -> exists d e g, generate_tokens U add_ref_types types s d = Ok g /\ in_document d e
     /\ shared_by U add_ref_types d d' e e') ->
  exists g', generate_tokens U add_ref_types types s d' = Ok g'.
Proof.
  intros Hv Hts' Hst Hops.
  assert (Hpr : forall e', In e' (doc_ops 0 (oa_paths d')) -> exists m, processed U ts' d' e' m
    /\ (exists sb, method_sig_body (se_hooks s) m = Ok sb) /\ Forall (fits types (se_interface s)) (m_params m)
    /\ (forall pg, m_paginated m = Some pg -> types (pg_item pg) <> None)).
  { intros e' He'. apply (doc_ops_in_order d') in He'. destruct (Hops e' He') as (d & e & g & Hg & He & Hsh).
    apply generate_inv in Hg as (ts & ms & _ & Hts & HF & Hc). apply (doc_ops_in_order d) in He.
    destruct (forall2_In_l _ _ _ _ HF He) as (m & Hm & Hp).
    destruct (proj1 (code_iff U types s d ms) (ex_intro _ _ Hc)) as (_ & Hms). rewrite Forall_forall in Hms.
    exists m. split; [exact (processed_carry _ _ _ _ _ _ _ Hsh Hts Hts' Hp)|]. exact (Hms m Hm). }
  unfold generate_tokens. rewrite (proj2 (Hvalid d') Hv). cbn [obind]. fold (component_schemas d'). rewrite Hts'. cbn [obind].
  destruct (process_paths_total U ts' d' (oa_paths d') 0) as (groups & Hgr).
  { intros p r. apply (vd_no_refs _ _ Hv). }
  { intros e He. destruct (Hpr e He) as (m & Hm & _). eauto. }
  rewrite Hgr. cbn [obind]. fold (code_for U types s d' (concat groups)).
  enough (exists c, code_for U types s d' (concat groups) = Ok c) as (c & ->) by (cbn; eauto).
  apply code_iff. split; [exact Hst|]. apply Forall_forall. intros m Hm.
  destruct (forall2_In_r _ _ _ _ (process_paths U ts' d' (oa_paths d') 0 groups Hgr) Hm) as (e & He & Hp).
  destruct (Hpr e He) as (m' & Hp' & H). assert (m' = m) by (unfold processed in *; congruence). subst m'. exact H.
Qed.

Lemma same_self d d' e e' : oa_components d' = oa_components d -> same_place e e' -> shared_by U add_ref_types d d' e e'.
Proof.
  intros Hc Hp. split; [exact Hp|rewrite Hc; split; auto|].
  intros ts ts' oid H H'. assert (ts' = ts) by (unfold component_schemas in *; rewrite Hc in H'; congruence). subst ts'. split; auto.
Qed.

Lemma place_unique d e f : NoDup (map fst (oa_paths d)) -> in_document d e -> in_document d f ->
  do_path e = do_path f -> do_method e = do_method f -> e = f.
Proof.
  intros Hn (i & Hi & Ho & Hp) (j & Hj & Hq & Hr) E1 E2.
  assert (Hk : do_index e = do_index f).
  { apply (proj1 (NoDup_nth_error (map fst (oa_paths d))) Hn).
    - apply nth_error_Some. rewrite (map_nth_error fst _ _ Hi). discriminate.
    - rewrite (map_nth_error fst _ _ Hi), (map_nth_error fst _ _ Hj). cbn. congruence. }
  rewrite <- Hk in Hj. rewrite Hi in Hj. injection Hj as E3 E4. subst j. destruct e as [a b c x y], f as [a' b' c' x' y']. cbn in *. subst. congruence.
Qed.

Lemma part_valid d' d : part_of d' d -> valid_document U d -> valid_document U d'.
Proof.
  intros [Hver Hc Hn Hi Hops] [V1 V2 V3 V4]. split; [now rewrite Hver|exact Hi| |].
  - intros e He. destruct (Hops e He) as (e0 & He0 & _ & _ & Eo & _). rewrite <- Eo. auto.
  - intros e f He Hf E. destruct (Hops e He) as (e0 & He0 & P1 & P2 & P3 & P4). destruct (Hops f Hf) as (f0 & Hf0 & Q1 & Q2 & Q3 & Q4).
    assert (e0 = f0) by (apply V4; auto; congruence). subst f0. apply (place_unique d'); auto; congruence.
Qed.

Lemma part_generated d' d g : part_of d' d -> generate_tokens U add_ref_types types s d = Ok g ->
  exists g', generate_tokens U add_ref_types types s d' = Ok g'.
Proof.
  intros Hp Hg. destruct (generate_inv d g Hg) as (ts & ms & Hv & Hts & _ & Hc).
  apply (local_generated d' ts).
  - now apply (part_valid d' d).
  - unfold component_schemas in *. now rewrite (po_components _ _ Hp).
  - exact (proj1 (proj1 (code_iff U types s d ms) (ex_intro _ _ Hc))).
  - intros e' He'. destruct (po_operations _ _ Hp e' He') as (e & He & Hpl). exists d, e, g. split; [exact Hg|]. split; [exact He|].
    apply same_self; [exact (po_components _ _ Hp)|exact Hpl].
Qed.

(** *** Code *)

Lemma structs_of d ms c : se_interface s = Builder -> code_for U types s d ms = Ok c ->
  Forall2 (fun m sc => struct_of U types (se_hooks s) (se_tag s) m = Ok sc) ms (oc_builders c).
Proof.
  intros Hi H. unfold code_for in H. rewrite Hi in H. destruct (se_tag s).
  - unfold generate_tokens_builder_merged in H. apply obind_ok in H as (st & Hs & H). injection H as <-. now apply mapM_ok.
  - unfold generate_tokens_builder_separate in H. apply obind_ok in H as (st & Hs & H).
    destruct (builder_tags _ _ _). injection H as <-. now apply mapM_ok.
Qed.

Section Two.
Variables (d d' : openapi) (g g' : generated_code) (l l' : list doc_op) (k k' : nat) (e e' : doc_op).
Hypothesis Hg : generate_tokens U add_ref_types types s d = Ok g.
Hypothesis Hg' : generate_tokens U add_ref_types types s d' = Ok g'.
Hypothesis Hl : operations_in_order d l.
Hypothesis Hl' : operations_in_order d' l'.
Hypothesis He : nth_error l k = Some e.
Hypothesis He' : nth_error l' k' = Some e'.
Hypothesis Hsh : shared_by U add_ref_types d d' e e'.

Lemma same_method : exists ts ts' ms ms' m, Forall2 (processed U ts d) l ms /\ Forall2 (processed U ts' d') l' ms'
  /\ nth_error ms k = Some m /\ nth_error ms' k' = Some m
  /\ code_for U types s d ms = Ok (ge_code g) /\ code_for U types s d' ms' = Ok (ge_code g').
Proof.
  destruct (generate_inv d g Hg) as (ts & ms & _ & Hts & HF & Hc). destruct (generate_inv d' g' Hg') as (ts' & ms' & _ & Hts' & HF' & Hc').
  rewrite <- (in_order_unique d l Hl) in HF. rewrite <- (in_order_unique d' l' Hl') in HF'.
  destruct (f2_nth _ _ _ HF k e He) as (m & Hm & Hp). destruct (f2_nth _ _ _ HF' k' e' He') as (m' & Hm' & Hp').
  exists ts, ts', ms, ms', m. repeat (split; [assumption|]). split; [|auto]. rewrite Hm'. f_equal.
  pose proof (processed_carry _ _ _ _ _ _ _ Hsh Hts Hts' Hp). unfold processed in *. congruence.
Qed.

Lemma same_builder : se_interface s = Builder -> exists sc,
  nth_error (oc_builders (ge_code g)) k = Some sc /\ nth_error (oc_builders (ge_code g')) k' = Some sc.
Proof.
  intro Hi. destruct same_method as (ts & ts' & ms & ms' & m & _ & _ & Hm & Hm' & Hc & Hc').
  destruct (f2_nth _ _ _ (structs_of d ms _ Hi Hc) k m Hm) as (sc & Hs & E).
  destruct (f2_nth _ _ _ (structs_of d' ms' _ Hi Hc') k' m Hm') as (sc' & Hs' & E').
  exists sc. split; [exact Hs|]. rewrite Hs'. congruence.
Qed.

(** The items of a list of lists, one of them. *)
Lemma concat_at {A} (ll : list (list A)) : forall k x, nth_error ll k = Some x ->
  exists pre post, ll = pre ++ x :: post /\ length pre = k.
Proof. intros n x H. apply nth_error_split in H as (pre & post & -> & <-). eauto. Qed.

Lemma own_one m items h : positional_method types h m = Ok items -> length (filter (fun i => negb (is_stream i)) items) = 1%nat.
Proof.
  intro H. apply positional_items in H as (tys & sb & rest & _ & _ & -> & [[_ ->]|[_ ->]]); reflexivity.
Qed.
Lemma own_count h ms ll : Forall2 (fun m its => positional_method types h m = Ok its) ms ll ->
  length (filter (fun i => negb (is_stream i)) (concat ll)) = length ll.
Proof.
  induction 1 as [|m its ms ll H _ IH]; [reflexivity|]. cbn [concat]. rewrite filter_app, app_length, (own_one _ _ _ H), IH. reflexivity.
Qed.

Lemma same_items : se_interface s = Positional -> exists pre items post pre' post',
  oc_impl (ge_code g) = pre ++ items ++ post /\ oc_impl (ge_code g') = pre' ++ items ++ post'
  /\ length (filter (fun i => negb (is_stream i)) pre) = k /\ length (filter (fun i => negb (is_stream i)) pre') = k'
  /\ length (filter (fun i => negb (is_stream i)) items) = 1%nat.
Proof.
  intro Hi. destruct same_method as (ts & ts' & ms & ms' & m & _ & _ & Hm & Hm' & Hc & Hc').
  assert (Hx : forall d0 ms0 c0 n, code_for U types s d0 ms0 = Ok c0 -> nth_error ms0 n = Some m ->
    exists pre items post, oc_impl c0 = pre ++ items ++ post /\ positional_method types (se_hooks s) m = Ok items
      /\ length (filter (fun i => negb (is_stream i)) pre) = n).
  { intros d0 ms0 c0 n H Hn. unfold code_for in H. rewrite Hi in H. destruct (se_tag s); [|discriminate].
    unfold generate_tokens_positional_merged in H. apply obind_ok in H as (ll & Hll & H). injection H as <-. apply mapM_ok in Hll.
    destruct (f2_nth _ _ _ Hll n m Hn) as (items & Hit & Hp). apply nth_error_split in Hit as (lp & lq & -> & Hlen).
    exists (concat lp), items, (concat lq). cbn [oc_impl]. rewrite concat_app. cbn [concat]. split; [reflexivity|]. split; [exact Hp|].
    apply Forall2_app_inv_r in Hll as (m1 & m2 & H1 & _ & _). rewrite (own_count _ _ _ H1). exact Hlen. }
  destruct (Hx d ms _ k Hc Hm) as (pre & items & post & E & Hp & Hn). destruct (Hx d' ms' _ k' Hc' Hm') as (pre' & items' & post' & E' & Hp' & Hn').
  assert (items' = items) by congruence. subst items'. exists pre, items, post, pre', post'. repeat (split; [assumption|]). exact (own_one _ _ _ Hp).
Qed.
End Two.
End Document.

(** *** The order of the paths *)

Lemma reordered_part d d' : oa_openapi d' = oa_openapi d -> oa_components d' = oa_components d ->
  Permutation (oa_paths d) (oa_paths d') -> NoDup (map fst (oa_paths d)) -> (forall path r, ~ In (path, Ref r) (oa_paths d)) -> part_of d' d.
Proof.
  intros Hv Hc Hp Hn Hr. split; auto.
  - apply (Permutation_NoDup (Permutation_map fst Hp) Hn).
  - intros path r Hi. apply (Hr path r). now apply (Permutation_in _ (Permutation_sym Hp)).
  - intros e' (i & Hi & Ho & Hq). apply nth_error_In in Hi. apply (Permutation_in _ (Permutation_sym Hp)) in Hi.
    apply In_nth_error in Hi as (n & Hn'). exists (DocOp n (do_path e') (do_method e') (do_op e') (do_params e')).
    split; [exists i; cbn; auto|]. repeat split.
Qed.

Lemma reordered_iff U add_ref_types types s d d' (Hvalid : forall d, validate_openapi U d = Ok tt <-> valid_document U d) :
  oa_openapi d' = oa_openapi d -> oa_components d' = oa_components d ->
  Permutation (oa_paths d) (oa_paths d') -> NoDup (map fst (oa_paths d)) ->
  ((exists g, generate_tokens U add_ref_types types s d = Ok g) <-> (exists g', generate_tokens U add_ref_types types s d' = Ok g')).
Proof.
  assert (Hx : forall d d' g, oa_openapi d' = oa_openapi d -> oa_components d' = oa_components d ->
    Permutation (oa_paths d) (oa_paths d') -> NoDup (map fst (oa_paths d)) -> generate_tokens U add_ref_types types s d = Ok g ->
    exists g', generate_tokens U add_ref_types types s d' = Ok g').
  { intros d0 d1 g H1 H2 H3 H4 H. apply (part_generated U add_ref_types types s Hvalid d1 d0 g); [|exact H].
    apply reordered_part; auto. destruct (generate_inv U add_ref_types types s Hvalid d0 g H) as (_ & _ & Hv & _). exact (vd_no_refs _ _ Hv). }
  intros H1 H2 H3 H4. split; intros (g & H).
  - exact (Hx d d' g H1 H2 H3 H4 H).
  - apply (Hx d' d g); auto using Permutation_sym. exact (Permutation_NoDup (Permutation_map fst H3) H4).
Qed.

(** *** More components *)

(** All of one list of components is in another. *)
Definition within {A} (l l' : list (str * ref_or A)) : Prop := forall key r, assoc key l = Some r -> assoc key l' = Some r.

Lemma resolves_within {A} (get : components -> list (str * ref_or A)) c c' r x : within (get c) (get c') ->
  resolves get (Some c) r x -> resolves get (Some c') r x.
Proof.
  intros Hw H. remember (Some c) as comps eqn:E. induction H as [a|reference key c0 r a E0 Hl Ha Hr IH]; [constructor|].
  assert (c0 = c) by congruence. subst c0. apply (res_ref get (Some c') reference key c' r a eq_refl Hl (Hw _ _ Ha) IH).
Qed.

Lemma within_targets c c' op shared : within (co_parameters c) (co_parameters c') -> within (co_request_bodies c) (co_request_bodies c') ->
  within (co_responses c) (co_responses c') -> within (co_schemas c) (co_schemas c') -> same_targets (Some c) (Some c') op shared.
Proof. intros H1 H2 H3 H4. split; intros; eapply resolves_within; eauto. Qed.

(** Proofs about the documentation of a client. *)
From Coq Require Import Sorted.
From Verif Require Import Base OasModel TemplateModel MethodModel OpModel RunModel BuilderModel FutureModel
  StreamModel SanitizeModel TemplateSpec TemplateProofs ParamProofs GenerateModel GenerateSpec ValidateProofs
  GenerateProofs GenerateCor LinkSpec.

Lemma join_separated sep x l : separated sep (x :: l) (join_str sep (x :: l)).
Proof.
  revert x; induction l as [|y l IH]; intro x; [constructor|].
  change (join_str sep (x :: y :: l)) with (x ++ sep ++ join_str sep (y :: l)). constructor. apply IH.
Qed.

Lemma client_docstring_spec d : client_doc d (client_docstring d).
Proof.
  unfold client_doc, client_docstring, paragraphs. rewrite (app_assoc (lit "Client for ") (oa_title d)).
  destruct (oa_description d), (oa_terms_of_service d); cbn [given]; rewrite <- ?app_assoc, ?(app_assoc (lit "Client for ") (oa_title d));
    repeat apply (sep_more [10; 10]%N); apply sep_one.
Qed.

Lemma repeat_count {A} (x y : A) n : In y (repeat x n) <-> y = x /\ n <> 0.
Proof.
  induction n as [|n IH]; cbn.
  - split; [easy|]. now intros [_ H].
  - rewrite IH. split.
    + intros [<-|[-> _]]; auto.
    + intros [-> _]. auto.
Qed.

Section Links.
Variable U : unicode.

(** The methods of a trait. *)
Lemma tagged_methods ms t i :
  In i (flat_map (fun m => repeat (builder_helper U m) (count_occ str_eq_dec (m_tags m) t)) ms) <->
  exists m, In m ms /\ In t (m_tags m) /\ i = builder_helper U m.
Proof.
  rewrite in_flat_map. split.
  - intros (m & Hm & H). apply repeat_count in H as [-> H]. exists m. split; auto. split; auto.
    apply (count_occ_In str_eq_dec). lia.
  - intros (m & Hm & H & ->). exists m. split; auto. apply repeat_count. split; auto.
    apply (count_occ_In str_eq_dec) in H. lia.
Qed.

Lemma tags_items ms info base traits : builder_tags U ms info = (base, traits) ->
  (forall i, In i base <-> exists m, In m ms /\ m_tags m = [] /\ i = builder_helper U m)
  /\ (forall tr, In tr traits -> exists t, tc_name tr = trait_name U t /\ tc_impl tr = tc_methods tr
        /\ forall i, In i (tc_methods tr) <-> exists m, In m ms /\ In t (m_tags m) /\ i = builder_helper U m)
  /\ (forall m t, In m ms -> In t (m_tags m) -> exists tr, In tr traits /\ tc_name tr = trait_name U t
        /\ tc_impl tr = tc_methods tr /\ In (builder_helper U m) (tc_methods tr)).
Proof.
  unfold builder_tags. intro H.
  pose proof (tag_steps U ms [] [] ext_nil_ok) as Hs.
  destruct (fold_left (tag_step U) ms ([], [])) as [base' ext].
  destruct Hs as ([Ho _] & Hb & Hlk). cbn [app] in Hb. injection H as <- <-.
  split; [|split].
  - intro i. rewrite Hb, in_map_iff. split.
    + intros (m & <- & Hm). apply filter_In in Hm as [Hm Ht]. exists m. destruct (m_tags m); auto. discriminate.
    + intros (m & Hm & Ht & ->). exists m. split; auto. apply filter_In. now rewrite Ht.
  - intros tr Hi. apply in_map_iff in Hi as ([k v] & <- & Hi). exists k. cbn. split; auto. split; auto.
    intro i. pose proof (Hlk k) as Hk. unfold lookup in Hk at 1. rewrite (assoc_in _ _ _ Ho Hi) in Hk. cbn in Hk.
    rewrite Hk. apply tagged_methods.
  - intros m t Hm Ht. assert (Hi : In (builder_helper U m) (lookup t ext)).
    { rewrite Hlk. cbn. apply tagged_methods. eauto. }
    unfold lookup in Hi. destruct (assoc t ext) as [v|] eqn:E; [|easy]. apply assoc_fst_in in E.
    eexists. split; [apply in_map_iff; exists (t, v); split; [reflexivity|exact E]|]. cbn. auto.
Qed.

Lemma builder_helper_spec ts d e m : processed U ts d e m ->
  builder_helper U m = ImBuilder (method_name U e) (builder_doc m) (builder_name U e).
Proof.
  intro H. unfold builder_helper, struct_name, builder_name, pascal.
  now rewrite (fa_name _ _ _ _ (processed_facts _ _ _ _ _ H)).
Qed.

(** The places of a method. *)
Definition places (style : tag_style) (tags : list str) : list str :=
  match style, tags with
  | Merged, _ | Separate, [] => [lit "Client"]
  | Separate, _ => map (trait_name U) tags
  end.

Lemma link_doc_text name place :
  link_doc (place ++ lit "::" ++ name) = lit "Builder for " ++ link name place ++ [10; 10]%N ++ leads name place.
Proof.
  unfold link_doc, leads, link.
  change (lit "Builder for [`") with (lit "Builder for " ++ lit "[`").
  change (lit "`]: super::") with (lit "`]" ++ lit ": super::").
  now rewrite <- !app_assoc.
Qed.

Lemma struct_doc_text style m : builder_text (m_operation_id m) (places style (m_tags m)) (struct_doc U style m).
Proof.
  assert (H0 : builder_text (m_operation_id m) [lit "Client"] (link_doc (lit "Client::" ++ m_operation_id m))).
  { change (lit "Client::") with (lit "Client" ++ lit "::"). rewrite <- app_assoc, link_doc_text. constructor. }
  unfold struct_doc, places. destruct style; [exact H0|]. destruct (m_tags m) as [|a [|b tags]]; [exact H0| |].
  - cbn [map]. rewrite link_doc_text. constructor.
  - cbn [map]. apply bt_several.
    + rewrite <- !map_cons, map_map. apply join_separated.
    + rewrite <- !map_cons, map_map. cbv zeta.
      replace (map (fun x => leads (m_operation_id m) (trait_name U x)) (a :: b :: tags))
        with (map (fun tag => lit "[`" ++ (trait_name U tag ++ lit "::" ++ m_operation_id m) ++ lit "`]: super::"
                                ++ trait_name U tag ++ lit "::" ++ m_operation_id m) (a :: b :: tags)).
      * apply join_separated.
      * apply map_ext. intro x. unfold leads, link.
        change (lit "`]: super::") with (lit "`]" ++ lit ": super::"). now rewrite <- !app_assoc.
Qed.
End Links.

Lemma Forall2_mem {A B} (R : A -> B -> Prop) l m : Forall2 R l m -> Forall2 (fun a b => R a b /\ In a l /\ In b m) l m.
Proof.
  induction 1 as [|a b l m H _ IH]; constructor; cbn; auto. eapply Forall2_weaken; [|exact IH]. cbn. tauto.
Qed.

Lemma Forall2_right {A B} (R : A -> B -> Prop) l m b : Forall2 R l m -> In b m -> exists a, In a l /\ R a b.
Proof.
  induction 1 as [|x y l m H _ IH]; [easy|]. intros [<-|Hi]; [exists x; cbn; auto|].
  destruct (IH Hi) as (a & Ha & Hr). exists a. cbn; auto.
Qed.

Lemma NoDup_map_inj {A B} (f : A -> B) l a b : NoDup (map f l) -> In a l -> In b l -> f a = f b -> a = b.
Proof.
  induction l as [|x l IH]; [easy|]. cbn. intro H. apply NoDup_cons_iff in H as [Hx H].
  intros [->|Ha] [->|Hb] E; auto.
  - exfalso. apply Hx. rewrite E. now apply in_map.
  - exfalso. apply Hx. rewrite <- E. now apply in_map.
Qed.

Section Cor.
Variable U : unicode.
Variable add_ref_types : list (str * ref_or schema) -> outcome type_space.
Variable types : type_id -> option type_info.
Variables (s : settings) (d : openapi) (g : generated_code) (l : list doc_op).
Hypothesis Hgen : generate_tokens U add_ref_types types s d = Ok g.
Hypothesis Hl : operations_in_order d l.

Lemma client_documented : client_doc d (ge_doc g).
Proof.
  destruct (the_run U add_ref_types types s d g l Hgen Hl) as (ts & ms & R & _).
  rewrite (ro_doc _ _ _ _ _ _ _ R). apply client_docstring_spec.
Qed.

Lemma client_version : ge_version g = oa_version d
  /\ (In (lit "inner") (ge_fixed g) <-> se_inner s = true).
Proof.
  destruct (the_run U add_ref_types types s d g l Hgen Hl) as (ts & ms & R & _).
  rewrite (ro_version _ _ _ _ _ _ _ R), (ro_fixed _ _ _ _ _ _ _ R). split; auto.
  unfold fixed_methods. destruct (se_inner s); cbn; intuition discriminate.
Qed.

(** What there is in a client of builders. *)
Lemma builder_code_of : se_interface s = Builder -> exists ts ms, Forall2 (processed U ts d) l ms
  /\ Forall2 (fun m sc => struct_of U types (se_hooks s) (se_tag s) m = Ok sc) ms (oc_builders (ge_code g))
  /\ (forall i, In i (oc_impl (ge_code g)) <->
        exists m, In m ms /\ In (lit "Client") (places U (se_tag s) (m_tags m)) /\ i = builder_helper U m)
  /\ (forall tr, In tr (oc_traits (ge_code g)) -> exists t, tc_name tr = trait_name U t /\ tc_impl tr = tc_methods tr
        /\ forall i, In i (tc_methods tr) <-> exists m, In m ms /\ In t (m_tags m) /\ i = builder_helper U m)
  /\ (se_tag s = Merged -> oc_traits (ge_code g) = [])
  /\ (se_tag s = Separate -> forall m t, In m ms -> In t (m_tags m) ->
        exists tr, In tr (oc_traits (ge_code g)) /\ tc_name tr = trait_name U t
        /\ tc_impl tr = tc_methods tr /\ In (builder_helper U m) (tc_methods tr)).
Proof.
  intro Hi. destruct (the_run U add_ref_types types s d g l Hgen Hl) as (ts & ms & R & F). exists ts, ms. split; auto.
  pose proof (ro_code _ _ _ _ _ _ _ R) as Hc. unfold code_for in Hc. rewrite Hi in Hc. destruct (se_tag s).
  - unfold generate_tokens_builder_merged in Hc. apply obind_ok in Hc as (st & Hst & Hc). injection Hc as <-.
    cbn [oc_builders oc_impl oc_traits]. apply mapM_ok in Hst. split; [exact Hst|]. split; [|split; [easy|split; easy]].
    intro i. rewrite in_map_iff. split.
    + intros (m & <- & Hm). exists m. cbn. auto.
    + intros (m & Hm & _ & ->). eauto.
  - unfold generate_tokens_builder_separate in Hc. apply obind_ok in Hc as (st & Hst & Hc).
    destruct (builder_tags U ms _) as [base traits] eqn:Eb. injection Hc as <-.
    cbn [oc_builders oc_impl oc_traits]. apply mapM_ok in Hst. split; [exact Hst|].
    destruct (tags_items _ _ _ _ _ Eb) as (H1 & H2 & H3). split; [|split; [exact H2|split; [easy|auto]]].
    intro i. rewrite H1. split; intros (m & Hm & Ht & ->); exists m; split; auto; split; auto.
    + rewrite Ht. cbn. auto.
    + unfold places in Ht. destruct (m_tags m) as [|t tags]; auto. exfalso.
      apply in_map_iff in Ht as (x & Hx & _). unfold trait_name in Hx. revert Hx.
      change (lit "Client") with (lit "Client" ++ []) at 2. intro Hx. apply app_inv_head in Hx.
      destruct (sanitize U x Pascal); discriminate Hx.
Qed.

Lemma builder_links : se_interface s = Builder ->
  Forall2 (fun e sc => exists where_,
      builder_text (method_name U e) where_ (sc_doc sc)
      /\ (forall p, In p where_ -> offered (ge_code g) (method_name U e) (builder_name U e) p)
      /\ (NoDup (map (method_name U) l) -> forall p, offered (ge_code g) (method_name U e) (builder_name U e) p -> In p where_))
    l (oc_builders (ge_code g)).
Proof.
  intro Hi. destruct (builder_code_of Hi) as (ts & ms & F & Fs & Hbase & Htr & Hmerged & Hsep).
  pose proof (Forall2_mem _ _ _ F) as F'.
  refine (Forall2_trans _ _ _ _ _ _ _ F' Fs). clear Fs F'. intros e m sc (Hp & He & Hm) Hsc.
  pose proof (processed_facts _ _ _ _ _ Hp) as Hf. pose proof (builder_helper_spec _ _ _ _ _ Hp) as Hh.
  unfold struct_of in Hsc. apply obind_ok in Hsc as (c & _ & Hsc). injection Hsc as <-. cbn [sc_doc].
  exists (places U (se_tag s) (m_tags m)). split; [rewrite <- (fa_name _ _ _ _ Hf); apply struct_doc_text|]. split.
  - intros p Hin. unfold places in Hin. destruct (se_tag s) eqn:Es.
    + destruct Hin as [<-|[]]. apply of_client with (builder_doc m). rewrite <- Hh. apply Hbase. exists m.
      cbn. auto.
    + destruct (m_tags m) as [|t0 tags0] eqn:Et.
      * destruct Hin as [<-|[]]. apply of_client with (builder_doc m). rewrite <- Hh. apply Hbase. exists m.
        rewrite Et. cbn. auto.
      * rewrite <- Et in Hin. apply in_map_iff in Hin as (t & <- & Ht).
        destruct (Hsep eq_refl m t Hm Ht) as (tr & H1 & <- & H2 & H3). rewrite Hh in H3.
        apply of_trait with (builder_doc m) (builder_doc m); auto. now rewrite H2.
  - intros Hnd p Ho.
    assert (Hsame : forall m' doc, In m' ms -> ImBuilder (method_name U e) doc (builder_name U e) = builder_helper U m' -> m' = m).
    { intros m' doc Hm' E. destruct (Forall2_right _ _ _ _ F Hm') as (e' & He' & Hp').
      rewrite (builder_helper_spec _ _ _ _ _ Hp') in E.
      assert (e' = e) as ->.
      { eapply NoDup_map_inj; [exact Hnd| | |]; auto. now injection E. }
      unfold processed in Hp, Hp'. congruence. }
    destruct Ho as [doc Ho|tr doc doc' Htri Ho _].
    + apply Hbase in Ho as (m' & Hm' & Ht & E). now rewrite (Hsame _ _ Hm' E) in Ht.
    + destruct (Htr tr Htri) as (t & -> & _ & Hall). apply Hall in Ho as (m' & Hm' & Ht & E).
      rewrite (Hsame _ _ Hm' E) in Ht. unfold places. destruct (se_tag s) eqn:Es.
      * rewrite (Hmerged eq_refl) in Htri. easy.
      * destruct (m_tags m) as [|a tags]; [easy|]. now apply in_map.
Qed.

Lemma builder_texts : se_interface s = Builder ->
  exists ts, Forall2 (fun e sc => exists m, processed U ts d e m /\ sc_send_doc sc = send_text e
      /\ sc_stream_doc sc = (if m_paginated m then Some (stream_text e) else None))
    l (oc_builders (ge_code g)).
Proof.
  intro Hi. destruct (builder_code_of Hi) as (ts & ms & F & Fs & _). exists ts.
  refine (Forall2_trans _ _ _ _ _ _ _ F Fs). clear. intros e m sc Hp Hsc. exists m. split; auto.
  pose proof (processed_facts _ _ _ _ _ Hp) as Hf.
  unfold struct_of in Hsc. apply obind_ok in Hsc as (c & _ & Hsc). injection Hsc as <-. cbn [sc_send_doc sc_stream_doc].
  unfold verb, send_text, stream_text.
  rewrite (fa_method _ _ _ _ Hf), upper_verb_spec, (parse_to_string _ _ (fa_path _ _ _ _ Hf)).
  destruct (m_paginated m); auto.
Qed.

(** The methods that return builders, wherever they are. *)
Lemma builder_items : se_interface s = Builder -> exists ts,
  forall i, (In i (oc_impl (ge_code g)) \/ exists tr, In tr (oc_traits (ge_code g)) /\ (In i (tc_methods tr) \/ In i (tc_impl tr))) ->
  exists e m md eg, In e l /\ processed U ts d e m
    /\ i = ImBuilder (method_name U e) (md ++ eg) (builder_name U e)
    /\ method_doc e (m_params m) md /\ usage (method_name U e) (m_params m) eg.
Proof.
  intro Hi. destruct (builder_code_of Hi) as (ts & ms & F & _ & Hbase & Htr & _ & _). exists ts. intros i Hin.
  assert (exists m, In m ms /\ i = builder_helper U m) as (m & Hm & ->).
  { destruct Hin as [Hin|(tr & Htri & Hin)].
    - apply Hbase in Hin as (m & Hm & _ & E). eauto.
    - destruct (Htr tr Htri) as (t & _ & E & Hall). rewrite E in Hin.
      assert (In i (tc_methods tr)) as H by tauto. apply Hall in H as (m & Hm & _ & E'). eauto. }
  destruct (Forall2_right _ _ _ _ F Hm) as (e & He & Hp). pose proof (processed_facts _ _ _ _ _ Hp) as Hf.
  exists e, m, (make_doc_comment m). eexists. split; auto. split; [exact Hp|].
  rewrite (builder_helper_spec _ _ _ _ _ Hp). unfold builder_doc.
  rewrite (fa_name _ _ _ _ Hf). split; [reflexivity|]. split; [eapply make_doc_spec, Hf|].
  apply usage_intro, call_lines_spec.
Qed.
End Cor.

(** The generated client as a whole: the statements of the properties. *)
From Coq Require Import Sorted.
From Verif Require Import Base OasModel TemplateModel MethodModel OpModel RunModel BuilderModel FutureModel
  StreamModel SanitizeModel TemplateSpec TemplateProofs ParamProofs GenerateModel GenerateSpec ValidateProofs
  GenerateProofs.

Lemma Forall2_trans {A B C} (R : A -> B -> Prop) (S : B -> C -> Prop) (T : A -> C -> Prop) l m n :
  (forall a b c, R a b -> S b c -> T a c) -> Forall2 R l m -> Forall2 S m n -> Forall2 T l n.
Proof.
  intros Ht H. revert n; induction H as [|a b l m Hr _ IH]; intros n H; inversion H; subst; constructor; eauto.
Qed.

Lemma Forall2_map_eq {A B C} (R : A -> B -> Prop) (f : A -> C) (g : B -> C) l m :
  (forall a b, R a b -> g b = f a) -> Forall2 R l m -> map g m = map f l.
Proof. intros Hr H. induction H; cbn; f_equal; auto. Qed.

Lemma Forall2_len {A B} (R : A -> B -> Prop) l m : Forall2 R l m -> length l = length m.
Proof. induction 1; cbn; auto. Qed.

Lemma Forall2_weaken {A B} (R S : A -> B -> Prop) l m :
  (forall a b, R a b -> S a b) -> Forall2 R l m -> Forall2 S l m.
Proof. intros H F. induction F; constructor; auto. Qed.

(** ** Documentation *)

Lemma upper_verb_spec m : to_ascii_uppercase (http_method_str m) = upper_verb m.
Proof. destruct m; reflexivity. Qed.

Lemma drop_dots_spec s : exists dots, s = dots ++ drop_dots s
  /\ Forall (fun c => c = ch "." \/ c = ch ",") dots
  /\ (drop_dots s = [] \/ exists c u, drop_dots s = c :: u /\ c <> ch "." /\ c <> ch ",").
Proof.
  induction s as [|c s (dots & H1 & H2 & H3)]; cbn.
  - exists []. auto.
  - destruct (N.eqb_spec c (ch ".")) as [->|N1]; cbn [orb].
    + exists (ch "." :: dots). split; [cbn; congruence|]. split; auto.
    + destruct (N.eqb_spec c (ch ",")) as [->|N2].
      * exists (ch "," :: dots). split; [cbn; congruence|]. split; auto.
      * exists []. split; auto. split; auto. right. eauto.
Qed.

Lemma headline_spec s suffix :
  headline s suffix (match non_empty s with Some t => trim_end_dots t ++ suffix ++ [10; 10]%N | None => [] end).
Proof.
  destruct s as [[|c t]|]; cbn [non_empty headline]; auto.
  set (u := c :: t). unfold trim_end_dots. destruct (drop_dots_spec (rev u)) as (dots & H1 & H2 & H3).
  exists (rev (drop_dots (rev u))), (rev dots). split.
  - rewrite <- rev_app_distr, <- H1. now rewrite rev_involutive.
  - split; auto. split; [now apply Forall_rev|]. destruct H3 as [->|(x & v & -> & Hx)]; auto.
    right. exists (rev v), x. auto.
Qed.

Lemma paragraph_spec s :
  paragraph s (match non_empty s with Some t => t ++ [10; 10]%N | None => [] end).
Proof. destruct s as [[|c t]|]; cbn; auto. Qed.

Lemma argument_line_spec p : parameter_line p (argument_line p).
Proof.
  unfold argument_line, parameter_line. destruct (p_description p) as [t|].
  - right. exists t. split; auto.
  - left. auto.
Qed.

Lemma argument_lines_spec ps : parameter_list ps (argument_lines ps).
Proof.
  unfold argument_lines, parameter_list.
  destruct (existsb _ ps) eqn:E.
  - right. apply existsb_exists in E as (p & Hp & E). split.
    + apply Exists_exists. exists p. split; auto. now destruct (p_description p).
    + exists (map argument_line ps). split.
      * induction ps; cbn; constructor; auto using argument_line_spec.
        clear. induction ps; cbn; constructor; auto using argument_line_spec.
      * do 2 f_equal. apply flat_map_concat_map.
  - left. split; auto. apply Forall_forall. intros p Hp.
    destruct (p_description p) eqn:Ed; auto. exfalso. rewrite <- not_true_iff_false in E. apply E.
    apply existsb_exists. exists p. rewrite Ed. auto.
Qed.

Lemma filter_page_token ps :
  filter (fun p => negb (str_eqb (p_api_name p) (lit "page_token"))) ps
  = filter (fun p => if str_eq_dec (p_api_name p) (lit "page_token") then false else true) ps.
Proof.
  apply filter_ext. intro p. destruct (str_eq_dec _ _) as [E|E].
  - apply str_eqb_spec in E. now rewrite E.
  - apply str_eqb_neq in E. now rewrite E.
Qed.

Section Cor.
Variable U : unicode.
Variable add_ref_types : list (str * ref_or schema) -> outcome type_space.
Variable types : type_id -> option type_info.

Lemma make_doc_spec d e m : facts U d e m -> method_doc e (m_params m) (make_doc_comment m).
Proof.
  intro F. unfold make_doc_comment, verb.
  rewrite (fa_summary _ _ _ _ F), (fa_description _ _ _ _ F), (fa_method _ _ _ _ F), upper_verb_spec.
  rewrite (parse_to_string _ _ (fa_path _ _ _ _ F)).
  apply (method_doc_intro e (m_params m)).
  - exact (headline_spec (op_summary (do_op e)) []).
  - apply paragraph_spec.
  - reflexivity.
  - apply argument_lines_spec.
Qed.

Lemma make_stream_doc_spec d e m : facts U d e m -> stream_doc e (m_params m) (make_stream_doc_comment m).
Proof.
  intro F. unfold make_stream_doc_comment, verb.
  rewrite (fa_summary _ _ _ _ F), (fa_description _ _ _ _ F), (fa_method _ _ _ _ F), upper_verb_spec.
  rewrite (parse_to_string _ _ (fa_path _ _ _ _ F)), filter_page_token.
  apply (stream_doc_intro e (m_params m)).
  - exact (headline_spec (op_summary (do_op e)) (lit " as a Stream")).
  - apply paragraph_spec.
  - reflexivity.
  - apply argument_lines_spec.
Qed.

Section Run.
Variables (s : settings) (d : openapi) (g : generated_code) (l : list doc_op).
Hypothesis Hgen : generate_tokens U add_ref_types types s d = Ok g.
Hypothesis Hl : operations_in_order d l.

Lemma the_run : exists ts ms, run_of U types s d g ts ms /\ Forall2 (processed U ts d) l ms.
Proof.
  destruct (generate_run _ _ _ _ _ _ Hgen) as (ts & ms & H). exists ts, ms. split; auto. now apply H.
Qed.

(** *** C60 *)

Lemma positional_methods : se_interface s = Positional ->
  exists ts, Forall2 (fun e i => exists m tys sb, processed U ts d e m
      /\ method_sig_body (se_hooks s) m = Ok sb
      /\ length tys = length (m_params m)
      /\ i = ImMethod (method_name U e) (make_doc_comment m)
               (combine (map p_name (m_params m)) tys) (existsb raw_body_param (m_params m)) sb)
    l (own_methods (ge_code g)).
Proof.
  intro Hi. destruct the_run as (ts & ms & R & F). exists ts.
  pose proof (ro_code _ _ _ _ _ _ _ R) as Hc. unfold code_for in Hc. rewrite Hi in Hc.
  destruct (se_tag s); [|discriminate].
  apply positional_own in Hc. eapply Forall2_trans; [|exact F|exact Hc]. cbn.
  intros e m i Hp (tys & sb & H1 & H2 & ->). exists m, tys, sb. split; auto. split; auto. split.
  - apply mapM_ok, Forall2_len in H1. auto.
  - now rewrite (fa_name _ _ _ _ (processed_facts _ _ _ _ _ Hp)).
Qed.

Lemma positional_names : se_interface s = Positional ->
  map im_name (own_methods (ge_code g)) = map (method_name U) l.
Proof.
  intro Hi. destruct (positional_methods Hi) as (ts & F).
  eapply Forall2_map_eq; [|exact F]. cbn. intros e i (m & tys & sb & _ & _ & _ & ->). reflexivity.
Qed.

Lemma builder_methods_of : se_interface s = Builder ->
  exists ts, Forall2 (fun e sc => exists m, processed U ts d e m /\ sc_name sc = builder_name U e
      /\ builder_struct types (se_hooks s) m = Ok (sc_code sc)) l (oc_builders (ge_code g)).
Proof.
  intro Hi. destruct the_run as (ts & ms & R & F). exists ts.
  pose proof (builder_structs _ _ _ _ _ _ Hi (ro_code _ _ _ _ _ _ _ R)) as Hb.
  eapply Forall2_trans; [|exact F|exact Hb]. cbn. intros e m sc Hp [H1 H2]. exists m. split; auto.
  split; auto. rewrite H1. unfold builder_name, pascal.
  now rewrite (fa_name _ _ _ _ (processed_facts _ _ _ _ _ Hp)).
Qed.

Lemma builder_names : se_interface s = Builder ->
  map sc_name (oc_builders (ge_code g)) = map (builder_name U) l.
Proof.
  intro Hi. destruct (builder_methods_of Hi) as (ts & F).
  eapply Forall2_map_eq; [|exact F]. cbn. intros e i (m & _ & H & _). auto.
Qed.

Lemma merged_builders : se_interface s = Builder -> se_tag s = Merged ->
  Forall2 (fun e i => exists doc, i = ImBuilder (method_name U e) doc (builder_name U e))
    l (oc_impl (ge_code g)).
Proof.
  intros Hi Ht. destruct the_run as (ts & ms & R & F).
  pose proof (ro_code _ _ _ _ _ _ _ R) as Hc. unfold code_for in Hc. rewrite Hi, Ht in Hc.
  unfold generate_tokens_builder_merged in Hc. apply obind_ok in Hc as (st & _ & Hc).
  injection Hc as <-. cbn [oc_impl]. clear -F.
  induction F as [|e m l ms H _ IH]; cbn; constructor; auto.
  exists (builder_doc m). unfold builder_helper, struct_name, builder_name, pascal.
  now rewrite (fa_name _ _ _ _ (processed_facts _ _ _ _ _ H)).
Qed.

(** *** C59 *)

Lemma separate_tags : se_interface s = Builder -> se_tag s = Separate ->
  map im_name (oc_impl (ge_code g)) = map (method_name U) (filter untagged l)
  /\ exists tags, StronglySorted str_lt tags
     /\ (forall t, In t tags <-> exists e, In e l /\ In t (op_tags (do_op e)))
     /\ Forall2 (fun t tr => tc_name tr = lit "Client" ++ pascal U t ++ lit "Ext"
                   /\ tc_impl tr = tc_methods tr
                   /\ tag_description d t (tc_doc tr)
                   /\ map im_name (tc_methods tr)
                      = flat_map (fun e => repeat (method_name U e) (times_tagged t e)) l)
          tags (oc_traits (ge_code g))
     /\ oc_prelude (ge_code g)
        = lit "Client" :: map (fun t => lit "Client" ++ pascal U t ++ lit "Ext") tags.
Proof.
  intros Hi Ht. destruct the_run as (ts & ms & R & F).
  pose proof (ro_code _ _ _ _ _ _ _ R) as Hc. unfold code_for in Hc. rewrite Hi, Ht in Hc.
  unfold generate_tokens_builder_separate in Hc. apply obind_ok in Hc as (st & _ & Hc).
  destruct (builder_tags _ _ _) as [base traits] eqn:Eb. injection Hc as <-. cbn.
  destruct (builder_tags_spec _ _ _ _ _ _ _ F Eb) as (H1 & tags & H2 & H3 & H4).
  split; auto. exists tags. split; auto. split; auto. split; auto. f_equal.
  eapply Forall2_map_eq; [|exact H4]. cbn. tauto.
Qed.

(** *** C63 *)

Lemma struct_stream h m c : builder_struct types h m = Ok c ->
  (bc_stream c <> None <-> m_paginated m <> None) /\ method_sig_body h m = Ok (bc_send c).
Proof.
  unfold builder_struct. intro H. apply obind_ok in H as (tys & _ & H).
  apply obind_ok in H as (ins & _ & H). apply obind_ok in H as (fins & _ & H).
  apply obind_ok in H as (sets & _ & H). apply obind_ok in H as (sb & Hs & H).
  apply obind_ok in H as (st & Hst & H). injection H as <-. cbn. split; auto.
  destruct (m_paginated m) as [pg|].
  - destruct (types (pg_item pg)); [|discriminate]. injection Hst as <-. split; easy.
  - injection Hst as <-. split; easy.
Qed.

Lemma futures_iff : ge_futures g = true <-> streams (ge_code g).
Proof.
  destruct the_run as (ts & ms & R & _). rewrite (ro_futures _ _ _ _ _ _ _ R).
  pose proof (ro_code _ _ _ _ _ _ _ R) as Hc. unfold streams.
  destruct (se_interface s) eqn:Hi.
  - unfold code_for in Hc. rewrite Hi in Hc. destruct (se_tag s); [|discriminate].
    unfold generate_tokens_positional_merged in Hc. apply obind_ok in Hc as (items & Hm & Hc).
    injection Hc as <-. cbn. apply mapM_ok in Hm. clear -Hm.
    induction Hm as [|m its ms items H _ IH]; cbn.
    + split; [easy|]. intros [H|H]; inversion H.
    + apply positional_items in H as (tys & sb & rest & _ & _ & -> & Hr).
      rewrite orb_true_iff, IH, Exists_app. rewrite !Exists_cons. cbn [is_stream].
      destruct Hr as [[E ->]|[E ->]].
      * rewrite E, !Exists_nil. assert (~ false = true) by discriminate. tauto.
      * rewrite Exists_cons, !Exists_nil. cbn [is_stream].
        destruct (m_paginated m); [|easy]. tauto.
  - pose proof (builder_structs _ _ _ _ _ _ Hi Hc) as Hb.
    assert (Himpl : ~ Exists (fun i => is_stream i = true) (oc_impl (ge_code g))).
    { unfold code_for in Hc. rewrite Hi in Hc. intro H. apply Exists_exists in H as (i & Hin & Hs).
      destruct (se_tag s).
      - unfold generate_tokens_builder_merged in Hc. apply obind_ok in Hc as (st & _ & Hc).
        injection Hc as Hc. rewrite <- Hc in Hin. cbn in Hin. apply in_map_iff in Hin as (m & <- & _).
        discriminate.
      - unfold generate_tokens_builder_separate in Hc. apply obind_ok in Hc as (st & _ & Hc).
        destruct (builder_tags _ _ _) as [base traits] eqn:Eb. injection Hc as Hc.
        rewrite <- Hc in Hin. cbn in Hin.
        unfold builder_tags in Eb. pose proof (tag_steps U ms [] [] (ext_nil_ok)) as Hs'.
        destruct (fold_left (tag_step U) ms ([], [])) as [base' ext].
        destruct Hs' as (_ & Hb' & _). injection Eb as -> _. rewrite Hb' in Hin. cbn in Hin.
        apply in_map_iff in Hin as (m & <- & _). discriminate. }
    transitivity (Exists (fun s => bc_stream (sc_code s) <> None) (oc_builders (ge_code g))); [|tauto].
    clear -Hb. induction Hb as [|m sc ms scs [_ H] _ IH]; cbn.
    + split; [easy|]. intro H; inversion H.
    + apply struct_stream in H as [H _]. rewrite orb_true_iff, IH, Exists_cons, H.
      destruct (m_paginated m); intuition easy.
Qed.

Lemma query_calls_no_ws ps : ~ In CWebsocket (query_calls ps).
Proof.
  unfold query_calls. rewrite in_flat_map. intros (p & _ & H).
  destruct (p_kind p); cbn in H; intuition discriminate.
Qed.

Lemma body_calls_no_ws ps cs : body_calls ps = Ok cs -> ~ In CWebsocket cs.
Proof.
  revert cs; induction ps as [|p ps IH]; cbn; intros cs H.
  - injection H as <-. easy.
  - destruct (p_kind p) as [| | |[| | |]], (p_typ p); auto; try discriminate;
      apply obind_ok in H as (cs' & H' & H); injection H as <-;
      intros [Hx|Hx]; try discriminate; now apply (IH _ H') in Hx.
Qed.

Lemma accept_no_ws a b : ~ In CWebsocket (accept_calls a b).
Proof. unfold accept_calls. destruct a, b; cbn; intuition discriminate. Qed.

Lemma upgrades_iff h m sb : method_sig_body h m = Ok sb -> (upgrades sb <-> m_websocket m = true).
Proof.
  unfold method_sig_body. intro H. apply obind_ok in H as (u & _ & H).
  apply obind_ok in H as (bodies & Hb & H). destruct (N.ltb _ _); [discriminate|].
  apply obind_ok in H as ([si st] & _ & H). apply obind_ok in H as ([ei et] & _ & H).
  apply obind_ok in H as (arms & _ & H). injection H as <-. unfold upgrades. cbn [sb_body]. split.
  - intros (x & mm & uu & calls & Hin & Hw).
    assert (calls = accept_calls st et ++ bodies ++ query_calls (m_params m)
              ++ [CHeaders] ++ (if m_websocket m then [CWebsocket] else [])) as ->.
    { destruct (has_pre_hook h), (has_pre_hook_async h), (has_post_hook h), (has_post_hook_async h);
        cbn [app In] in Hin;
        repeat (destruct Hin as [Hin|Hin]; [try discriminate; injection Hin; auto|]); easy. }
    rewrite !in_app_iff in Hw. cbn [In] in Hw.
    destruct Hw as [Hw|[Hw|[Hw|[Hw|Hw]]]].
    + now apply accept_no_ws in Hw.
    + now apply (body_calls_no_ws _ _ Hb) in Hw.
    + now apply query_calls_no_ws in Hw.
    + intuition discriminate.
    + destruct (m_websocket m); [auto|easy].
  - intro Hw. do 4 eexists. split; [right; right; left; reflexivity|].
    rewrite Hw, !in_app_iff. cbn. tauto.
Qed.

Lemma bodies_of ms ts : run_of U types s d g ts ms ->
  Forall2 (fun m sb => method_sig_body (se_hooks s) m = Ok sb) ms (bodies (ge_code g)).
Proof.
  intro R. pose proof (ro_code _ _ _ _ _ _ _ R) as Hc. unfold bodies.
  destruct (se_interface s) eqn:Hi.
  - unfold code_for in Hc. rewrite Hi in Hc. destruct (se_tag s); [|discriminate].
    unfold generate_tokens_positional_merged in Hc. apply obind_ok in Hc as (items & Hm & Hc).
    injection Hc as <-. cbn. rewrite app_nil_r. apply mapM_ok in Hm. clear -Hm.
    induction Hm as [|m its ms items H _ IH]; cbn; [constructor|].
    apply positional_items in H as (tys & sb & rest & _ & Hs & -> & Hr).
    rewrite flat_map_app. destruct Hr as [[E ->]|[E ->]]; cbn; constructor; auto.
  - pose proof (builder_structs _ _ _ _ _ _ Hi Hc) as Hb.
    assert (flat_map (fun i => match i with ImMethod _ _ _ _ sb => [sb] | _ => [] end) (oc_impl (ge_code g)) = []) as ->.
    { unfold code_for in Hc. rewrite Hi in Hc. destruct (se_tag s).
      - unfold generate_tokens_builder_merged in Hc. apply obind_ok in Hc as (st & _ & Hc).
        injection Hc as Hc. rewrite <- Hc. cbn. clear. induction ms; cbn; auto.
      - unfold generate_tokens_builder_separate in Hc. apply obind_ok in Hc as (st & _ & Hc).
        destruct (builder_tags _ _ _) as [base traits] eqn:Eb. injection Hc as Hc.
        rewrite <- Hc. cbn.
        unfold builder_tags in Eb. pose proof (tag_steps U ms [] [] (ext_nil_ok)) as Hs'.
        destruct (fold_left (tag_step U) ms ([], [])) as [base' ext].
        destruct Hs' as (_ & Hb' & _). injection Eb as -> _. rewrite Hb'. cbn.
        clear. generalize (filter (fun m => match m_tags m with [] => true | _ => false end) ms) as fs.
        induction fs; cbn; auto. }
    cbn. clear -Hb. induction Hb as [|m sc ms scs [_ H] _ IH]; cbn; constructor; auto.
    now apply struct_stream in H.
Qed.

Lemma websockets_code : ge_websockets g = true <-> Exists upgrades (bodies (ge_code g)).
Proof.
  destruct the_run as (ts & ms & R & _). rewrite (ro_websockets _ _ _ _ _ _ _ R).
  pose proof (bodies_of _ _ R) as Hb. clear -Hb.
  induction Hb as [|m sb ms sbs H _ IH]; cbn.
  - split; [easy|intro H; inversion H].
  - rewrite orb_true_iff, IH, Exists_cons, (upgrades_iff _ _ _ H). reflexivity.
Qed.

Lemma websockets_iff : ge_websockets g = true <->
  exists e, in_document d e /\ assoc (lit "x-dropshot-websocket") (op_extensions (do_op e)) <> None.
Proof.
  destruct the_run as (ts & ms & R & F). rewrite (ro_websockets _ _ _ _ _ _ _ R).
  transitivity (exists e, In e l /\ assoc (lit "x-dropshot-websocket") (op_extensions (do_op e)) <> None).
  2: { destruct Hl as [Hin _]. split; intros (e & He & H); exists e; split; auto; now apply Hin. }
  clear -F. induction F as [|e m l ms H _ IH]; cbn.
  - split; [easy|]. now intros (e & [] & _).
  - rewrite orb_true_iff, IH, (fa_websocket _ _ _ _ (processed_facts _ _ _ _ _ H)). split.
    + intros [Hw|(e' & He & Hw)]; [|eauto]. exists e. split; auto. now destruct (assoc _ _).
    + intros (e' & [<-|He] & Hw); [|eauto]. left. now destruct (assoc _ _).
Qed.

(** *** C62 *)

Lemma positional_docs : se_interface s = Positional ->
  exists ts, Forall2 (fun e i => exists m name doc ps gen sb, processed U ts d e m
      /\ i = ImMethod name doc ps gen sb /\ method_doc e (m_params m) doc)
    l (own_methods (ge_code g)).
Proof.
  intro Hi. destruct (positional_methods Hi) as (ts & F). exists ts.
  eapply Forall2_weaken; [|exact F]. cbn. intros e i (m & tys & sb & Hp & _ & _ & ->).
  exists m. do 5 eexists. split; [exact Hp|]. split; [reflexivity|].
  eapply make_doc_spec, processed_facts, Hp.
Qed.

Lemma call_lines_spec ps :
  call_lines ps (flat_map (fun p => [10%N] ++ lit "    ." ++ p_name p ++ lit "(" ++ p_name p ++ lit ")") ps).
Proof.
  induction ps as [|p ps IH]; cbn [flat_map]; [constructor|].
  rewrite <- !app_assoc. now apply cl_cons.
Qed.

Lemma builder_docs : se_interface s = Builder -> se_tag s = Merged ->
  exists ts, Forall2 (fun e i => exists m md eg, processed U ts d e m
      /\ i = ImBuilder (method_name U e) (md ++ eg) (builder_name U e)
      /\ method_doc e (m_params m) md /\ usage (method_name U e) (m_params m) eg)
    l (oc_impl (ge_code g)).
Proof.
  intros Hi Ht. destruct the_run as (ts & ms & R & F). exists ts.
  pose proof (ro_code _ _ _ _ _ _ _ R) as Hc. unfold code_for in Hc. rewrite Hi, Ht in Hc.
  unfold generate_tokens_builder_merged in Hc. apply obind_ok in Hc as (st & _ & Hc).
  injection Hc as <-. cbn [oc_impl]. clear -F.
  induction F as [|e m l ms H _ IH]; cbn [map]; constructor; auto.
  pose proof (processed_facts _ _ _ _ _ H) as Hf.
  exists m, (make_doc_comment m). eexists. split; [exact H|].
  unfold builder_helper, struct_name, builder_name, pascal, builder_doc.
  rewrite (fa_name _ _ _ _ Hf). split; [reflexivity|]. split; [eapply make_doc_spec, Hf|].
  apply usage_intro, call_lines_spec.
Qed.

Lemma stream_docs : se_interface s = Positional ->
  forall name doc ps gen callee first step, In (ImStream name doc ps gen callee first step) (oc_impl (ge_code g)) ->
  exists ts e m, In e l /\ processed U ts d e m /\ m_paginated m <> None
    /\ callee = method_name U e /\ name = method_name U e ++ lit "_stream"
    /\ first = first_params (m_params m) /\ step = step_params (m_params m)
    /\ stream_doc e (m_params m) doc.
Proof.
  intros Hi name doc ps gen callee first step Hin.
  destruct the_run as (ts & ms & R & F).
  pose proof (ro_code _ _ _ _ _ _ _ R) as Hc. unfold code_for in Hc. rewrite Hi in Hc.
  destruct (se_tag s); [|discriminate].
  unfold generate_tokens_positional_merged in Hc. apply obind_ok in Hc as (items & Hm & Hc).
  injection Hc as Hc. rewrite <- Hc in Hin. cbn in Hin. apply mapM_ok in Hm. clear -F Hm Hin.
  exists ts. revert l F. induction Hm as [|m its ms items H _ IH]; intros l F; [easy|].
  inversion F as [|e ? l' ? Hp F']; subst. cbn in Hin. apply in_app_iff in Hin as [Hin|Hin].
  - apply positional_items in H as (tys & sb & rest & _ & _ & -> & Hr).
    destruct Hr as [[E ->]|[E ->]]; cbn in Hin; [intuition discriminate|].
    destruct Hin as [Hin|[Hin|[]]]; [discriminate|].
    injection Hin as <- <- <- <- <- <- <-. exists e, m.
    pose proof (processed_facts _ _ _ _ _ Hp) as Hf. rewrite (fa_name _ _ _ _ Hf).
    split; [now left|]. split; auto. split; auto. split; auto. split; auto. split; auto. split; auto.
    eapply make_stream_doc_spec, Hf.
  - destruct (IH Hin _ F') as (e' & m' & H1 & H2). exists e', m'. split; [now right|auto].
Qed.

(** *** C64 *)

Lemma positional_all_names : se_interface s = Positional ->
  exists streamed : doc_op -> bool,
  map im_name (oc_impl (ge_code g))
  = flat_map (fun e => if streamed e then [method_name U e; method_name U e ++ lit "_stream"]
                       else [method_name U e]) l.
Proof.
  intro Hi. destruct the_run as (ts & ms & R & F).
  pose proof (ro_code _ _ _ _ _ _ _ R) as Hc. unfold code_for in Hc. rewrite Hi in Hc.
  destruct (se_tag s); [|discriminate].
  unfold generate_tokens_positional_merged in Hc. apply obind_ok in Hc as (items & Hm & Hc).
  injection Hc as Hc. rewrite <- Hc. cbn. apply mapM_ok in Hm. clear -F Hm.
  exists (fun e => match process_operation (snake U) (pascal U) ts (do_op e) (oa_components d) (do_path e)
                    (http_method_str (do_method e)) (do_params e) with
                   | Ok m => match m_paginated m with Some _ => true | None => false end
                   | _ => false end).
  revert l F. induction Hm as [|m its ms items H _ IH]; intros l F; inversion F as [|e ? l' ? Hp F']; subst; auto.
  cbn [concat flat_map]. rewrite map_app, (IH _ F'). f_equal. unfold processed in Hp. rewrite Hp.
  apply positional_items in H as (tys & sb & rest & _ & _ & -> & Hr).
  pose proof (processed_facts _ _ _ _ _ Hp) as Hf.
  destruct Hr as [[E ->]|[E ->]]; cbn [map im_name]; rewrite (fa_name _ _ _ _ Hf).
  - now rewrite E.
  - destruct (m_paginated m); [reflexivity|easy].
Qed.

Lemma distinct_names : se_interface s = Positional ->
  NoDup (map (method_name U) l) ->
  (forall e, In e l -> ~ In (method_name U e) (fixed_methods s)) ->
  (forall e f, In e l -> In f l -> method_name U f <> method_name U e ++ lit "_stream") ->
  NoDup (ge_fixed g ++ map im_name (oc_impl (ge_code g))).
Proof.
  intros Hi Hnd Hfix Hstr. destruct the_run as (ts & ms & R & _).
  rewrite (ro_fixed _ _ _ _ _ _ _ R). destruct (positional_all_names Hi) as (streamed & ->).
  set (names := fun e => if streamed e then [method_name U e; method_name U e ++ lit "_stream"]
                         else [method_name U e]).
  assert (Hin : forall l' x, In x (flat_map names l') -> exists e, In e l'
            /\ (x = method_name U e \/ x = method_name U e ++ lit "_stream")).
  { intros l' x Hx. apply in_flat_map in Hx as (e & He & Hx). exists e. split; auto.
    unfold names in Hx. destruct (streamed e); cbn in Hx; intuition. }
  assert (Hself : forall n, n <> n ++ lit "_stream").
  { intros n E. apply (f_equal (@length N)) in E. rewrite app_length in E. change (length (lit "_stream")) with 7 in E. lia. }
  assert (Hinj : forall a b : str, a ++ lit "_stream" = b ++ lit "_stream" -> a = b).
  { intros a b E. now apply app_inv_tail in E. }
  assert (Hnd2 : NoDup (flat_map names l)).
  { assert (Hsub : forall l', (forall e, In e l' -> In e l) -> NoDup (map (method_name U) l') ->
      NoDup (flat_map names l')).
    { clear Hnd. induction l' as [|e l' IH]; intros Hs Hd; cbn; [constructor|].
      inversion Hd as [|? ? Hn Hd']; subst.
      assert (IH' : NoDup (flat_map names l')) by (apply IH; auto; intros; apply Hs; now right).
      assert (A : ~ In (method_name U e) (flat_map names l')).
      { intro Hx. apply Hin in Hx as (f & Hf & [Hx|Hx]).
        - apply Hn. rewrite Hx. now apply in_map.
        - apply (Hstr f e); auto; apply Hs; [now right|now left]. }
      assert (B : ~ In (method_name U e ++ lit "_stream") (flat_map names l')).
      { intro Hx. apply Hin in Hx as (f & Hf & [Hx|Hx]).
        - apply (Hstr e f); auto; apply Hs; [now left|now right].
        - apply Hn. apply Hinj in Hx. rewrite Hx. now apply in_map. }
      unfold names at 1. destruct (streamed e); cbn; constructor; auto.
      - intros [E|Hx]; [|easy]. now apply (Hself (method_name U e)).
      - constructor; auto. }
    apply Hsub; auto. }
  assert (Hf : NoDup (fixed_methods s)).
  { unfold fixed_methods. destruct (se_inner s); repeat (constructor; [cbn; intuition discriminate|]); constructor. }
  clear Hgen. revert Hf Hfix.
  assert (Hnot : forall x, In x (fixed_methods s) -> forall n, x <> n ++ lit "_stream").
  { intros x Hx n E. apply (f_equal (fun z => firstn 7 (rev z))) in E.
    rewrite rev_app_distr, firstn_app in E.
    change (length (rev (lit "_stream"))) with 7 in E.
    rewrite Nat.sub_diag in E. cbn [firstn] in E. rewrite app_nil_r in E.
    unfold fixed_methods in Hx. destruct (se_inner s); cbn in Hx;
      repeat (destruct Hx as [<-|Hx]; [vm_compute in E; discriminate|]); easy. }
  revert Hnot. generalize (fixed_methods s) as fx. induction fx as [|x fx IH]; intros Hnot Hf Hfix; cbn; auto.
  inversion Hf as [|? ? Hx Hf']; subst. constructor.
  - rewrite in_app_iff. intros [H|H]; [easy|]. apply Hin in H as (e & He & [->| ->]).
    + apply (Hfix e He). now left.
    + apply (Hnot _ (or_introl eq_refl) _ eq_refl).
  - apply IH; auto.
    + intros y Hy. apply Hnot. now right.
    + intros e He Hi'. apply (Hfix e He). now right.
Qed.
End Run.
End Cor.

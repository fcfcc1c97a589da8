(** Which command line interfaces compile. *)
From Coq Require Import Permutation Sorted.
From Verif Require Import Base OasModel TemplateModel TemplateSpec SanitizeModel ClientModel MethodModel OpModel RunModel BuilderModel
  GenerateModel RequestSpec BuilderSpec GenerateSpec PageSpec ParamProofs PageProofs ResponseProofs BuilderProofs ValidateProofs GenerateProofs GenerateCor
  CompileSpec CompileItemSpec CompileProofs CompileItemProofs CompileClientProofs CompileCor CliModel CliSpec CliProofs CliRun CliCor CliCompileSpec.
Local Open Scope N_scope.

Section Command.
Variables (has : str -> cli_trait -> Prop) (sets : type_id -> str -> str -> Prop) (ctypes : type_id -> option cli_type)
  (types : type_id -> option type_info).
Variable U : unicode.
Hypothesis Hcases : forall c, lowercase U c = true -> uppercase U c = false.
Hypothesis Hdash : alphanumeric U (ch "-") = false.
Hypothesis Hpath : has (lit "::std::path::PathBuf") TcStored /\ has (lit "::std::path::PathBuf") TcParsed.
Context {ts : type_space} {op : operation} {comps : option components} {path method : str} {pp : list (ref_or parameter)} {h : hooks}
  {m : op_method} {sb : sig_body} {c : builder_code} {o : cli_operation}.
Hypothesis Hp : process_operation (snake U) (pascal U) ts op comps path method pp = Ok m.
Hypothesis Hsb : method_sig_body h m = Ok sb.
Hypothesis Hc : builder_struct types h m = Ok c.
Hypothesis Hok : builder_ok types m.
Hypothesis Ho : cli_method U ctypes m = Ok o.

Lemma method_parts : exists si sk ei ek, extract_responses m is_success_or_default = Ok (si, sk)
  /\ extract_responses m is_error_or_default = Ok (ei, ek) /\ sb_success sb = sk /\ sb_error sb = ek.
Proof.
  pose proof Hsb as Hm. unfold method_sig_body in Hm. cbv zeta in Hm.
  apply obind_ok in Hm as (u & _ & Hm). apply obind_ok in Hm as (bs & _ & Hm).
  destruct (1 <? N.of_nat (length bs)); [easy|].
  apply obind_ok in Hm as ([si sk] & Hs & Hm). apply obind_ok in Hm as ([ei ek] & He & Hm).
  apply obind_ok in Hm as (eas & _ & Hm). injection Hm as <-. exists si, sk, ei, ek. auto.
Qed.

Lemma page_listing pg : m_paginated m = Some pg -> exists t, sb_success sb = RType t /\ page_item ts t (pg_item pg).
Proof.
  intro Hpg. destruct (page_operation Hp Hpg) as [_ _ _ _ _ (pre & r & post & t & E & (Et & Hst) & Hpage & _)]. exists t. split.
  - destruct method_parts as (si & sk & ei & ek & Hs & _ & -> & _).
    destruct (extract_ok _ _ _ _ Hs) as (Ei & Hk & _). rewrite <- Et. symmetry. apply Hk. rewrite Ei.
    match goal with |- In _ (pop_default ?l) => destruct (pop_default_keeps r l) as [H0|(H0 & _)]; [|exact H0|] end.
    + apply sort_responses_In, filter_In. split; [rewrite E; apply in_or_app; right; now left|].
      destruct Hst as [(k & -> & Hk')| ->]; cbn; [|reflexivity]. apply orb_true_iff. right. apply andb_true_iff.
      split; apply N.leb_le; lia.
    + destruct Hst as [(k & Hk' & _)|Hk']; rewrite Hk' in H0; easy.
  - destruct Hpage as (props & Hd & _ & (a & Ha & Hv) & _). exists props, a. auto.
Qed.

Lemma page_item_unique t a b : page_item ts t a -> page_item ts t b -> a = b.
Proof.
  intros (props & x & H1 & (p1 & p2 & E1 & N1) & V1) (props' & y & H2 & (q1 & q2 & E2 & N2) & V2).
  rewrite H1 in H2. injection H2 as <-. assert (E : x = y); [|congruence].
  rewrite E1 in E2. clear -E2 N1 N2. revert q1 E2. induction p1 as [|a p1 IH]; intros [|b q1] E; cbn in E.
  - now injection E.
  - injection E as _ E. exfalso. apply N1. rewrite E, map_app. apply in_or_app. right. now left.
  - injection E as _ E. exfalso. apply N2. rewrite <- E, map_app. apply in_or_app. right. now left.
  - injection E as _ E. exact (IH q1 E).
Qed.

Lemma parts : cli_method_args U ctypes m = Ok (co_args o)
  /\ match m_paginated m with
     | None => co_output o = OutOneShot (success_output_of (sb_success sb)) (error_output_of (sb_error sb))
     | Some _ => exists t ct, sb_success sb = RType t /\ ctypes t = Some ct
                   /\ co_output o = OutListing (ct_ident ct) (error_output_of (sb_error sb))
     end.
Proof.
  destruct method_parts as (si & sk & ei & ek & Hs & He & Es & Ee). pose proof Ho as H. unfold cli_method in H.
  apply obind_ok in H as (a & Ha & H). rewrite Hs, He in H. cbn [obind] in H. apply obind_ok in H as (out & Hout & H).
  injection H as <-. cbn [co_args co_output]. split; [exact Ha|]. rewrite Es, Ee. destruct (m_paginated m) as [pg|] eqn:Ep.
  - destruct (page_listing pg Ep) as (t & Et & _). rewrite Et in Es. subst sk. unfold unwrap_type in Hout.
    destruct (ctypes t) as [ct|] eqn:Ec; [|discriminate]. cbn [obind] in Hout. injection Hout as <-. exists t, ct. auto.
  - injection Hout as <-. reflexivity.
Qed.

(** ** Arguments *)

Lemma parser_compiles_iff ct p : parser_for ct p -> parser_compiles has p <-> argument_type has ct.
Proof.
  intros [vs E|Hn]; cbn [parser_compiles]; unfold argument_type; split.
  - intros (H1 & H2 & H3). split; [exact H1|]. split.
    + intros vs' E'. rewrite E in E'. injection E' as E'. split; [exact H2|].
      intros ->. destruct vs; [easy|discriminate].
    + intro Hn. now destruct (Hn vs).
  - intros (H1 & H2 & _). destruct (H2 vs E). auto.
  - intros (H1 & H2). split; [exact H1|]. split; [|auto]. intros vs E. now destruct (Hn vs).
  - intros (H1 & _ & H3). auto.
Qed.

Lemma setters_iff n ty : has_setter ctypes c n ty <->
  exists q u, In q (m_params m) /\ p_name q = n /\ p_typ q = PType u /\ named ctypes u ty.
Proof.
  pose proof (cases Hc Hok) as F.
  assert (E : forall p f, field_case types p f -> bf_name f = p_name p -> setter_name f = p_name p).
  { intros p f Hf En. unfold setter_name.
    destruct Hf as [t ty0 _ _ _ _ _ Eb ->|ty0 _ _ _ _ _ _ ->|ty0 _ _ _ _ _ _ [->| ->]]; auto. }
  split.
  - intros (f & t & Hf & En & Et & Hn). destruct (forall2_right _ _ _ _ F Hf) as (p & Hi & Hcase & E1 & E2).
    exists p, t. rewrite <- E2, <- (E p f Hcase E1). auto.
  - intros (q & u & Hq & En & Et & Hn). destruct (forall2_left _ _ _ _ F Hq) as (f & Hi & Hcase & E1 & E2).
    exists f, u. rewrite E2, (E q f Hcase E1). auto.
Qed.

Lemma body_map_iff t : (exists f msg, In f (bc_fields c) /\ bf_setter f = StBody t msg) <->
  exists p, In p (m_params m) /\ nested types p t.
Proof.
  pose proof (cases Hc Hok) as F. split.
  - intros (f & msg & Hf & Es). destruct (forall2_right _ _ _ _ F Hf) as (p & Hi & Hcase & _). exists p. split; auto.
    destruct Hcase as [t' ty Hn _ _ _ _ _ E|ty _ _ _ _ _ _ E|ty _ _ _ _ _ _ [E|E]]; rewrite E in Es; try discriminate. now injection Es as <-.
  - intros (p & Hi & Hn). destruct (forall2_left _ _ _ _ F Hi) as (f & Hf & Hcase & _).
    destruct Hcase as [t' ty Hn' _ _ _ _ _ E|ty Hno _ _ _ _ _ _|ty Hno _ _ _ _ _ _]; [|now destruct (Hno t)|now destruct (Hno t)].
    assert (t' = t) by (destruct Hn as (_ & E1 & _), Hn' as (_ & E2 & _); congruence). subst t'. eauto.
Qed.

Lemma body_named t : body_of m (Some (PType t)) -> exists p, In p (m_params m) /\ p_name p = lit "body" /\ p_typ p = PType t.
Proof.
  intro Hb. inversion Hb as [|pre p post k E Ek Hpre E']. exists p.
  assert (Hin : In p (m_params m)) by (rewrite E; apply in_or_app; right; now left). split; [exact Hin|]. split; [|reflexivity].
  destruct (process_operation_params _ _ _ _ _ _ _ _ _ Hp) as (oid & pi & ops & qs & body & _ & _ & _ & Hqs & Hbody & _ & Hsort & Hpres & _).
  apply sort_params_sorted in Hsort as (Hperm & _); auto.
  apply (Permutation_in _ Hperm) in Hin. apply in_app_iff in Hin as [Hin|Hin].
  - exfalso. destruct (forall2_right _ _ _ _ Hqs Hin) as (x & _ & Hx). apply process_param_ok in Hx as (_ & _ & Hx & _).
    unfold non_body in Hx. now rewrite Ek in Hx.
  - destruct body as [b|]; [|easy]. destruct Hin as [<-|[]]. now apply get_body_param_ok in Hbody as (ct & _ & -> & _).
Qed.

(** ** The whole command *)

Lemma command_iff : operation_compiles has sets ctypes ts o c <-> sound_command has sets ctypes U types m sb.
Proof.
  destruct parts as (Ha & Hout). assert (Esb : bc_send c = sb) by (symmetry; exact (builder_send Hsb Hc)).
  destruct (cli_method_args_ok U ctypes Hcases Hdash m (co_args o) Ha) as [params props own rest newp newpr args body H1 H2 H3 H4 H5 H6 H7 H8 H9 H10].
  assert (Hown : own_properties U ctypes m own rest).
  { apply (op_intro U ctypes m own rest params (map fst newp) props); auto.
    clear - H2 Hcases Hdash. induction H2 as [|p e ps es (t & ct & _ & _ & ->) _ IH]; constructor; auto. cbn. now apply (kebab_name U Hcases Hdash). }
  assert (Hin : forall e, In e args <-> In e newp \/ In e newpr).
  { intro e. rewrite <- in_app_iff. split; apply Permutation_in; [exact H6|now symmetry]. }
  assert (Hpars : Forall (fun a => parser_compiles has (cl_parser a)) (cg_parsers (co_args o)) <->
    forall e, In e args -> parser_compiles has (cl_parser (ca_parser (snd e)))).
  { rewrite H8, Forall_app, Forall_map, Forall_forall. split; [tauto|]. intro H. split; [exact H|].
    destruct body; cbn; repeat constructor; apply Hpath. }
  assert (Hcons : Forall (consumer_compiles has sets ctypes c) (cg_consumers (co_args o)) <->
    forall e, In e args -> consumer_compiles has sets ctypes c (ca_consumer (snd e))).
  { rewrite H9, Forall_map, Forall_forall. reflexivity. }
  assert (Hparam : forall p e, param_made U ctypes m p e -> forall t ct, p_typ p = PType t -> ctypes t = Some ct ->
    (parser_compiles has (cl_parser (ca_parser (snd e))) /\ consumer_compiles has sets ctypes c (ca_consumer (snd e)) <->
     argument_type has ct
     /\ exists q u, In q (m_params m) /\ p_name q = snake U (p_name p) /\ p_typ q = PType u /\ named ctypes u (ct_ident ct))).
  { intros p e (t' & ct' & Et & Ect & ->) t ct Et' Ect'. assert (ct' = ct) by congruence. subst ct'.
    cbn [param_entry snd ca_parser ca_consumer].
    rewrite (parser_compiles_iff ct _ (parser_ok _ _ _ ct)), <- (setters_iff (snake U (p_name p)) (ct_ident ct)). unfold snake. split.
    - intros (G1 & G2). split; [exact G1|]. now inversion G2.
    - intros (G1 & G2). split; [exact G1|]. apply cc_param; [apply G1|exact G2]. }
  assert (Hprop : forall pr e, prop_made U ctypes pr e -> forall ct, value_type ctypes (pr_type pr) ct ->
    (parser_compiles has (cl_parser (ca_parser (snd e))) /\ consumer_compiles has sets ctypes c (ca_consumer (snd e)) <->
     argument_type has ct
     /\ exists p t, In p (m_params m) /\ nested types p t /\ sets t (snake U (pr_name pr)) (ct_ident ct))).
  { intros pr e (ct' & Hv & _ & ->) ct Hv'. pose proof (value_type_unique _ _ _ _ Hv Hv') as E. subst ct'.
    cbn [prop_entry snd ca_parser ca_consumer].
    rewrite (parser_compiles_iff ct _ (parser_ok _ _ _ ct)). unfold snake. split.
    - intros (G1 & G2). split; [exact G1|]. inversion G2 as [|ty id n f t msg _ Hf Es Hst]; subst.
      destruct (proj1 (body_map_iff t)) as (p & Hi & Hn); [eauto|]. eauto.
    - intros (G1 & p & t & Hi & Hn & Hst). split; [exact G1|].
      destruct (proj2 (body_map_iff t)) as (f & msg & Hf & Es); [eauto|]. apply (cc_prop _ _ _ _ _ _ _ f t msg); auto. apply G1. }
  assert (Hjson : (forall ty, cg_json (co_args o) = Some ty -> has ty TcRead /\ has_setter ctypes c (lit "body") ty) <->
    forall t ct, body_of m (Some (PType t)) -> ctypes t = Some ct -> has (ct_ident ct) TcRead).
  { destruct (body_type_id m) as [t|] eqn:Eb.
    - apply body_type_spec in Eb as Hb. destruct H10 as (ct & Ect & Ej & _). rewrite Ej. split.
      + intros H t' ct' Hb' Ect'. pose proof (body_of_unique _ _ _ Hb Hb') as E. injection E as <-. rewrite Ect in Ect'. injection Ect' as <-.
        now destruct (H _ eq_refl).
      + intros H ty [= <-]. split; [exact (H t ct Hb Ect)|]. apply setters_iff. destruct (body_named t Hb) as (p & Hi & En & Et).
        exists p, t. repeat split; auto. exists ct. auto.
    - destruct H10 as (_ & ->). split; [|discriminate]. intros _ t ct Hb. apply body_type_spec in Hb. congruence. }
  assert (Houts : output_compiles has ctypes ts c (co_output o) <->
    (forall t, sb_success sb = RType t -> shown_type has ctypes t) /\ (forall t, sb_error sb = RType t -> shown_type has ctypes t)
    /\ (forall pg, m_paginated m = Some pg -> shown_type has ctypes (pg_item pg))).
  { assert (Herr : error_compiles has ctypes (sb_error sb) (error_output_of (sb_error sb)) <->
      forall t, sb_error sb = RType t -> shown_type has ctypes t).
    { unfold error_output_of, error_compiles. destruct (sb_error sb) as [t| | |]; cbn; split; try easy; [intros H t' [= <-]; exact H|auto]. }
    destruct (m_paginated m) as [pg|] eqn:Ep.
    - destruct Hout as (t & ct & Es & Ect & Eo). rewrite Eo. destruct (page_listing pg Ep) as (t' & Es' & Hpi).
      rewrite Es in Es'. injection Es' as <-. destruct (builder_struct_ok _ _ _ _ Hc) as (_ & _ & _ & Hst). rewrite Ep in Hst. split.
      + intro Hoc. inversion Hoc as [|ty eo t' item _ Hty Es' Hpi' Hsh He]. rewrite Esb in Es', He. rewrite Es in Es'. injection Es' as <-.
        split; [|split].
        * intros t' E'. rewrite Es in E'. injection E' as <-. exists (ct_ident ct). split; [exists ct; auto|exact Hty].
        * now apply Herr.
        * intros pg' [= <-]. rewrite (page_item_unique _ _ _ Hpi Hpi'). exact Hsh.
      + intros (G1 & G2 & G3). apply (oc_listing _ _ _ _ _ _ t (pg_item pg)).
        * now rewrite Hst.
        * destruct (G1 t Es) as (ty & (ct' & Ect' & <-) & Hs). rewrite Ect in Ect'. now injection Ect' as <-.
        * now rewrite Esb.
        * exact Hpi.
        * exact (G3 pg eq_refl).
        * rewrite Esb. now apply Herr.
    - rewrite Hout.
      assert (Hsuc : success_compiles has ctypes (sb_success sb) (success_output_of (sb_success sb)) <->
        forall t, sb_success sb = RType t -> shown_type has ctypes t).
      { unfold success_output_of, success_compiles. destruct (sb_success sb) as [t| | |]; cbn; split; try easy; [intros H t' [= <-]; exact H|auto]. }
      split.
      + intro Hoc. inversion Hoc as [so eo Gs Ge|]. rewrite Esb in Gs, Ge. split; [now apply Hsuc|]. split; [now apply Herr|discriminate].
      + intros (G1 & G2 & _). apply oc_one_shot; rewrite Esb; [now apply Hsuc|now apply Herr]. }
  split.
  - intros [G1 G2 G3 G4]. rewrite Hpars in G1. rewrite Hcons in G2. apply Houts in G4 as (G4 & G5 & G6).
    constructor; auto; [| |now apply Hjson].
    + intros p t ct Hi Hha Et Ect. assert (Hk : In p params) by (apply (kept_in _ _ _ p H1); auto).
      destruct (forall2_left _ _ _ _ H2 Hk) as (e & He & Hm). apply (Hparam p e Hm t ct Et Ect).
      assert (In e args) by (apply Hin; auto). auto.
    + intros own' rest' pr ct Hown' Hpr Hv. rewrite (own_properties_unique U ctypes Hcases Hdash m _ _ _ _ Hown' Hown) in Hpr.
      destruct (forall2_left _ _ _ _ H5 Hpr) as (e & He & Hm). apply (Hprop pr e Hm ct Hv).
      assert (In e args) by (apply Hin; auto). auto.
  - intros [G1 G2 G3 G4 G5 G6].
    assert (Hall : forall e, In e args -> parser_compiles has (cl_parser (ca_parser (snd e))) /\ consumer_compiles has sets ctypes c (ca_consumer (snd e))).
    { intros e He. apply Hin in He as [He|He].
      - destruct (forall2_right _ _ _ _ H2 He) as (p & Hk & Hm). pose proof Hm as (t & ct & Et & Ect & _).
        apply (Hparam p e Hm t ct Et Ect). apply (kept_in _ _ _ p H1) in Hk as (Hi & Hha). exact (G1 p t ct Hi Hha Et Ect).
      - destruct (forall2_right _ _ _ _ H5 He) as (pr & Hk & Hm). pose proof Hm as (ct & Hv & _).
        apply (Hprop pr e Hm ct Hv). exact (G2 own rest pr ct Hown Hk Hv). }
    constructor.
    + apply Hpars. intros e He. now apply Hall.
    + apply Hcons. intros e He. now apply Hall.
    + now apply Hjson.
    + apply Houts. auto.
Qed.
End Command.

(** ** The file *)

(** The traits of the tags, with their methods. *)
Lemma traits_of U xs info base traits : builder_tags U xs info = (base, traits) ->
  (forall tr, In tr traits -> exists t m, In m xs /\ In t (m_tags m) /\ tc_name tr = trait_name U t
     /\ tc_methods tr = flat_map (fun m => repeat (builder_helper U m) (count_occ str_eq_dec (m_tags m) t)) xs)
  /\ (forall m t, In m xs -> In t (m_tags m) -> exists tr, In tr traits /\ tc_name tr = trait_name U t
     /\ In (builder_helper U m) (tc_methods tr)).
Proof.
  intro H. unfold builder_tags in H. pose proof (tag_steps U xs [] [] ext_nil_ok) as Hs.
  destruct (fold_left (tag_step U) xs ([], [])) as [base' ext] eqn:Ef. destruct Hs as ([Ho1 Ho2] & _ & Hlk).
  injection H as <- <-.
  assert (Hall : forall k v, In (k, v) ext -> v = flat_map (fun m => repeat (builder_helper U m) (count_occ str_eq_dec (m_tags m) k)) xs).
  { intros k v Hi. specialize (Hlk k). unfold lookup in Hlk. now rewrite (assoc_in _ _ _ Ho1 Hi) in Hlk. }
  split.
  - intros tr Hi. apply in_map_iff in Hi as ([k v] & <- & Hi). cbn [fst snd tc_name tc_methods]. exists k.
    rewrite Forall_forall in Ho2. pose proof (Ho2 _ Hi) as Hne. cbn in Hne. rewrite (Hall k v Hi) in Hne |- *.
    destruct (flat_map _ xs) as [|x v'] eqn:E; [easy|].
    assert (Hx : In x (x :: v')) by now left. rewrite <- E in Hx. apply in_flat_map in Hx as (m & Hm & Hr). exists m. split; auto.
    split; [|auto]. apply (count_occ_In str_eq_dec). destruct (count_occ _ _ _); [easy|lia].
  - intros m t Hm Ht. specialize (Hlk t). unfold lookup in Hlk. apply (count_occ_In str_eq_dec) in Ht.
    assert (Hx : In (builder_helper U m) (flat_map (fun m => repeat (builder_helper U m) (count_occ str_eq_dec (m_tags m) t)) xs)).
    { apply in_flat_map. exists m. split; auto. destruct (count_occ str_eq_dec (m_tags m) t); [lia|]. now left. }
    cbn [assoc app] in Hlk. rewrite <- Hlk in Hx. destruct (assoc t ext) as [v|] eqn:Ea; [|easy].
    eexists. split; [apply in_map, (assoc_fst_in _ _ _ Ea)|]. split; [reflexivity|exact Hx].
Qed.

Section File.
Variables (has : str -> cli_trait -> Prop) (sets : type_id -> str -> str -> Prop) (ctypes : type_id -> option cli_type)
  (hasr : type_id -> rust_trait -> Prop) (types : type_id -> option type_info).
Variable U : unicode.
Hypothesis Hcases : forall c, lowercase U c = true -> uppercase U c = false.
Hypothesis Hdash : alphanumeric U (ch "-") = false.
Hypothesis Hsnake : snake U (lit "page_token") = lit "page_token".
Hypothesis Hpath : has (lit "::std::path::PathBuf") TcStored /\ has (lit "::std::path::PathBuf") TcParsed.
Variables (s : settings) (d : openapi) (g : generated_code) (ts : type_space) (ms : list op_method) (l : list doc_op) (k : cli_code).
Hypothesis R : run_of U types s d g ts ms.
Hypothesis F : Forall2 (processed U ts d) l ms.
Hypothesis Hi : se_interface s = Builder.
Hypothesis Hg : file_ok hasr ts g.
(** What [cli] makes of the same operations. *)
Hypothesis Hops : Forall2 (fun m o => cli_method U ctypes m = Ok o) ms (cc_operations k).
Hypothesis Hvar : cc_variants k = map (fun m => pascal U (m_operation_id m)) ms.
Hypothesis Hcom : cc_commands k = map (fun m => (pascal U (m_operation_id m), lit "cli_" ++ snake U (m_operation_id m))) ms.
Hypothesis Hexe : cc_executes k = map (fun m => (pascal U (m_operation_id m), lit "execute_" ++ snake U (m_operation_id m))) ms.
Notation id m := (m_operation_id m) (only parsing).

Lemma client_sound : NoDup (fixed_methods s ++ client_methods s ms) /\ (se_tag s = Separate -> sound_tags (pascal U) ms)
  /\ NoDup (map (fun m => pascal U (id m)) ms) /\ all_sound (sound_builder hasr ts types) s l ms.
Proof. destruct (proj1 (builder_client hasr U Hsnake types s d g ts ms l R F Hi) Hg) as (H1 & H2 & H3 & _ & H5). auto. Qed.

Lemma ids_unique m n : In m ms -> In n ms -> id m = id n -> m = n.
Proof.
  intros Hm Hn E. apply (same_name (fun m => pascal U (id m)) ms); auto; [apply client_sound|]. cbn. now rewrite E.
Qed.

Lemma op_names m o : cli_method U ctypes m = Ok o -> co_cli_fn o = lit "cli_" ++ id m /\ co_execute_fn o = lit "execute_" ++ id m
  /\ co_op_name o = id m /\ co_struct o = pascal U (id m).
Proof.
  intro Hm. unfold cli_method in Hm. apply obind_ok in Hm as (? & _ & Hm). do 2 apply obind_ok in Hm as ([] & _ & Hm).
  apply obind_ok in Hm as (? & _ & Hm). injection Hm as <-. auto.
Qed.

Lemma functions_names : map co_cli_fn (cc_operations k) = map (fun m => lit "cli_" ++ id m) ms
  /\ map co_execute_fn (cc_operations k) = map (fun m => lit "execute_" ++ id m) ms.
Proof.
  revert Hops. generalize (cc_operations k) as os, ms as xs. intros os xs H. induction H as [|m o xs os Hm _ [IH1 IH2]]; [auto|]. cbn [map].
  destruct (op_names m o Hm) as (-> & -> & _). now rewrite IH1, IH2.
Qed.

Lemma fixed_iff n : fixed_method g n <-> n = lit "baseurl" \/ n = lit "client" \/ n = lit "api_version" \/ (se_inner s = true /\ n = lit "inner").
Proof.
  unfold fixed_method. rewrite (ro_fixed _ _ _ _ _ _ _ R). unfold fixed_methods. rewrite in_app_iff. split.
  - intros ([H|H] & N1 & N2).
    + cbn [In] in H. intuition congruence.
    + destruct (se_inner s); [|easy]. destruct H as [<-|[]]. auto.
  - intros [->|[->|[->|(E & ->)]]]; try (split; [left; cbn [In]; solve [auto 9]|split; discriminate]).
    rewrite E. split; [right; now left|split; discriminate].
Qed.

Definition reached (m : op_method) : Prop :=
  ~ In (id m) by_value
  /\ (se_tag s = Separate -> (length (m_tags m) <= 1)%nat
       /\ (m_tags m <> [] -> ~ In (id m) by_reference
            /\ id m <> lit "baseurl" /\ id m <> lit "client" /\ id m <> lit "api_version" /\ (se_inner s = true -> id m <> lit "inner"))).

Lemma finds_iff m : In m ms -> finds g (id m) (pascal U (id m)) <-> reached m.
Proof.
  intro Hm. destruct client_sound as (Hn1 & Hn2 & Hn3 & _). apply nodup_app_iff in Hn1 as (_ & _ & Hfix).
  assert (Hnf : ~ fixed_method g (id m) <-> id m <> lit "baseurl" /\ id m <> lit "client" /\ id m <> lit "api_version" /\ (se_inner s = true -> id m <> lit "inner")).
  { rewrite fixed_iff. split; [intro H; repeat split; intro; intuition congruence|]. intros (A1 & A2 & A3 & A4) [E|[E|[E|(E1 & E2)]]]; auto. now apply A4. }
  pose proof (ro_code _ _ _ _ _ _ _ R) as Hc. unfold code_for in Hc. rewrite Hi in Hc. unfold reached.
  assert (Hown : In (id m) (client_methods s ms) -> ~ fixed_method g (id m)).
  { intros Hin (Hf & _). rewrite (ro_fixed _ _ _ _ _ _ _ R) in Hf. exact (Hfix _ Hf Hin). }
  destruct (se_tag s) eqn:Etag.
  - unfold generate_tokens_builder_merged in Hc. apply obind_ok in Hc as (st & _ & Hc).
    assert (E : ge_code g = OperationCode (map (builder_helper U) ms) [] st [lit "Client"]) by congruence. split.
    + intros [doc Hv _ _|t doc _ _ _ _ Ht _ _]; [|rewrite E in Ht; easy]. split; [exact Hv|discriminate].
    + intros (Hv & _). apply (fd_own g _ _ (builder_doc m) Hv).
      * apply Hown. unfold client_methods. rewrite Etag. apply in_map_iff. exists m. split; auto. apply filter_In. auto.
      * rewrite E. cbn [oc_impl]. apply in_map_iff. exists m. auto.
  - unfold generate_tokens_builder_separate in Hc. apply obind_ok in Hc as (st & _ & Hc).
    destruct (builder_tags U ms _) as (base & traits) eqn:Et.
    assert (E : ge_code g = OperationCode base traits st (lit "Client" :: map tc_name traits)) by congruence.
    destruct (tags_iff hasr U ts ms _ _ _ (map (fun m => pascal U (id m)) ms) Et (fun x H => H)) as (Hbase & _).
    destruct (traits_of U ms _ _ _ Et) as (Htr1 & Htr2). specialize (Hn2 eq_refl).
    assert (Hbases : In (id m) (map im_name base) -> m_tags m = []).
    { rewrite Hbase, helper_names. intro Hin. apply in_map_iff in Hin as (n & En & Hin). apply filter_In in Hin as (Hin & Hu).
      rewrite (ids_unique m n Hm Hin (eq_sym En)). now destruct (m_tags n). }
    split.
    + intros [doc Hv _ Hin|t doc Hv Hr Hf _ Ht Hin Huniq].
      * split; [exact Hv|]. intros _. assert (Em : m_tags m = []).
        { apply Hbases. rewrite E in Hin. cbn [oc_impl] in Hin. change (id m) with (im_name (ImBuilder (id m) doc (pascal U (id m)))). now apply in_map. }
        rewrite Em. split; [cbn; lia|easy].
      * split; [exact Hv|]. intros _. split; [|intros _; split; [exact Hr|now apply Hnf]].
        rewrite E in Huniq. cbn [oc_traits] in Huniq. pose proof (sg_once _ _ Hn2 m Hm) as Hnd.
        destruct (m_tags m) as [|a [|b r]] eqn:Em; cbn [length]; try lia. exfalso.
        assert (Ha : In a (m_tags m)) by (rewrite Em; now left). assert (Hb : In b (m_tags m)) by (rewrite Em; right; now left).
        destruct (Htr2 m a Hm Ha) as (ta & Hta & Na & Ma). destruct (Htr2 m b Hm Hb) as (tb & Htb & Nb & Mb).
        assert (Ea : ta = t) by (apply Huniq; auto; change (id m) with (im_name (builder_helper U m)); now apply in_map).
        assert (Eb : tb = t) by (apply Huniq; auto; change (id m) with (im_name (builder_helper U m)); now apply in_map).
        assert (Eab : trait_name U a = trait_name U b) by congruence. apply ext_name_inj in Eab.
        apply (sg_traits _ _ Hn2 m m a b Hm Hm Ha Hb) in Eab. subst b. inversion Hnd as [|? ? Hna _]; subst. apply Hna. now left.
    + intros (Hv & Hsep). destruct (Hsep eq_refl) as (Hlen & Htag). destruct (m_tags m) as [|a [|b r]] eqn:Em; [| |cbn in Hlen; lia].
      * apply (fd_own g _ _ (builder_doc m) Hv).
        -- apply Hown. unfold client_methods. rewrite Etag. apply in_map_iff. exists m. split; auto. apply filter_In. rewrite Em. auto.
        -- rewrite E, Hbase. cbn [oc_impl]. apply in_map_iff. exists m. split; [reflexivity|]. apply filter_In. rewrite Em. auto.
      * destruct Htag as (Hr & Hf); [easy|]. assert (Ha : In a (m_tags m)) by (rewrite Em; now left).
        destruct (Htr2 m a Hm Ha) as (ta & Hta & Na & Ma).
        apply (fd_trait g _ _ ta (builder_doc m) Hv Hr); [now apply Hnf| | | |].
        -- rewrite E. cbn [oc_impl]. intro Hin. apply Hbases in Hin. discriminate.
        -- now rewrite E.
        -- exact Ma.
        -- rewrite E. cbn [oc_traits]. intros t' Ht' Hin. pose proof (fk_traits _ _ _ Hg) as Hnd. rewrite E in Hnd. cbn [oc_traits] in Hnd.
           apply (same_name tc_name traits); auto. destruct (Htr1 t' Ht') as (t & m' & Hm' & Htm & Nt & Mt). rewrite Nt, Na. f_equal.
           rewrite Mt, repeat_names in Hin. apply in_flat_map in Hin as (n & Hn & Hrep).
           assert (En : id n = id m) by (destruct (count_occ str_eq_dec (m_tags n) t); [easy|apply repeat_spec in Hrep; auto]).
           assert (n = m) by (now apply ids_unique). subst n.
           assert (Hin : In t (m_tags m)) by (apply (count_occ_In str_eq_dec); destruct (count_occ str_eq_dec (m_tags m) t); [easy|lia]).
           rewrite Em in Hin. now destruct Hin as [<-|[]].
Qed.

Lemma commands_iff :
  Forall (fun o => exists sc, In sc (oc_builders (ge_code g)) /\ sc_name sc = co_struct o
      /\ finds g (co_op_name o) (sc_name sc) /\ operation_compiles has sets ctypes ts o (sc_code sc)) (cc_operations k)
  <-> Forall (fun m => reached m /\ exists sb, method_sig_body (se_hooks s) m = Ok sb /\ sound_command has sets ctypes U types m sb) ms.
Proof.
  pose proof (ro_code _ _ _ _ _ _ _ R) as Hcode. pose proof (builder_structs _ _ _ _ _ _ Hi Hcode) as Hst.
  destruct client_sound as (_ & _ & Hn3 & Hall).
  assert (Hsn : NoDup (map sc_name (oc_builders (ge_code g)))) by (rewrite (struct_names_of U types s ms _ Hst); exact Hn3).
  assert (Heach : forall m o, In m ms -> cli_method U ctypes m = Ok o ->
    ((exists sc, In sc (oc_builders (ge_code g)) /\ sc_name sc = co_struct o
      /\ finds g (co_op_name o) (sc_name sc) /\ operation_compiles has sets ctypes ts o (sc_code sc))
     <-> reached m /\ exists sb, method_sig_body (se_hooks s) m = Ok sb /\ sound_command has sets ctypes U types m sb)).
  { intros m o Hm Ho. destruct (op_names m o Ho) as (_ & _ & En & Es). rewrite En, Es.
    destruct (forall2_left _ _ _ _ Hst Hm) as (sc & Hsc & Esc & Hc). destruct (builder_struct_ok _ _ _ _ Hc) as (_ & Hsb & _).
    destruct (forall2_right _ _ _ _ F Hm) as (e & _ & Hp). unfold processed in Hp.
    pose proof (all_builder_ok hasr types s ts ms l Hall m Hm) as Hbok.
    pose proof (command_iff has sets ctypes types U Hcases Hdash Hpath Hp Hsb Hc Hbok Ho) as Hiff. pose proof (finds_iff m Hm) as Hfi.
    split.
    - intros (sc' & Hsc' & Esc' & Hf & Hoc). assert (sc' = sc) by (apply (same_name sc_name (oc_builders (ge_code g))); auto; rewrite Esc'; now symmetry).
      subst sc'. split; [apply Hfi; now rewrite <- Esc'|]. exists (bc_send (sc_code sc)). split; [exact Hsb|]. now apply Hiff.
    - intros (Hr & sb & Hsb' & Hs). assert (sb = bc_send (sc_code sc)) by congruence. subst sb. exists sc. split; [exact Hsc|]. split; [exact Esc|].
      split; [rewrite Esc; now apply Hfi|now apply Hiff]. }
  revert Hops Heach. clear. generalize (cc_operations k) as os, ms as xs. intros os xs H. induction H as [|m o xs os Hm Hrest IH]; intro Heach; [split; constructor|].
  rewrite !Forall_cons_iff, (Heach m o (or_introl eq_refl) Hm). rewrite IH; [reflexivity|]. intros m' o' Hin. apply Heach. now right.
Qed.

Lemma head_differs (a b x y : str) : hd 0 a <> hd 0 b -> a <> [] -> b <> [] -> a ++ x <> b ++ y.
Proof. destruct a, b; cbn; congruence. Qed.

Lemma cli_iff : cli_compiles has sets ctypes ts k g <-> sound_cli has sets ctypes U types s ms.
Proof.
  destruct functions_names as (Ec & Ee). destruct client_sound as (_ & _ & Hn3 & _).
  assert (Hids : NoDup (map m_operation_id ms)).
  { apply (nodup_names (fun m => pascal U (id m))); auto. cbn. intros x y _ _ E. now rewrite E. }
  assert (Hpre : forall p, NoDup (map (fun m => p ++ id m) ms)).
  { intro p. rewrite <- (map_map m_operation_id (fun x => p ++ x)). clear - Hids. induction Hids as [|x xs Hn _ IH]; cbn [map]; constructor; auto.
    intro Hin. apply in_map_iff in Hin as (y & E & Hy). apply app_inv_head in E. now subst y. }
  assert (Hnames : forall p m, In (p ++ snake U (id m)) (map (fun m => p ++ id m) ms) <-> exists n, In n ms /\ id n = snake U (id m)).
  { intros p m. rewrite in_map_iff. split.
    - intros (n & E & Hn). apply app_inv_head in E. eauto.
    - intros (n & Hn & E). exists n. now rewrite E. }
  split.
  - intros [H1 H2 H3 H4 H5 H6]. apply commands_iff in H6. rewrite Forall_forall in H6. constructor.
    + intros m Hm. apply (Hnames (lit "cli_")). rewrite <- Ec. apply (H4 (pascal U (id m))). rewrite Hcom. apply in_map_iff. exists m. auto.
    + intros m Hm. apply (H6 m Hm).
    + intros Ht m Hm. now apply (H6 m Hm).
    + intros Ht m Hm Hne. now apply (H6 m Hm).
    + apply Forall_forall. intros m Hm. apply (H6 m Hm).
  - intros [H1 H2 H3 H4 H5]. constructor.
    + rewrite Ec, Ee. apply nodup_app_iff. split; [repeat (constructor; [cbn; intuition discriminate|]); constructor|]. split.
      * apply nodup_app_iff. split; [apply Hpre|]. split; [apply Hpre|]. intros x Hx Hy. apply in_map_iff in Hx as (m & <- & _).
        apply in_map_iff in Hy as (n & E & _). revert E. apply head_differs; vm_compute; discriminate.
      * intros x Hx Hy. apply in_app_iff in Hy as [Hy|Hy]; apply in_map_iff in Hy as (m & <- & _);
          repeat (destruct Hx as [Hx|Hx]; [discriminate Hx|]); easy.
    + rewrite Ee. apply nodup_app_iff. split; [repeat (constructor; [cbn; intuition discriminate|]); constructor|]. split; [apply Hpre|].
      intros x Hx Hy. apply in_map_iff in Hy as (m & <- & _). repeat (destruct Hx as [Hx|Hx]; [discriminate Hx|]). easy.
    + now rewrite Hvar.
    + rewrite Hcom, Hvar, Ec. intros v f Hin. apply in_map_iff in Hin as (m & E & Hm). split; [apply in_map_iff; exists m; split; [congruence|exact Hm]|].
      apply (f_equal snd) in E. cbn [snd] in E. rewrite <- E. apply Hnames. now apply H1.
    + rewrite Hexe, Hvar, Ee. intros v f Hin. apply in_map_iff in Hin as (m & E & Hm). split; [apply in_map_iff; exists m; split; [congruence|exact Hm]|].
      apply (f_equal snd) in E. cbn [snd] in E. rewrite <- E. apply Hnames. now apply H1.
    + apply commands_iff. rewrite Forall_forall in H5 |- *. intros m Hm. split; [|exact (H5 m Hm)].
      split; [exact (H2 m Hm)|]. intro Ht. split; [exact (H3 Ht m Hm)|]. intro Hne. exact (H4 Ht m Hm Hne).
Qed.
End File.

(** A client is generated exactly for the supported documents. *)
From Coq Require Import ZifyBool ZifyN.
From Verif Require Import Base OasModel TemplateModel TemplateSpec TemplateProofs MethodModel OpModel BuilderModel
  SanitizeModel GenerateModel RefSpec RefProofs ResponseSpec ResponseProofs RequestSpec ParamSpec ParamProofs DocSpec
  DocProofs OpCor ExtractProofs BuilderSpec BuilderSend GenerateSpec GenerateProofs ValidateProofs SupportSpec.
Local Open Scope N_scope.

Lemma mapM_total {A B} (f : A -> outcome B) l : (exists bs, mapM f l = Ok bs) <-> Forall (fun a => exists b, f a = Ok b) l.
Proof.
  split.
  - intros (bs & H). apply mapM_ok in H. induction H; constructor; eauto.
  - induction 1 as [|a l (b & Hb) _ (bs & IH)]; cbn; [eauto|]. rewrite Hb. cbn. rewrite IH. cbn. eauto.
Qed.

Section Op.
Variables (snake pascal : str -> str) (ts : type_space) (types : type_id -> option type_info) (i : interface_style).

(** ** Parameters *)

Definition kind_for (p : parameter) (required : bool) : param_kind :=
  match p with ParQuery _ _ => KQuery required | ParHeader _ => KHeader required | _ => KPath end.
Definition made (p : parameter) (t : type_id) (required : bool) : op_param :=
  OpParam (snake (param_name p)) (param_name p) (pd_description (parameter_data p)) (PType t) (kind_for p required).

Lemma process_param_iff oid p q : process_param snake pascal ts oid p = Ok q <->
  exists t required, typed_param ts (pascal (oid ++ lit "-" ++ param_name p)) p t required /\ q = made p t required.
Proof.
  unfold made, param_name. split.
  - unfold process_param. destruct p as [d []|d|d []|d]; cbn [parameter_data]; intro H; try discriminate.
    + apply obind_ok in H as (s & Hs & H). apply obind_ok in H as (t & Ht & H).
      apply obind_ok in H as ([t' r] & Hr & H). injection H as <-. unfold param_schema in Hs.
      destruct (pd_schema d) as [sch|] eqn:Es; [|discriminate]. injection Hs as ->.
      destruct (ts_details ts t) as [k|] eqn:Ek; [|discriminate].
      destruct k as [o| | | |]; injection Hr as <- <-; eexists _, _; (split; [|reflexivity]);
        first [exact (tp_option _ _ _ _ _ _ Es Ht Ek)|eapply tp_query; [exact Es|exact Ht|exact Ek|discriminate]].
    + apply obind_ok in H as (s & Hs & H). apply obind_ok in H as (t & Ht & H). injection H as <-. unfold param_schema in Hs.
      destruct (pd_schema d) as [sch|] eqn:Es; [|discriminate]. injection Hs as ->.
      eexists _, _. split; [|reflexivity]. exact (tp_header _ _ _ _ _ Es Ht).
    + destruct (pd_required d) eqn:Er; [|discriminate]. cbn [negb] in H.
      apply obind_ok in H as (s & Hs & H). apply obind_ok in H as (t & Ht & H). injection H as <-. unfold param_schema in Hs.
      destruct (pd_schema d) as [sch|] eqn:Es; [|discriminate]. injection Hs as ->.
      eexists _, _. split; [|reflexivity]. exact (tp_path _ _ _ _ _ Er Es Ht).
  - intros (t & r & H & ->). unfold process_param, param_schema.
    remember (pascal (oid ++ lit "-" ++ pd_name (parameter_data p))) as tn eqn:Etn.
    destruct H as [d sch t Er Es Ht|d sch t k Es Ht Ek Hk|d sch t o Es Ht Ek|d sch t Es Ht]; cbn [parameter_data] in *; rewrite Es; cbn [obind]; rewrite <- Etn.
    + rewrite Er. cbn [negb]. rewrite Ht. reflexivity.
    + rewrite Ht. cbn [obind]. rewrite Ek. destruct k; try reflexivity. now elim (Hk t0).
    + rewrite Ht. cbn [obind]. rewrite Ek. reflexivity.
    + rewrite Ht. reflexivity.
Qed.

(** A parameter can be passed. *)
Definition fits (p : op_param) : Prop :=
  match p_typ p with
  | PType t => passable types i (p_name p) t (is_required (p_kind p))
  | PRawBody => p_kind p = KBody OctetStream \/ exists mime, p_kind p = KBody (Text mime)
  end.

Lemma typed_required tn p t r : typed_param ts tn p t r -> is_required (kind_for p r) = r.
Proof. now intros []. Qed.

Lemma typed_in_path tn p t r : typed_param ts tn p t r -> (in_path p <-> kind_for p r = KPath).
Proof. now intros []; cbn. Qed.

(** ** Bodies *)

Lemma supported_body_made oid comps body : supported_body ts types comps (pascal (oid ++ lit "-body")) body ->
  exists b, get_body_param pascal ts oid body comps = Ok b /\ forall q, b = Some q -> fits q.
Proof.
  intros [|r b Hr Hc|r b cs mt name ct typ Hr Hc Hn Hm Ht Hk].
  - exists None. split; [reflexivity|discriminate].
  - exists None. cbn. apply item_ok_iff in Hr. rewrite Hr. cbn. rewrite Hc. split; [reflexivity|discriminate].
  - cbn. apply item_ok_iff in Hr. rewrite Hr. cbn [obind]. rewrite Hc.
    assert (Hct : body_content_type_of cs = Ok ct) by (apply body_content_type_iff; eauto).
    destruct Ht as [mt sch s Es Hs Hb|mime mt sch s Es Hs Hb|mt sch t Es Ee Ha|mt sch t Es Ee Ha]; rewrite Es, Hct; cbn [obind].
    + apply item_ok_iff in Hs. rewrite Hs. cbn [obind].
      assert (plain_string is_binary_format s = true) as ->.
      { apply (plain_string_iff _ (VItem SfBinary)); [|exact Hb]. intros [[]|?|]; split; intro G; (discriminate||reflexivity). }
      cbn [obind]. eexists. split; [reflexivity|]. intros q [= <-]. left. reflexivity.
    + apply item_ok_iff in Hs. rewrite Hs. cbn [obind].
      assert (plain_string is_empty_format s = true) as ->.
      { apply (plain_string_iff _ VEmpty); [|exact Hb]. intros [[]|?|]; split; intro G; (discriminate||reflexivity). }
      cbn [obind]. eexists. split; [reflexivity|]. intros q [= <-]. right. exists mime. reflexivity.
    + rewrite Ee. cbn [negb]. rewrite Ha. cbn [obind]. eexists. split; [reflexivity|]. intros q [= <-].
      unfold fits, passable. cbn. destruct (types t) as [info|] eqn:Et; [eauto|]. now elim (Hk t).
    + rewrite Ee. cbn [negb]. rewrite Ha. cbn [obind]. eexists. split; [reflexivity|]. intros q [= <-].
      unfold fits, passable. cbn. destruct (types t) as [info|] eqn:Et; [eauto|]. now elim (Hk t).
Qed.

Lemma made_supported_body oid comps body b : get_body_param pascal ts oid body comps = Ok b ->
  (forall q, b = Some q -> fits q) -> supported_body ts types comps (pascal (oid ++ lit "-body")) body.
Proof.
  unfold get_body_param. destruct body as [r|]; [|constructor]. intros H Hf.
  apply obind_ok in H as (b' & Hb' & H). apply item_ok_iff in Hb'.
  destruct (rb_content b') as [|[cs mt] [|]] eqn:Ec; [exact (sb_empty _ _ _ _ _ _ Hb' Ec)| |discriminate].
  destruct (mt_schema mt) as [sch|] eqn:Es; [|discriminate]. apply obind_ok in H as (ct & Hct & H).
  apply obind_ok in H as (typ & Ht & H). injection H as <-. specialize (Hf _ eq_refl).
  apply body_content_type_iff in Hct as (name & Hn & Hm).
  apply (sb_one _ _ _ _ r b' cs mt name ct typ Hb' Ec Hn Hm).
  - destruct ct as [| | |mime].
    1: { apply obind_ok in Ht as (s & Hs & Ht). apply item_ok_iff in Hs.
         destruct (plain_string is_binary_format s) eqn:E; [|discriminate]. injection Ht as <-.
         apply (plain_string_iff _ (VItem SfBinary)) in E; [|intros [[]|?|]; split; intro G; (discriminate||reflexivity)].
         exact (bt_octets _ _ _ _ _ _ Es Hs E). }
    3: { apply obind_ok in Ht as (s & Hs & Ht). apply item_ok_iff in Hs.
         destruct (plain_string is_empty_format s) eqn:E; [|discriminate]. injection Ht as <-.
         apply (plain_string_iff _ VEmpty) in E; [|intros [[]|?|]; split; intro G; (discriminate||reflexivity)].
         exact (bt_text _ _ _ _ _ _ _ Es Hs E). }
    all: destruct (mt_encoding_empty mt) eqn:Ee; cbn [negb] in Ht; [|discriminate];
         apply obind_ok in Ht as (t & Ha & Ht); injection Ht as <-.
    + exact (bt_json _ _ _ _ _ _ Es Ee Ha).
    + exact (bt_form _ _ _ _ _ _ Es Ee Ha).
  - intros t ->. unfold fits in Hf. cbn in Hf. destruct Hf as (info & Hi & _). congruence.
Qed.

(** ** Responses *)

Lemma process_response_iff oid ws comps key r :
  (exists x, process_response pascal ts oid ws comps (key, r) = Ok x) <->
  exists doc, resolves co_responses comps r doc /\ supported_response ts (pascal (oid ++ lit "-response")) doc.
Proof.
  unfold process_response. cbn [fst snd]. split.
  - intros (x & H). apply obind_ok in H as (doc & Hd & H). apply item_ok_iff in Hd. exists doc. split; [exact Hd|].
    apply obind_ok in H as (k & Hk & _). intros pre n mt post Hc Hpre Hn.
    assert (E : find (fun xm => is_json_name (fst xm)) (rd_content doc) = Some (n, mt)).
    { rewrite Hc. apply not_json_iff in Hpre. clear -Hpre Hn. induction Hpre as [|a l Ha _ IH]; cbn.
      - apply is_json_name_iff in Hn. now rewrite Hn.
      - now rewrite Ha. }
    rewrite E in Hk. destruct (mt_encoding_empty mt); [|discriminate]. split; [reflexivity|]. cbn [negb] in Hk.
    destruct (mt_schema mt) as [sch|]; [|discriminate]. apply obind_ok in Hk as (t & Ht & _). eauto.
  - intros (doc & Hd & Hs). apply item_ok_iff in Hd. rewrite Hd. cbn [obind].
    pose proof (find_split (fun xm => is_json_name (fst xm)) (rd_content doc)) as Hf.
    destruct (find _ _) as [[n mt]|]; [|cbn; eauto].
    destruct Hf as (pre & post & Hc & Hp & Hn). cbn [fst] in Hn.
    destruct (Hs pre n mt post Hc) as (-> & sch & t & Es & Ht); [now apply not_json_iff|now apply is_json_name_iff|].
    cbn [negb]. rewrite Es, Ht. cbn. eauto.
Qed.

Lemma process_responses_iff oid ws comps op :
  (exists rs, process_responses pascal ts oid ws comps op = Ok rs) <->
  forall key r, doc_entry op key r -> exists doc, resolves co_responses comps r doc
    /\ supported_response ts (pascal (oid ++ lit "-response")) doc.
Proof.
  transitivity (Forall (fun v => exists x, process_response pascal ts oid ws comps v = Ok x) (documented op)).
  - rewrite <- mapM_total. unfold process_responses. split.
    + intros (rs & H). apply obind_ok in H as (rs0 & H & _). eauto.
    + intros (rs0 & ->). cbn. eauto.
  - rewrite Forall_forall. split.
    + intros H key r He. apply documented_iff in He. specialize (H _ He). now apply process_response_iff in H.
    + intros H [key r] He. apply documented_iff in He. apply process_response_iff. eauto.
Qed.

(** ** Pagination *)

Lemma pagination_item ext ps rs pg : dropshot_pagination_data ts ext ps rs = Some pg ->
  In (lit "x-dropshot-pagination") (map fst ext) /\ exists a, ts_details ts a = Some (TdVec (pg_item pg)).
Proof.
  unfold dropshot_pagination_data. destruct (assoc _ ext) as [v|] eqn:Ev; [|discriminate]. intro H. split.
  - apply assoc_In in Ev. now apply (in_map fst) in Ev.
  - destruct (negb _); [discriminate|]. destruct (negb _); [discriminate|]. destruct (existsb _ _); [discriminate|].
    destruct (flat_map _ _) as [|x [|]]; try discriminate. destruct (ts_details ts x) as [[| | |props|]|]; try discriminate.
    cbv zeta in H. destruct (negb _); [discriminate|]. destruct (assoc (lit "next_page") _) as [np|]; [|discriminate].
    destruct (ts_details ts np) as [[o| | | |]|]; try discriminate. destruct (ts_details ts o) as [[| | | |]|]; try discriminate.
    destruct (assoc (lit "items") _) as [it|]; [|discriminate]. destruct (ts_details ts it) as [[| |e| |]|] eqn:E; try discriminate.
    injection H as <-. eauto.
Qed.

(** ** Operations *)

Lemma in_combined others own p : In p (map snd (combined others own)) <-> effective others own p.
Proof. apply combined_effective. Qed.

(** The documented parameters and those of the method. *)
Lemma params_made oid ps qs :
  Forall2 (fun p q => process_param snake pascal ts oid p = Ok q) ps qs ->
  (forall p, In p ps -> exists t r, typed_param ts (pascal (oid ++ lit "-" ++ param_name p)) p t r /\ In (made p t r) qs) /\
  (forall q, In q qs -> exists p t r, In p ps /\ typed_param ts (pascal (oid ++ lit "-" ++ param_name p)) p t r /\ q = made p t r).
Proof.
  intro H. split.
  - intros p Hp. destruct (forall2_In_l _ _ _ _ H Hp) as (q & Hq & E). apply process_param_iff in E as (t & r & Ht & ->). eauto.
  - intros q Hq. destruct (forall2_In_r _ _ _ _ H Hq) as (p & Hp & E). apply process_param_iff in E as (t & r & Ht & ->). eauto 6.
Qed.

Lemma operation_iff h comps op path verb shared : elements_known ts types -> ordinary op ->
  ((exists m, process_operation snake pascal ts op comps path (http_method_str verb) shared = Ok m
     /\ (exists sb, method_sig_body h m = Ok sb) /\ Forall fits (m_params m)) <->
   supported_operation snake pascal ts types i comps op path shared).
Proof.
  intros Hel (Hcv & Hext). split.
  - intros (m & Hm & (sb & Hsb) & Hfit).
    destruct (process_operation_params _ _ _ _ _ _ _ _ _ Hm)
      as (oid & others & own & qs & body & Hid & Hoth & Hown & Hqs & Hbody & Hparse & Hsort & Hpres & Hws & Hresp & _).
    destruct (proj1 (parse_accepts_iff path) (ex_intro _ _ Hparse)) as (pieces & -> & Hlax).
    pose proof (parse_names _ _ Hlax Hparse) as Hnames.
    pose proof (sort_params_checked _ _ _ Hpres Hsort) as Hknown.
    destruct (sort_params_sorted _ _ _ Hpres Hsort) as (Hperm & _).
    destruct (params_made _ _ _ Hqs) as (Hm1 & Hm2).
    assert (Hfit' : forall q, In q (qs ++ match body with Some b => [b] | None => [] end) -> fits q).
    { intros q Hq. rewrite Forall_forall in Hfit. apply Hfit. eapply Permutation_in; [apply Permutation_sym; exact Hperm|exact Hq]. }
    fold (is_websocket op) in Hws.
    assert (Htab : exists t, response_table pascal ts comps op (m_websocket m) t).
    { destruct (table_exists _ _ _ _ _ _ _ Hresp) as (t & Ht). exists t, oid. auto. }
    destruct Htab as (table & Htab).
    assert (Hcov : forall n, In n (vars pieces) -> exists p, In p (m_params m) /\ p_kind p = KPath /\ p_api_name p = n).
    { intros n Hn. unfold method_sig_body in Hsb. cbv zeta in Hsb. apply obind_ok in Hsb as (u & Hu & _).
      destruct (in_dec str_eq_dec n (map fst (url_renames (m_params m)))) as [Hi|Hni].
      - apply in_map_iff in Hi as ([a b] & Ha & Hi). cbn in Ha. subst a. unfold url_renames in Hi.
        apply in_flat_map in Hi as (p & Hp & Hi). destruct (p_kind p) eqn:Ek; try easy. destruct Hi as [[= <- <-]|[]]. eauto.
      - exfalso. destruct (proj2 (compile_panics (m_path m) (url_renames (m_params m)))) as (msg & Hp); [|congruence].
        exists n. rewrite Hnames. auto. }
    pose proof (proj1 (generation_iff_lax _ _ _ _ _ _ _ _ h _ _ Hlax Hm Htab Hcv Hcov) (ex_intro _ _ Hsb)) as (A1 & A2 & A3).
    apply (supported_intro _ _ _ _ _ comps op (show pieces) shared oid own others pieces table); auto.
    + intros p Hp. apply combined_effective in Hp. destruct (Hm1 p Hp) as (t & r & Ht & Hq). exists t, r. split; [exact Ht|].
      specialize (Hfit' _ (in_or_app _ _ _ (or_introl Hq))). unfold fits, made in Hfit'. cbn [p_typ p_name p_kind] in Hfit'.
      now rewrite (typed_required _ _ _ _ Ht) in Hfit'.
    + intros n Hn. destruct (Hcov n Hn) as (q & Hq & Hk & Ha).
      apply (Permutation_in _ Hperm) in Hq. apply in_app_or in Hq as [Hq|Hq].
      * destruct (Hm2 q Hq) as (p & t & r & Hp & Ht & ->). exists p. split; [now apply combined_effective|].
        split; [now apply (typed_in_path _ _ _ _ Ht)|exact Ha].
      * destruct body as [b|]; [|easy]. destruct Hq as [<-|[]]. apply get_body_param_ok in Hbody as (ct & Hk' & _). congruence.
    + intros p q Hp Hq Hpp Hqp Hne. apply combined_effective in Hp, Hq.
      destruct (Hm1 p Hp) as (t & r & Ht & Hip). destruct (Hm1 q Hq) as (t' & r' & Ht' & Hiq).
      assert (Hnn : param_name p <> param_name q).
      { intro E. apply Hne. pose proof (combined_nodup others own) as Hnd. clear -Hp Hq E Hnd.
        induction (map snd (combined others own)) as [|a l IH]; [easy|]. cbn in Hnd. inversion Hnd as [|? ? Hni Hnd']; subst.
        destruct Hp as [<-|Hp], Hq as [<-|Hq]; auto; exfalso; apply Hni; apply in_map_iff; eauto. }
      rewrite <- Hnames. apply checked_known in Hknown. destruct Hknown as [Hk|Hk].
      * exfalso. enough (2 <= length (filter is_path (qs ++ match body with Some b => [b] | None => [] end)))%nat by lia.
        apply (filter_two is_path _ (made p t r) (made q t' r')).
        -- apply in_or_app. now left.
        -- apply in_or_app. now left.
        -- intro E. apply Hnn. unfold made in E. congruence.
        -- unfold is_path, made. cbn. apply (typed_in_path _ _ _ _ Ht) in Hpp. now rewrite Hpp.
        -- unfold is_path, made. cbn. apply (typed_in_path _ _ _ _ Ht') in Hqp. now rewrite Hqp.
      * change (param_name p) with (p_api_name (made p t r)). apply Hk; [apply in_or_app; now left|].
        cbn. now apply (typed_in_path _ _ _ _ Ht).
    + apply (made_supported_body _ _ _ _ Hbody). intros q ->. apply Hfit'. apply in_or_app. right. now left.
    + apply (process_responses_iff oid (m_websocket m)). eauto.
    + now rewrite <- Hws.
    + now rewrite <- Hws.
  - intros [oid own others pieces table Hid Hoth Hown Hpar -> Hlax Hcov Hone Hbody Hresp Htab A1 A2 A3].
    assert (Hqs : exists qs, mapM (process_param snake pascal ts oid) (map snd (combined others own)) = Ok qs).
    { apply mapM_total. apply Forall_forall. intros p Hp. apply combined_effective in Hp.
      destruct (Hpar p Hp) as (t & r & Ht & _). exists (made p t r). apply process_param_iff. eauto. }
    destruct Hqs as (qs & Hqs). pose proof (mapM_ok _ _ _ Hqs) as Hqs'.
    destruct (params_made _ _ _ Hqs') as (Hm1 & Hm2).
    destruct (supported_body_made _ _ _ Hbody) as (body & Hb & Hbfit).
    destruct (proj2 (parse_accepts_iff (show pieces))) as (tmp & Hparse); [eauto|].
    pose proof (parse_names _ _ Hlax Hparse) as Hnames.
    assert (Hpres : presented (qs ++ match body with Some b => [b] | None => [] end)).
    { exists qs, (match body with Some b => [b] | None => [] end). split; [reflexivity|]. split; [|split].
      - apply Forall_forall. intros q Hq. destruct (Hm2 q Hq) as (p & t & r & _ & _ & ->). now destruct p.
      - assert (E : map p_api_name qs = map param_name (map snd (combined others own))).
        { clear -Hqs'. induction Hqs' as [|p q ps qs Hp _ IH]; cbn; auto. apply process_param_ok in Hp. f_equal; tauto. }
        rewrite E. apply combined_nodup.
      - destruct body as [b|]; auto. right. apply get_body_param_ok in Hb as (ct & Hk & _). eauto. }
    assert (Hknown : paths_known (names tmp) (qs ++ match body with Some b => [b] | None => [] end)).
    { apply checked_known. unfold checked.
      destruct (Nat.le_gt_cases (length (filter is_path (qs ++ match body with Some b => [b] | None => [] end))) 1) as [Hle|Hgt]; [now left|].
      right. intros q Hq Hk. rewrite Hnames. apply in_app_or in Hq as [Hq|Hq].
      2:{ destruct body as [b|]; [|easy]. destruct Hq as [<-|[]]. apply get_body_param_ok in Hb as (ct & Hk' & _). congruence. }
      assert (Hnd : NoDup (map p_api_name (filter is_path qs))).
      { destruct Hpres as (front & bd & E & Hf & Hn & Hbd).
        assert (E' : map p_api_name qs = map param_name (map snd (combined others own))).
        { clear -Hqs'. induction Hqs' as [|p q ps qs Hp _ IH]; cbn; auto. apply process_param_ok in Hp. f_equal; tauto. }
        assert (Hq' : NoDup (map p_api_name qs)) by (rewrite E'; apply combined_nodup).
        clear -Hq'. induction qs as [|a l IH]; cbn; [constructor|]. cbn in Hq'. inversion Hq' as [|? ? Hni Hnd']; subst.
        destruct (is_path a); [|now apply IH]. cbn. constructor; [|now apply IH].
        intro Hi. apply Hni. apply in_map_iff in Hi as (x & Hx & Hi). apply in_map_iff. exists x. split; [exact Hx|].
        now apply filter_In in Hi. }
      rewrite filter_app, app_length in Hgt.
      assert (El : length (filter is_path match body with Some b => [b] | None => [] end) = 0%nat).
      { destruct body as [b|]; [|reflexivity]. apply get_body_param_ok in Hb as (ct & Hk' & _). cbn. unfold is_path. now rewrite Hk'. }
      assert (Hex : exists q', In q' (filter is_path qs) /\ p_api_name q' <> p_api_name q).
      { destruct (filter is_path qs) as [|a [|b l]]; cbn in Hgt; [lia|lia|]. cbn in Hnd. inversion Hnd as [|? ? Hni _]; subst.
        destruct (str_eq_dec (p_api_name a) (p_api_name q)) as [E|Hne].
        - exists b. split; [right; now left|]. intro E'. apply Hni. left. congruence.
        - exists a. split; [now left|exact Hne]. }
      destruct Hex as (q' & Hq' & Hne). apply filter_In in Hq' as (Hq' & Hk').
      destruct (Hm2 q Hq) as (p & t & r & Hp & Ht & ->). destruct (Hm2 q' Hq') as (p' & t' & r' & Hp' & Ht' & ->).
      apply combined_effective in Hp, Hp'. apply (Hone p p' Hp Hp').
      - now apply (typed_in_path _ _ _ _ Ht).
      - apply (typed_in_path _ _ _ _ Ht'). unfold is_path in Hk'. cbn in Hk'. destruct (kind_for p' r'); try discriminate. reflexivity.
      - intros ->. now apply Hne. }
    destruct (sort_params_ok _ _ Hpres Hknown) as (ps & Hsort & Hperm & _).
    destruct (proj2 (process_responses_iff oid (is_websocket op) comps op) Hresp) as (rs & Hrs).
    assert (Hm : exists m, process_operation snake pascal ts op comps (show pieces) (http_method_str verb) shared = Ok m
              /\ m_params m = ps /\ m_websocket m = is_websocket op).
    { unfold process_operation, parameter_map, items. rewrite Hid. cbv zeta.
      assert (E1 : mapM (item co_parameters comps) shared = Ok others).
      { apply mapM_ok_iff. eapply forall2_impl; [|exact Hoth]. intros a b Hab. now apply item_ok_iff. }
      assert (E2 : mapM (item co_parameters comps) (op_parameters op) = Ok own).
      { apply mapM_ok_iff. eapply forall2_impl; [|exact Hown]. intros a b Hab. now apply item_ok_iff. }
      rewrite E1. cbn [obind]. rewrite E2. cbn [obind]. change (bt_inserts _ _) with (combined others own). rewrite Hqs. cbn [obind].
      rewrite Hb. cbn [obind]. rewrite Hparse. cbn [obind]. rewrite Hsort. cbn [obind].
      change (match assoc (lit "x-dropshot-websocket") (op_extensions op) with Some _ => true | None => false end) with (is_websocket op).
      rewrite Hrs. cbn [obind].
      destruct (is_websocket op) eqn:Ew; cbn [andb].
      - destruct (dropshot_pagination_data ts (op_extensions op) ps rs) as [pg|] eqn:Ep.
        + exfalso. apply Hext. split; [|now apply pagination_item in Ep].
          unfold is_websocket in Ew. destruct (assoc _ _) as [v|] eqn:Ea; [|discriminate]. apply assoc_In in Ea. now apply (in_map fst) in Ea.
        + rewrite http_method_of_str. cbn. eauto.
      - rewrite http_method_of_str. cbn. eauto. }
    destruct Hm as (m & Hm & Hps & Hws). exists m. split; [exact Hm|].
    assert (Hcov' : forall n, In n (vars pieces) -> exists p, In p (m_params m) /\ p_kind p = KPath /\ p_api_name p = n).
    { intros n Hn. destruct (Hcov n Hn) as (p & Hp & Hpp & Hnm). apply combined_effective in Hp.
      destruct (Hm1 p Hp) as (t & r & Ht & Hi). exists (made p t r). split; [|split].
      - rewrite Hps. eapply Permutation_in; [apply Permutation_sym; exact Hperm|]. apply in_or_app. now left.
      - cbn. now apply (typed_in_path _ _ _ _ Ht).
      - exact Hnm. }
    split.
    + rewrite <- Hws in Htab, A1. apply (generation_iff_lax _ _ _ _ _ _ _ _ h _ _ Hlax Hm Htab Hcv Hcov'). auto.
    + rewrite Hps. apply Forall_forall. intros q Hq. apply (Permutation_in _ Hperm) in Hq. apply in_app_or in Hq as [Hq|Hq].
      * destruct (Hm2 q Hq) as (p & t & r & Hp & Ht & ->). apply combined_effective in Hp.
        destruct (Hpar p Hp) as (t' & r' & Ht' & Hpass).
        assert (E : process_param snake pascal ts oid p = Ok (made p t r)) by (apply process_param_iff; eauto).
        assert (E' : process_param snake pascal ts oid p = Ok (made p t' r')) by (apply process_param_iff; eauto).
        rewrite E in E'. injection E' as ? ?. subst t'. assert (r = r').
        { rewrite <- (typed_required _ _ _ _ Ht), <- (typed_required _ _ _ _ Ht'). congruence. }
        subst r'. unfold fits, made. cbn [p_typ p_name p_kind]. now rewrite (typed_required _ _ _ _ Ht).
      * destruct body as [b|]; [|easy]. destruct Hq as [<-|[]]. now apply Hbfit.
Qed.
End Op.

(** ** Methods and builders *)

Lemma sig_type_iff types p : (exists t, sig_type_of types p = Ok t) <-> fits types Positional p.
Proof.
  unfold sig_type_of, fits, passable. destruct (p_typ p) as [t|].
  - destruct (types t) as [info|].
    + split; [|eauto]. intros _. exists info. split; [reflexivity|discriminate].
    + split; [intros (x & H); discriminate|]. intros (info & H & _). discriminate.
  - unfold is_optional, is_required. destruct (p_kind p) as [|[]|[]|[| | |mime]]; cbn; split;
      try (intros (x & H); discriminate); try (intros [H|(x & H)]; discriminate); eauto.
Qed.

Lemma positional_iff types h m :
  (exists items, positional_method types h m = Ok items) <->
  (exists sb, method_sig_body h m = Ok sb) /\ Forall (fits types Positional) (m_params m)
  /\ (forall pg, m_paginated m = Some pg -> types (pg_item pg) <> None).
Proof.
  assert (E : Forall (fits types Positional) (m_params m) <-> exists tys, mapM (sig_type_of types) (m_params m) = Ok tys).
  { rewrite mapM_total. split; apply Forall_impl; intro p; apply sig_type_iff. }
  rewrite E. unfold positional_method. split.
  - intros (items & H). apply obind_ok in H as (tys & Ht & H). apply obind_ok in H as (sb & Hsb & H).
    split; [eauto|]. split; [eauto|]. intros pg Hpg. rewrite Hpg in H. destruct (types (pg_item pg)); discriminate.
  - intros ((sb & Hsb) & (tys & Ht) & Hpg). rewrite Ht. cbn [obind]. rewrite Hsb. cbn [obind].
    destruct (m_paginated m) as [pg|]; [|eauto]. destruct (types (pg_item pg)) eqn:E'; [eauto|]. now elim (Hpg pg).
Qed.

Lemma fits_acceptable types p : fits types Builder p <-> acceptable types p.
Proof.
  unfold fits, acceptable, passable. destruct (p_typ p); [|reflexivity].
  split; intros (info & H & Hb); exists info; (split; [exact H|]); auto.
Qed.

Lemma struct_iff U types h style m :
  (exists sc, struct_of U types h style m = Ok sc) <->
  (exists sb, method_sig_body h m = Ok sb) /\ Forall (fits types Builder) (m_params m)
  /\ (forall pg, m_paginated m = Some pg -> types (pg_item pg) <> None).
Proof.
  assert (E : Forall (fits types Builder) (m_params m) <-> Forall (acceptable types) (m_params m)).
  { split; apply Forall_impl; intro p; apply fits_acceptable. }
  rewrite E, <- builder_generated_iff. unfold struct_of. split.
  - intros (sc & H). apply obind_ok in H as (c & Hc & _). eauto.
  - intros (c & ->). cbn. eauto.
Qed.

Section Document.
Variables (U : unicode) (add_ref_types : list (str * ref_or schema) -> outcome type_space)
  (types : type_id -> option type_info).

Lemma code_iff s d ms : (exists c, code_for U types s d ms = Ok c) <->
  ~ (se_interface s = Positional /\ se_tag s = Separate)
  /\ Forall (fun m => (exists sb, method_sig_body (se_hooks s) m = Ok sb) /\ Forall (fits types (se_interface s)) (m_params m)
       /\ (forall pg, m_paginated m = Some pg -> types (pg_item pg) <> None)) ms.
Proof.
  unfold code_for. destruct (se_interface s), (se_tag s).
  - unfold generate_tokens_positional_merged. split.
    + intros (c & H). apply obind_ok in H as (items & Hi & _). split; [intros (_ & H'); discriminate|].
      assert (Hx : exists l, mapM (positional_method types (se_hooks s)) ms = Ok l) by eauto.
      apply mapM_total in Hx. revert Hx. apply Forall_impl. intro m. apply positional_iff.
    + intros (_ & H). enough (exists l, mapM (positional_method types (se_hooks s)) ms = Ok l) as (l & ->) by (cbn; eauto).
      apply mapM_total. revert H. apply Forall_impl. intro m. apply positional_iff.
  - split; [intros (c & H); discriminate|]. intros (H & _). elim H. auto.
  - unfold generate_tokens_builder_merged. split.
    + intros (c & H). apply obind_ok in H as (items & Hi & _). split; [intros (H' & _); discriminate|].
      assert (Hx : exists l, mapM (struct_of U types (se_hooks s) Merged) ms = Ok l) by eauto.
      apply mapM_total in Hx. revert Hx. apply Forall_impl. intro m. apply struct_iff.
    + intros (_ & H). enough (exists l, mapM (struct_of U types (se_hooks s) Merged) ms = Ok l) as (l & ->) by (cbn; eauto).
      apply mapM_total. revert H. apply Forall_impl. intro m. apply struct_iff.
  - unfold generate_tokens_builder_separate. split.
    + intros (c & H). apply obind_ok in H as (items & Hi & _). split; [intros (H' & _); discriminate|].
      assert (Hx : exists l, mapM (struct_of U types (se_hooks s) Separate) ms = Ok l) by eauto.
      apply mapM_total in Hx. revert Hx. apply Forall_impl. intro m. apply struct_iff.
    + intros (_ & H). enough (exists l, mapM (struct_of U types (se_hooks s) Separate) ms = Ok l) as (l & ->).
      { cbn. destruct (builder_tags U ms _). eauto. }
      apply mapM_total. revert H. apply Forall_impl. intro m. apply struct_iff.
Qed.

Lemma process_paths_total ts d paths : forall k,
  (forall path r, ~ In (path, Ref r) paths) ->
  (forall e, In e (doc_ops k paths) -> exists m, processed U ts d e m) ->
  exists groups, mapM (process_path U ts (oa_components d)) paths = Ok groups.
Proof.
  induction paths as [|[path [r|it]] l IH]; intros k Hr H; cbn [mapM].
  - eauto.
  - elim (Hr path r). now left.
  - destruct (IH (S k)) as (gs & Hgs).
    + intros p r Hi. apply (Hr p r). now right.
    + intros e He. apply H. cbn [doc_ops]. apply in_or_app. now right.
    + enough (exists g, process_path U ts (oa_components d) (path, Item it) = Ok g) as (g & ->).
      { cbn [obind]. rewrite Hgs. cbn. eauto. }
      unfold process_path. cbn [snd fst]. rewrite (path_item_iter_ops k path), mapM_map. apply mapM_total.
      apply Forall_forall. intros e He. destruct (H e) as (m & Hm).
      { cbn [doc_ops]. apply in_or_app. now left. }
      apply in_item_ops in He as (_ & Hp & _ & Hq). unfold processed in Hm. rewrite Hp, Hq in Hm. eauto.
Qed.

Hypothesis Hvalid : forall d, validate_openapi U d = Ok tt <-> valid_document U d.

Lemma document_iff s d :
  (forall ts, add_ref_types (match oa_components d with Some c => co_schemas c | None => [] end) = Ok ts -> elements_known ts types) ->
  (forall e, in_document d e -> ordinary (do_op e)) ->
  ((exists g, generate_tokens U add_ref_types types s d = Ok g) <-> supported_document U add_ref_types types s d).
Proof.
  intros Hel Hord. split.
  - intros (g & H). unfold generate_tokens in H. apply obind_ok in H as ([] & Hv & H).
    apply obind_ok in H as (ts & Hts & H). apply obind_ok in H as (groups & Hg & H).
    fold (code_for U types s d (concat groups)) in H. apply obind_ok in H as (code & Hc & _).
    destruct (proj1 (code_iff s d (concat groups)) (ex_intro _ code Hc)) as (Hsep & Hms). apply Hvalid in Hv.
    apply (supported_document_intro _ _ _ _ _ ts Hv Hsep Hts).
    intros e He. pose proof (process_paths U ts d (oa_paths d) 0 groups Hg) as HF.
    apply (doc_ops_in_order d) in He as He'. destruct (forall2_In_l _ _ _ _ HF He') as (m & Hm & Hp).
    rewrite Forall_forall in Hms. destruct (Hms m Hm) as (Hsb & Hfit & _).
    apply (operation_iff (GenerateSpec.snake U) (GenerateSpec.pascal U) ts types (se_interface s) (se_hooks s)
             (oa_components d) (do_op e) (do_path e) (do_method e) (do_params e) (Hel ts Hts) (Hord e He)).
    exists m. split; [exact Hp|]. split; [exact Hsb|exact Hfit].
  - intros [ts Hv Hsep Hts Hops]. unfold generate_tokens. rewrite (proj2 (Hvalid d) Hv). cbn [obind]. rewrite Hts. cbn [obind].
    assert (Hpr : forall e, In e (doc_ops 0 (oa_paths d)) -> exists m, processed U ts d e m
       /\ (exists sb, method_sig_body (se_hooks s) m = Ok sb) /\ Forall (fits types (se_interface s)) (m_params m)).
    { intros e He. apply (doc_ops_in_order d) in He.
      exact (proj2 (operation_iff (GenerateSpec.snake U) (GenerateSpec.pascal U) ts types (se_interface s) (se_hooks s)
             (oa_components d) (do_op e) (do_path e) (do_method e) (do_params e) (Hel ts Hts) (Hord e He)) (Hops e He)). }
    destruct (process_paths_total ts d (oa_paths d) 0) as (groups & Hg).
    { intros p r. apply (vd_no_refs _ _ Hv). }
    { intros e He. destruct (Hpr e He) as (m & Hm & _). eauto. }
    rewrite Hg. cbn [obind]. fold (code_for U types s d (concat groups)).
    enough (exists c, code_for U types s d (concat groups) = Ok c) as (c & ->) by (cbn; eauto).
    apply code_iff. split; [exact Hsep|]. apply Forall_forall. intros m Hm.
    pose proof (process_paths U ts d (oa_paths d) 0 groups Hg) as HF.
    destruct (forall2_In_r _ _ _ _ HF Hm) as (e & He & Hp). destruct (Hpr e He) as (m' & Hp' & Hsb & Hfit).
    assert (m' = m) by (unfold processed in *; congruence). subst m'. split; [exact Hsb|]. split; [exact Hfit|].
    intros pg Hpg. unfold processed in Hp.
    destruct (process_operation_params _ _ _ _ _ _ _ _ _ Hp)
      as (oid & others & own & qs & body & _ & _ & _ & _ & _ & _ & _ & _ & _ & _ & Hpag & _).
    rewrite Hpg in Hpag. symmetry in Hpag. apply pagination_item in Hpag as (_ & a & Ha). exact (Hel ts Hts a _ Ha).
Qed.
End Document.

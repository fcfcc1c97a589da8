(** Every failure of the generator has one of the listed causes, and every cause makes it fail. *)
From Coq Require Import ZifyBool ZifyN.
From Verif Require Import Base OasModel TemplateModel TemplateSpec TemplateProofs MethodModel OpModel BuilderModel
  SanitizeModel GenerateModel RefSpec RefProofs ResponseSpec ResponseProofs RequestSpec ParamSpec ParamProofs DocSpec
  DocProofs OpCor ExtractProofs BuilderSpec BuilderSend GenerateSpec GenerateProofs ValidateProofs SupportSpec SupportProofs
  FailSpec.
Local Open Scope N_scope.

(** An outcome whose failures are explained. *)
Definition explained {A} (P : error -> Prop) (Q : str -> Prop) (o : outcome A) : Prop :=
  match o with Ok _ => True | Err e => P e | Panic m => Q m end.

Lemma explained_bind {A B} P Q (x : outcome A) (f : A -> outcome B) :
  explained P Q x -> (forall a, x = Ok a -> explained P Q (f a)) -> explained P Q (obind x f).
Proof. destruct x; cbn; auto. Qed.
Lemma explained_mapM {A B} P Q (f : A -> outcome B) l :
  (forall a, In a l -> explained P Q (f a)) -> explained P Q (mapM f l).
Proof.
  induction l as [|a l IH]; intro H; [exact I|]. cbn [mapM]. apply explained_bind; [apply H; now left|].
  intros b _. apply explained_bind; [|intros bs _; exact I]. apply IH. intros x Hx. apply H. now right.
Qed.
Lemma explained_item {A} P (Q : str -> Prop) (get : components -> list (str * ref_or A)) comps r :
  (forall m, broken get comps r -> Q m) -> explained P Q (item get comps r).
Proof.
  intro H. destruct (item get comps r) as [a|e|m] eqn:E; cbn; [exact I| |].
  - elim (item_never_err _ _ _ _ E).
  - apply H. intros a Ha. apply item_ok_iff in Ha. congruence.
Qed.

Lemma explained_weaken {A} (P P' : error -> Prop) (Q Q' : str -> Prop) (x : outcome A) :
  (forall e, P e -> P' e) -> (forall m, Q m -> Q' m) -> explained P Q x -> explained P' Q' x.
Proof. intros HP HQ. destruct x; cbn; auto. Qed.

Section Op.
Variables (snake pascal : str -> str) (ts : type_space) (types : type_id -> option type_info) (i : interface_style).
Variables (comps : option components) (op : operation) (path : str) (shared : list (ref_or parameter)) (oid : str).
Notation ME := (made_error pascal ts comps op path shared oid).
Notation MP := (made_panic pascal ts comps op path shared oid).
Notation error_cause := (error_cause snake pascal ts types i comps op path shared oid).
Notation panic_cause := (panic_cause snake pascal ts types i comps op path shared oid).
Notation counted := (counts comps shared (op_parameters op)).

Lemma add_explained sch tn : typed_schema pascal comps op shared oid sch tn ->
  explained ME MP (ts_add ts sch tn).
Proof.
  intro H. destruct (ts_add ts sch tn) as [t|e|m] eqn:E; cbn; [exact I| |].
  - exact (er_type _ _ _ _ _ _ _ _ _ _ H E).
  - exact (pn_type _ _ _ _ _ _ _ _ _ _ H E).
Qed.

Lemma schema_explained p : counted p -> explained ME MP (param_schema (parameter_data p)).
Proof.
  intro H. unfold param_schema. destruct (pd_schema (parameter_data p)) eqn:E; cbn; [exact I|].
  exact (er_content _ _ _ _ _ _ _ _ H E).
Qed.

Lemma param_explained p : counted p -> explained ME MP (process_param snake pascal ts oid p).
Proof.
  intro H.
  assert (Hs : forall s, param_schema (parameter_data p) = Ok s -> pd_schema (parameter_data p) = Some s).
  { unfold param_schema. intro s. destruct (pd_schema _); [now intros [= ->]|discriminate]. }
  assert (Ha : forall s, param_schema (parameter_data p) = Ok s ->
    explained ME MP (ts_add ts s (pascal (oid ++ lit "-" ++ pd_name (parameter_data p))))).
  { intros s E. apply add_explained. exact (ty_param _ _ _ _ _ p s H (Hs s E)). }
  pose proof (schema_explained p H) as He.
  unfold process_param. destruct p as [d st|d|d st|d]; cbn [parameter_data] in *.
  - destruct st; try (cbn; eapply er_query_style; [exact H|discriminate]).
    apply explained_bind; [exact He|]. intros s Es. apply explained_bind; [exact (Ha s Es)|]. intros t Et.
    apply explained_bind; [|intros [t' r] _; exact I].
    destruct (ts_details ts t) as [[]|] eqn:Ed; cbn; try exact I.
    exact (pn_details _ _ _ _ _ _ _ _ _ _ _ H (Hs s Es) Et Ed).
  - apply explained_bind; [exact He|]. intros s Es. apply explained_bind; [exact (Ha s Es)|]. intros t Et. exact I.
  - destruct st; try (cbn; eapply er_path_style; [exact H|discriminate]).
    destruct (pd_required d) eqn:Er; cbn [negb]; [|cbn; exact (pn_optional _ _ _ _ _ _ _ _ _ H Er)].
    apply explained_bind; [exact He|]. intros s Es. apply explained_bind; [exact (Ha s Es)|]. intros t Et. exact I.
  - cbn. exact (er_cookie _ _ _ _ _ _ _ _ H).
Qed.

Lemma body_explained : explained ME MP (get_body_param pascal ts oid (op_request_body op) comps).
Proof.
  unfold get_body_param. destruct (op_request_body op) as [r|] eqn:Er; [|exact I].
  apply explained_bind. { apply explained_item. exact (fun m => pn_body _ _ _ _ _ _ _ r m Er). }
  intros b Hb. apply item_ok_iff in Hb.
  destruct (rb_content b) as [|[cs mt] [|x l]] eqn:Ec; [exact I| |].
  2: { cbn. apply (pn_media _ _ _ _ _ _ _ r b Er Hb). rewrite Ec. cbn. lia. }
  assert (Ho : only_media comps (op_request_body op) cs mt) by (rewrite Er; now apply (only_media_intro _ r b)).
  destruct (mt_schema mt) as [sch|] eqn:Es; [|cbn; exact (er_no_schema _ _ _ _ _ _ _ _ _ Ho Es)].
  apply explained_bind.
  { destruct (body_content_type_of cs) as [ct|e|m] eqn:E; cbn; [exact I| |].
    - assert (He : e = UnexpectedFormat (lit "unexpected content type: " ++ cs)).
      { unfold body_content_type_of in E. repeat (destruct (_ || _) || destruct (str_eqb _ _)); try discriminate. now injection E as <-. }
      subst e. apply (er_media _ _ _ _ _ _ _ cs mt Ho).
      intros ct Hct. apply (body_content_type_iff cs ct) in Hct. congruence.
    - exfalso. unfold body_content_type_of in E. repeat (destruct (_ || _) || destruct (str_eqb _ _)); discriminate. }
  intros ct Hct. apply body_content_type_iff in Hct. fold (media_is cs ct) in Hct.
  apply explained_bind; [|intros typ _; exact I].
  destruct ct as [| | |mime].
  - apply explained_bind.
    { apply explained_item. intros m Hbr. exact (pn_schema _ _ _ _ _ _ _ cs mt _ sch m Ho Hct (or_introl eq_refl) Es Hbr). }
    intros s Hs. apply item_ok_iff in Hs. destruct (plain_string is_binary_format s) eqn:E; [exact I|]. cbn.
    apply (er_octets _ _ _ _ _ _ _ cs mt sch s Ho Hct Es Hs). intro Hb'.
    apply (plain_string_iff is_binary_format (VItem SfBinary)) in Hb'; [congruence|].
    intros [[]|?|]; split; intro G; (discriminate||reflexivity).
  - destruct (mt_encoding_empty mt) eqn:Ee; cbn [negb].
    + apply explained_bind; [|intros t _; exact I]. apply add_explained. exact (ty_body _ _ _ _ _ cs mt sch _ Ho Es Hct (or_introl eq_refl)).
    + exact (pn_encoding _ _ _ _ _ _ _ cs mt _ Ho Hct (or_introl eq_refl) Ee).
  - destruct (mt_encoding_empty mt) eqn:Ee; cbn [negb].
    + apply explained_bind; [|intros t _; exact I]. apply add_explained. exact (ty_body _ _ _ _ _ cs mt sch _ Ho Es Hct (or_intror eq_refl)).
    + exact (pn_encoding _ _ _ _ _ _ _ cs mt _ Ho Hct (or_intror eq_refl) Ee).
  - apply explained_bind.
    { apply explained_item. intros m Hbr.
      exact (pn_schema _ _ _ _ _ _ _ cs mt _ sch m Ho Hct (or_intror (ex_intro _ mime eq_refl)) Es Hbr). }
    intros s Hs. apply item_ok_iff in Hs. destruct (plain_string is_empty_format s) eqn:E; [exact I|]. cbn.
    apply (er_text _ _ _ _ _ _ _ cs mt mime sch s Ho Hct Es Hs). intro Hb'.
    apply (plain_string_iff is_empty_format VEmpty) in Hb'; [congruence|].
    intros [[]|?|]; split; intro G; (discriminate||reflexivity).
Qed.

Lemma responses_explained ws : explained ME MP (process_responses pascal ts oid ws comps op).
Proof.
  unfold process_responses. apply explained_bind; [|intros rs _; exact I]. apply explained_mapM.
  intros [key r] Hi. apply documented_iff in Hi. unfold process_response. cbn [fst snd].
  apply explained_bind. { apply explained_item. exact (fun m => pn_answer _ _ _ _ _ _ _ key r m Hi). }
  intros doc Hd. apply item_ok_iff in Hd. apply explained_bind; [|intros k _; exact I].
  pose proof (find_split (fun xm => is_json_name (fst xm)) (rd_content doc)) as Hf.
  destruct (find _ _) as [[n mt]|]; [|exact I].
  destruct Hf as (pre & post & Hc & Hp & Hn). cbn [fst] in Hn. apply not_json_iff in Hp. apply is_json_name_iff in Hn.
  pose proof (json_answer_intro comps op key r doc pre n mt post Hi Hd Hc Hp Hn) as Hj.
  destruct (mt_encoding_empty mt) eqn:Ee; cbn [negb]; [|exact (pn_answer_encoding _ _ _ _ _ _ _ mt Hj Ee)].
  destruct (mt_schema mt) as [sch|] eqn:Es; [|exact (pn_answer_schema _ _ _ _ _ _ _ mt Hj Es)].
  apply explained_bind; [|intros t _; exact I]. apply add_explained. exact (ty_answer _ _ _ _ _ mt sch Hj Es).
Qed.

(** ** The order of the parameters *)

Lemma sort_never_err names l : forall pre e, sort_params_from names pre l <> Err e.
Proof.
  assert (Hc : forall a b e, cmp_params names a b <> Err e).
  { intros a b e. unfold cmp_params. destruct (p_kind a), (p_kind b); try discriminate.
    destruct (position names (p_api_name a)); [|discriminate]. destruct (position names (p_api_name b)); discriminate. }
  assert (Hi : forall x r e, insert_tail names x r <> Err e).
  { intros x r. induction r as [|y r IH]; intros e; cbn [insert_tail]; [discriminate|].
    destruct (cmp_params names x y) as [c| |] eqn:E; cbn [obind]; [|now elim (Hc x y e0)|discriminate].
    destruct c; try discriminate. destruct (insert_tail names x r) as [t| |]; cbn [obind]; try discriminate. now elim (IH e0). }
  induction l as [|x l IH]; intros pre e; cbn [sort_params_from]; [discriminate|].
  destruct (insert_tail names x pre) as [p| |] eqn:E; cbn [obind]; [apply IH|now elim (Hi x pre e0)|discriminate].
Qed.

(** Who is compared when the comparison panics. *)
Lemma insert_permutes names x : forall r r', insert_tail names x r = Ok r' -> Permutation (x :: r) r'.
Proof.
  induction r as [|y r IH]; cbn [insert_tail]; intros r' H; [injection H as <-; reflexivity|].
  apply obind_ok in H as (c & _ & H). destruct c; try (injection H as <-; reflexivity).
  apply obind_ok in H as (t & Ht & H). injection H as <-. apply IH in Ht. rewrite <- Ht. apply perm_swap.
Qed.
Lemma insert_panics names x : forall r m, insert_tail names x r = Panic m ->
  exists y r', cmp_params names x y = Panic m /\ Permutation r (y :: r').
Proof.
  induction r as [|y r IH]; cbn [insert_tail]; intros m H; [discriminate|].
  destruct (cmp_params names x y) as [c|e|m'] eqn:E; cbn [obind] in H; [|discriminate|].
  - destruct c; try discriminate. destruct (insert_tail names x r) as [t|e|m'] eqn:Et; cbn [obind] in H; try discriminate.
    injection H as ->. destruct (IH m eq_refl) as (z & r' & Hc & Hp). exists z, (y :: r'). split; auto.
    rewrite Hp. apply perm_swap.
  - injection H as ->. exists y, r. auto.
Qed.
Lemma sort_panics names : forall l pre m, sort_params_from names pre l = Panic m ->
  exists x y rest, cmp_params names x y = Panic m /\ Permutation (pre ++ l) (x :: y :: rest).
Proof.
  induction l as [|x l IH]; cbn [sort_params_from]; intros pre m H; [discriminate|].
  destruct (insert_tail names x pre) as [p|e|m'] eqn:E; cbn [obind] in H; [|discriminate|].
  - apply insert_permutes in E. destruct (IH p m H) as (a & b & rest & Hc & Hp). exists a, b, rest. split; auto.
    rewrite <- Hp, <- E. symmetry. apply Permutation_middle.
  - injection H as ->. apply insert_panics in E as (y & r' & Hc & Hp). exists x, y, (r' ++ l). split; auto.
    rewrite <- Permutation_middle, Hp. reflexivity.
Qed.
Lemma filter_permutes {A} (f : A -> bool) l l' : Permutation l l' -> Permutation (filter f l) (filter f l').
Proof.
  induction 1 as [|x l l' _ IH|x y l|l l' l'' _ IH1 _ IH2]; cbn; [constructor| | |now rewrite IH1].
  - destruct (f x); [now constructor|exact IH].
  - destruct (f x), (f y); try reflexivity. apply perm_swap.
Qed.

Lemma made_names ps qs : Forall2 (fun p q => process_param snake pascal ts oid p = Ok q) ps qs ->
  map p_api_name qs = map param_name ps.
Proof. induction 1 as [|p q ps qs Hp _ IH]; cbn; auto. apply process_param_ok in Hp. f_equal; tauto. Qed.

Section Placed.
Variables (others own : list parameter) (qs : list op_param) (body : option op_param) (pieces : list piece) (tmp : path_template).
Hypothesis Hoth : Forall2 (resolves co_parameters comps) shared others.
Hypothesis Hown : Forall2 (resolves co_parameters comps) (op_parameters op) own.
Hypothesis Hqs : Forall2 (fun p q => process_param snake pascal ts oid p = Ok q) (map snd (combined others own)) qs.
Hypothesis Hbody : get_body_param pascal ts oid (op_request_body op) comps = Ok body.
Hypothesis Hpath : path = show pieces.
Hypothesis Hlax : lax pieces.
Hypothesis Hparse : parse path = Ok tmp.
Notation all := (qs ++ match body with Some b => [b] | None => [] end).

Lemma in_counts p : In p (map snd (combined others own)) -> counted p.
Proof. intro H. apply combined_effective in H. exact (counts_intro _ _ _ _ _ _ Hoth Hown H). Qed.

Lemma placed_names : map p_api_name qs = map param_name (map snd (combined others own)).
Proof. exact (made_names _ _ Hqs). Qed.

Lemma placed_presented : presented all.
Proof.
  destruct (params_made _ _ _ _ _ _ Hqs) as (_ & Hm2).
  exists qs, (match body with Some b => [b] | None => [] end). split; [reflexivity|]. split; [|split].
  - apply Forall_forall. intros q Hq. destruct (Hm2 q Hq) as (p & t & r & _ & _ & ->). now destruct p.
  - rewrite placed_names. apply combined_nodup.
  - destruct body as [b|]; auto. right. apply get_body_param_ok in Hbody as (ct & Hk & _). eauto.
Qed.

Lemma body_not_path b : body = Some b -> is_path b = false.
Proof. intros ->. apply get_body_param_ok in Hbody as (ct & Hk & _). unfold is_path. now rewrite Hk. Qed.

Lemma path_params : filter is_path all = filter is_path qs.
Proof.
  rewrite filter_app. assert (E : filter is_path (match body with Some b => [b] | None => [] end) = []).
  { clear -Hbody. destruct body as [b|]; [|reflexivity]. cbn. apply get_body_param_ok in Hbody as (ct & Hk & _). unfold is_path. now rewrite Hk. }
  rewrite E. apply app_nil_r.
Qed.

Lemma sort_explained : explained ME MP (sort_params all (names tmp)).
Proof.
  destruct (sort_params all (names tmp)) as [l|e|m] eqn:E; cbn; [exact I|now elim (sort_never_err _ _ _ _ E)|].
  assert (Hnames : names tmp = vars pieces) by (apply parse_names; [exact Hlax|now rewrite <- Hpath]).
  destruct (sort_panics _ _ _ _ E) as (x & y & rest & Hc & Hp). cbn [app] in Hp.
  assert (Hnd : NoDup (map p_api_name (filter is_path qs))).
  { assert (Hq' : NoDup (map p_api_name qs)) by (rewrite placed_names; apply combined_nodup).
    clear -Hq'. induction qs as [|a l IH]; cbn; [constructor|]. cbn in Hq'. inversion Hq' as [|? ? Hni Hnd']; subst.
    destruct (is_path a); [|now apply IH]. cbn. constructor; [|now apply IH].
    intro Hi. apply Hni. apply in_map_iff in Hi as (z & Hz & Hi). apply in_map_iff. exists z. split; [exact Hz|].
    now apply filter_In in Hi. }
  assert (Hpos : forall l a, position l a = None -> ~ In a l).
  { clear. intros l a. induction l as [|v l IH]; cbn; [auto|]. destruct (str_eqb v a) eqn:Ev; [discriminate|].
    intros Hno [->|Hi]; [now rewrite str_eqb_refl in Ev|]. revert Hi. apply IH. destruct (position l a); [discriminate|reflexivity]. }
  assert (Hex : exists q q', m = p_api_name q ++ lit " missing from path" /\ ~ In (p_api_name q) (vars pieces)
    /\ In q (filter is_path qs) /\ In q' (filter is_path qs) /\ p_api_name q' <> p_api_name q).
  { assert (Hpaths : p_kind x = KPath -> p_kind y = KPath ->
      In x (filter is_path qs) /\ In y (filter is_path qs) /\ p_api_name x <> p_api_name y).
    { intros Ex Ey. apply (filter_permutes is_path) in Hp. rewrite path_params in Hp. cbn [filter] in Hp.
      assert (Hx : is_path x = true) by (unfold is_path; now rewrite Ex).
      assert (Hy : is_path y = true) by (unfold is_path; now rewrite Ey). rewrite Hx, Hy in Hp.
      split; [|split].
      - eapply Permutation_in; [symmetry; exact Hp|now left].
      - eapply Permutation_in; [symmetry; exact Hp|right; now left].
      - intro En. apply (Permutation_map p_api_name) in Hp. apply (Permutation_NoDup Hp) in Hnd. cbn in Hnd.
        inversion Hnd as [|? ? Hni _]; subst. apply Hni. left. now symmetry. }
    rewrite Hnames in Hc. unfold cmp_params in Hc.
    destruct (p_kind x) eqn:Ex, (p_kind y) eqn:Ey; try discriminate.
    - destruct (Hpaths eq_refl eq_refl) as (Hix & Hiy & Hne).
      destruct (position (vars pieces) (p_api_name x)) eqn:E1; [|injection Hc as <-; exists x, y; repeat split; auto].
      destruct (position (vars pieces) (p_api_name y)) eqn:E2; [discriminate|injection Hc as <-; exists y, x; repeat split; auto].
    - exfalso. apply (filter_permutes is_body) in Hp. apply Permutation_length in Hp. cbn [filter] in Hp.
      assert (Hx : is_body x = true) by (unfold is_body; now rewrite Ex).
      assert (Hy : is_body y = true) by (unfold is_body; now rewrite Ey). rewrite Hx, Hy in Hp.
      rewrite filter_app, app_length in Hp. cbn [length] in Hp.
      assert (Hq0 : filter is_body qs = []).
      { destruct (params_made _ _ _ _ _ _ Hqs) as (_ & Hm2). clear -Hm2. induction qs as [|a l IH]; [reflexivity|]. cbn.
        destruct (Hm2 a (or_introl eq_refl)) as (p & t & r & _ & _ & ->).
        assert (Hb : is_body (made snake p t r) = false) by now destruct p. rewrite Hb. apply IH. intros q Hq. apply Hm2. now right. }
      rewrite Hq0 in Hp. cbn in Hp. destruct body as [b|]; cbn in Hp; [destruct (is_body b)|]; cbn in Hp; lia. }
  destruct Hex as (q & q' & Em & Habs & Hq & Hq' & Hne).
  apply filter_In in Hq as (Hq & Hk). apply filter_In in Hq' as (Hq' & Hk'). clear Hp.
  destruct (params_made _ _ _ _ _ _ Hqs) as (_ & Hm2).
  destruct (Hm2 q Hq) as (p & t & r & Hp & Ht & Eq). destruct (Hm2 q' Hq') as (p' & t' & r' & Hp' & Ht' & Eq').
  rewrite Eq in Habs, Hne, Hk. rewrite Eq' in Hne, Hk'. cbn in Habs, Hne.
  assert (Hkk : forall p r, is_path (made snake p t r) = true -> kind_for p r = KPath).
  { intros p0 r0. unfold is_path. cbn. now destruct (kind_for p0 r0). }
  rewrite Eq in Em. cbn in Em. rewrite Em.
  apply (pn_absent _ _ _ _ _ _ _ p p' pieces); auto using in_counts.
  - apply (typed_in_path _ _ _ _ _ Ht). now apply Hkk.
  - apply (typed_in_path _ _ _ _ _ Ht'). now apply Hkk.
  - intro Ep. apply Hne. now rewrite Ep.
Qed.
End Placed.

(** ** The operation *)

Lemma items_explained l : (forall r, In r l -> In r (shared ++ op_parameters op)) ->
  explained ME MP (items co_parameters l comps).
Proof.
  intro H. apply explained_mapM. intros r Hr. apply explained_item. exact (fun m => pn_parameter _ _ _ _ _ _ _ r m (H r Hr)).
Qed.

Lemma items_resolve l ps : items co_parameters l comps = Ok ps -> Forall2 (resolves co_parameters comps) l ps.
Proof. intro H. apply mapM_ok in H. eapply forall2_impl; [|exact H]. intros a b. apply item_ok_iff. Qed.

Lemma process_explained verb : op_id op = Some oid ->
  explained ME MP (process_operation snake pascal ts op comps path (http_method_str verb) shared).
Proof.
  intro Hid. unfold process_operation, parameter_map. rewrite Hid.
  apply explained_bind.
  { apply explained_bind; [|intros ps _; exact I]. apply items_explained. intros r Hr. apply in_or_app. now left. }
  intros m0 H0. apply obind_ok in H0 as (others & Hoth & H0). injection H0 as <-. apply items_resolve in Hoth.
  apply explained_bind. { apply items_explained. intros r Hr. apply in_or_app. now right. }
  intros own Hown. apply items_resolve in Hown. cbv zeta. change (bt_inserts _ _) with (combined others own).
  apply explained_bind.
  { apply explained_mapM. intros p Hp. apply param_explained. exact (in_counts others own Hoth Hown p Hp). }
  intros qs Hqs. apply mapM_ok in Hqs. apply explained_bind; [apply body_explained|]. intros body Hbody.
  apply explained_bind.
  { destruct (parse_rejects path) as [(t & ->)|(s & E)]; [exact I|]. rewrite E. cbn. apply er_path. intros pieces Hp Hl.
    destruct (proj2 (parse_accepts_iff path)) as (t & Ht); [eauto|congruence]. }
  intros tmp Hparse. destruct (proj1 (parse_accepts_iff path) (ex_intro _ _ Hparse)) as (pieces & Hpath & Hlax).
  apply explained_bind. { exact (sort_explained others own qs body pieces tmp Hoth Hown Hqs Hbody Hpath Hlax Hparse). }
  intros ps Hsort. apply explained_bind; [apply responses_explained|]. intros rs Hrs.
  change (match assoc (lit "x-dropshot-websocket") (op_extensions op) with Some _ => true | None => false end) with (is_websocket op).
  destruct (is_websocket op) eqn:Ew; cbn [andb]; [|rewrite http_method_of_str; exact I].
  destruct (dropshot_pagination_data ts (op_extensions op) ps rs) as [pg|] eqn:Ep; [|rewrite http_method_of_str; exact I].
  cbn. apply er_extensions; [|now apply pagination_item in Ep].
  unfold is_websocket in Ew. destruct (assoc _ _) as [v|] eqn:Ea; [|discriminate]. apply assoc_In in Ea. now apply (in_map fst) in Ea.
Qed.

Lemma made_causes {A} (x : outcome A) : explained ME MP x -> explained error_cause panic_cause x.
Proof. apply explained_weaken; [exact (er_made _ _ _ _ _ _ _ _ _ _)|exact (pn_made _ _ _ _ _ _ _ _ _ _)]. Qed.

(** ** The method *)

Section Method.
Variables (verb : http_method) (m : op_method).
Hypothesis Hid : op_id op = Some oid.
Hypothesis Hm : process_operation snake pascal ts op comps path (http_method_str verb) shared = Ok m.
Hypothesis Hcv : codes_valid op.

Lemma sig_body_never_err h e : method_sig_body h m <> Err e.
Proof.
  assert (Hex : forall f e, extract_responses m f <> Err e).
  { intros f e0. unfold extract_responses. cbv zeta. destruct (_ && _); [discriminate|].
    destruct (pop_default _); [discriminate|]. destruct (forallb _ _); discriminate. }
  intro H. unfold method_sig_body in H. cbv zeta in H.
  destruct (compile (m_path m) (url_renames (m_params m))) as [u|e1|msg] eqn:Eu; cbn [obind] in H; [| |discriminate].
  2: { unfold compile in Eu. clear -Eu. assert (Ha : forall e, compile_args (m_path m) (url_renames (m_params m)) <> Err e).
       { clear Eu. generalize (url_renames (m_params m)) as ren. intro ren.
         induction (m_path m) as [|[c|c] l IH]; intro e; cbn [compile_args]; [discriminate| |]; try apply IH.
         destruct (assoc_last c ren); [|discriminate]. destruct (compile_args l _) as [|e2|]; try discriminate. now elim (IH e2). }
       destruct (compile_args _ _) as [|e2|]; try discriminate. now elim (Ha e2). }
  destruct (body_calls_ok _ _ _ _ _ _ _ _ _ Hm) as (bs & Hbs & Hlen). rewrite Hbs in H. cbn [obind] in H.
  destruct (1 <? _); [discriminate|].
  destruct (extract_responses m is_success_or_default) as [[si st]|e1|] eqn:E1; cbn [obind] in H; [|now elim (Hex _ _ E1)|discriminate].
  destruct (extract_responses m is_error_or_default) as [[ei et]|e1|] eqn:E2; cbn [obind] in H; [|now elim (Hex _ _ E2)|discriminate].
  assert (Ha : forall e, mapM error_arm ei <> Err e).
  { clear. induction ei as [|r l IH]; intro e; cbn [mapM]; [discriminate|].
    assert (Hr : forall e, error_arm r <> Err e) by (intro e0; unfold error_arm; destruct (o_typ r), (o_status r); discriminate).
    destruct (error_arm r) as [x|e1|] eqn:E; cbn [obind]; [|now elim (Hr e1)|discriminate].
    destruct (mapM error_arm l) as [|e2|]; cbn; try discriminate. now elim (IH e2). }
  unfold concat_arms, omap in H. destruct (mapM error_arm ei) as [x|e1|]; cbn in H; try discriminate. now elim (Ha e1).
Qed.

Lemma compile_panics tmp ren msg : compile tmp ren = Panic msg ->
  exists n, In n (names tmp) /\ assoc_last n ren = None /\ msg = lit "missing path name mapping " ++ n.
Proof.
  unfold compile. destruct (compile_args tmp ren) as [l|e|m'] eqn:E; cbn [obind]; try discriminate. intros [= ->].
  revert E. induction tmp as [|[c|c] l IH]; cbn [compile_args names]; intro H; [discriminate| |].
  - destruct (IH H) as (n & Hn & ?). exists n. split; auto.
  - destruct (assoc_last c ren) eqn:Ea.
    + destruct (compile_args l ren) as [r|e|m'] eqn:El; cbn [obind] in H; try discriminate. injection H as ->.
      destruct (IH eq_refl) as (n & Hn & ?). exists n. split; [now right|auto].
    + injection H as <-. exists c. split; [now left|auto].
Qed.
Lemma extract_says f msg : (forall x, In x (m_responses m) -> to_value_ok (o_status x) = true) ->
  extract_responses m f = Panic msg -> msg = lit "assertion failed: response_types.len() <= 1".
Proof.
  intros Hall. unfold extract_responses. cbv zeta.
  assert (Hf : forallb (fun r => to_value_ok (o_status r)) (List.filter (fun r => f (o_status r)) (m_responses m)) = true).
  { apply forallb_forall. intros x Hx. apply filter_In in Hx as (Hx & _). now apply Hall. }
  rewrite Hf. cbn [negb]. rewrite andb_false_r.
  destruct (pop_default _) as [|x r]; [discriminate|]. destruct (forallb _ r); [discriminate|]. now intros [= <-].
Qed.
Lemma arms_say items msg : mapM error_arm items = Panic msg ->
  exists r, In r items /\ o_typ r = RUpgrade /\ o_status r <> SDefault
    /\ msg = lit "not yet implemented: non-default error response handling for upgrade requests is not yet implemented".
Proof.
  induction items as [|r l IH]; cbn [mapM]; [discriminate|].
  destruct (error_arm r) as [a|e|m'] eqn:E; cbn [obind]; [|discriminate|].
  - destruct (mapM error_arm l) as [b|e|m'] eqn:El; cbn [obind]; try discriminate. intros [= ->].
    destruct (IH eq_refl) as (x & Hx & ?). exists x. split; [now right|auto].
  - intros [= ->]. unfold error_arm in E. destruct (o_typ r) eqn:Et; try discriminate.
    destruct (o_status r) eqn:Es; try discriminate; injection E as <-; exists r; (split; [now left|]); rewrite Es; repeat split; auto; discriminate.
Qed.

Lemma sig_body_explained h : explained error_cause panic_cause (method_sig_body h m).
Proof.
  destruct (method_sig_body h m) as [sb|e|msg] eqn:E; cbn; [exact I|now elim (sig_body_never_err h e)|].
  destruct (process_operation_params _ _ _ _ _ _ _ _ _ Hm)
    as (oid' & others & own & qs & body & Hid' & Hoth & Hown & Hqs & Hbody & Hparse & Hsort & Hpres & Hws & Hresp & _).
  assert (oid' = oid) by congruence. subst oid'.
  destruct (proj1 (parse_accepts_iff path) (ex_intro _ _ Hparse)) as (pieces & Hpath & Hlax).
  destruct (sort_params_sorted _ _ _ Hpres Hsort) as (Hperm & _).
  destruct (params_made _ _ _ _ _ _ Hqs) as (Hm1 & Hm2).
  assert (Hnames : names (m_path m) = vars pieces) by (apply parse_names; [exact Hlax|now rewrite <- Hpath]).
  unfold method_sig_body in E. cbv zeta in E.
  destruct (compile (m_path m) (url_renames (m_params m))) as [u|e1|m1] eqn:Eu; cbn [obind] in E; [|discriminate|].
  - fold (is_websocket op) in Hws.
    destruct (table_exists _ _ _ _ _ _ _ Hresp) as (table & Htab).
    assert (Htab' : response_table pascal ts comps op (is_websocket op) table) by (exists oid; rewrite <- Hws; auto).
    pose proof (all_ok pascal ts oid (m_websocket m) comps op m table Hresp Htab Hcv) as Hall.
    pose proof (extract_success_iff pascal ts oid (m_websocket m) comps op m table Hresp Htab Hcv) as Hs.
    pose proof (extract_error_iff pascal ts oid (m_websocket m) comps op m table Hresp Htab Hcv) as He.
    destruct (body_calls_ok _ _ _ _ _ _ _ _ _ Hm) as (bs & Hbs & Hlen). rewrite Hbs in E. cbn [obind] in E.
    destruct (1 <? N.of_nat (length bs)) eqn:El; [lia|].
    destruct (extract_responses m is_success_or_default) as [[si sk]|e1|m1] eqn:E1; cbn [obind] in E; [|discriminate|].
    2: { injection E as ->. rewrite (extract_says _ _ Hall E1). apply (pn_disagree _ _ _ _ _ _ _ _ _ _ table); [exact Htab'|].
         rewrite <- Hws. intros (A & _). apply Hs in A as (x & A). congruence. }
    destruct (extract_responses m is_error_or_default) as [[ei ek]|e1|m1] eqn:E2; cbn [obind] in E; [|discriminate|].
    2: { injection E as ->. rewrite (extract_says _ _ Hall E2). apply (pn_disagree _ _ _ _ _ _ _ _ _ _ table); [exact Htab'|].
         intros (_ & A). apply He in A as (x & A). congruence. }
    unfold concat_arms, omap in E. destruct (mapM error_arm ei) as [x|e1|m1] eqn:E3; cbn in E; try discriminate. injection E as ->.
    apply arms_say in E3 as ([key k] & Hi & Hk & Hd & ->). cbn in Hk, Hd. subst k.
    apply extract_ok in E2 as (Hei & _). rewrite Hei in Hi.
    apply (error_items pascal ts oid (m_websocket m) comps op m table Hresp Htab) in Hi as (Hi & Hb). cbn in Hi, Hb.
    exact (pn_upgrade _ _ _ _ _ _ _ _ _ _ table key Htab' Hi Hb Hd).
  - injection E as ->. apply compile_panics in Eu as (n & Hn & Hno & ->). rewrite Hnames in Hn.
    apply (pn_placeholder _ _ _ _ _ _ _ _ _ _ pieces n Hpath Hlax Hn). intros p Hp Hpp Hnm.
    apply assoc_last_None in Hno. apply Hno.
    destruct Hp as [others' own' Ho' Hw' Heff].
    assert (others' = others) by (clear -Hoth Ho'; revert others' Ho'; induction Hoth as [|a b l l' H _ IH]; intros o' Ho'; inversion Ho'; subst; auto;
      f_equal; [now apply (resolves_fun _ _ _ _ _ H2 H)|auto]).
    assert (own' = own) by (clear -Hown Hw'; revert own' Hw'; induction Hown as [|a b l l' H _ IH]; intros o' Ho'; inversion Ho'; subst; auto;
      f_equal; [now apply (resolves_fun _ _ _ _ _ H2 H)|auto]).
    subst others' own'. apply combined_effective in Heff. destruct (Hm1 p Heff) as (t & r & Ht & Hi).
    unfold url_renames. apply in_map_iff. exists (n, p_name (made snake p t r)). split; [reflexivity|].
    apply in_flat_map. exists (made snake p t r). split.
    + eapply Permutation_in; [apply Permutation_sym; exact Hperm|]. apply in_or_app. now left.
    + cbn [p_kind made]. rewrite (proj1 (typed_in_path _ _ _ _ _ Ht) Hpp). left. cbn. now rewrite <- Hnm.
Qed.

(** ** The types of the arguments *)

Lemma argument_passed q t : In q (m_params m) -> p_typ q = PType t ->
  passed snake pascal ts comps op shared oid (p_name q) t (is_required (p_kind q)).
Proof.
  intros Hq Hpt.
  destruct (process_operation_params _ _ _ _ _ _ _ _ _ Hm)
    as (oid' & others & own & qs & body & Hid' & Hoth & Hown & Hqs & Hbody & Hparse & Hsort & Hpres & Hws & Hresp & _).
  assert (oid' = oid) by congruence. subst oid'.
  destruct (sort_params_sorted _ _ _ Hpres Hsort) as (Hperm & _).
  destruct (params_made _ _ _ _ _ _ Hqs) as (Hm1 & Hm2).
  apply (Permutation_in _ Hperm) in Hq. apply in_app_or in Hq as [Hq|Hq].
  - destruct (Hm2 q Hq) as (p & t' & r & Hp & Ht & ->). cbn [p_typ made] in Hpt. injection Hpt as ->. cbn [p_name p_kind made].
    rewrite (typed_required _ _ _ _ _ Ht). apply pa_param; [exact (in_counts others own Hoth Hown p Hp)|exact Ht].
  - destruct body as [b|]; [|easy]. destruct Hq as [<-|[]]. unfold get_body_param in Hbody.
    destruct (op_request_body op) as [r|] eqn:Er; [|discriminate]. apply obind_ok in Hbody as (b' & Hb' & H). apply item_ok_iff in Hb'.
    destruct (rb_content b') as [|[cs mt] [|]] eqn:Ec; try discriminate.
    destruct (mt_schema mt) as [sch|] eqn:Es; [|discriminate]. apply obind_ok in H as (ct & Hct & H).
    apply body_content_type_iff in Hct. apply obind_ok in H as (typ & Ht & H). injection H as <-.
    cbn [p_typ p_name p_kind is_required] in *. subst typ.
    assert (Ho : only_media comps (op_request_body op) cs mt) by (rewrite Er; now apply (only_media_intro _ r b')).
    apply (pa_body _ _ _ _ _ _ _ cs mt ct t Ho Hct).
    destruct ct; try (apply obind_ok in Ht as (s & _ & Ht); destruct (plain_string _ s); discriminate).
    all: destruct (mt_encoding_empty mt) eqn:Ee; cbn [negb] in Ht; [|discriminate];
         apply obind_ok in Ht as (t' & Ha & Ht); injection Ht as ->.
    + exact (bt_json _ _ _ _ _ _ Es Ee Ha).
    + exact (bt_form _ _ _ _ _ _ Es Ee Ha).
Qed.

(** Raw bodies are bytes or text. *)
Lemma argument_raw q : In q (m_params m) -> p_typ q = PRawBody -> p_kind q = KBody OctetStream \/ exists mime, p_kind q = KBody (Text mime).
Proof.
  intros Hq Hpt.
  destruct (process_operation_params _ _ _ _ _ _ _ _ _ Hm)
    as (oid' & others & own & qs & body & Hid' & Hoth & Hown & Hqs & Hbody & Hparse & Hsort & Hpres & Hws & Hresp & _).
  destruct (sort_params_sorted _ _ _ Hpres Hsort) as (Hperm & _).
  destruct (params_made _ _ _ _ _ _ Hqs) as (Hm1 & Hm2).
  apply (Permutation_in _ Hperm) in Hq. apply in_app_or in Hq as [Hq|Hq].
  - destruct (Hm2 q Hq) as (p & t' & r & Hp & Ht & ->). discriminate.
  - destruct body as [b|]; [|easy]. destruct Hq as [<-|[]]. unfold get_body_param in Hbody.
    destruct (op_request_body op) as [r|]; [|discriminate]. apply obind_ok in Hbody as (b' & Hb' & H).
    destruct (rb_content b') as [|[cs mt] [|]]; try discriminate. destruct (mt_schema mt) as [sch|]; [|discriminate].
    apply obind_ok in H as (ct & Hct & H). apply obind_ok in H as (typ & Ht & H). injection H as <-. cbn in Hpt. subst typ. cbn.
    destruct ct; eauto.
    all: destruct (negb _); [discriminate|]; apply obind_ok in Ht as (t' & _ & Ht); discriminate.
Qed.
End Method.
End Op.

(** ** Methods and builders *)

Section Render.
Variables (snake pascal : str -> str) (ts : type_space) (types : type_id -> option type_info).
Variables (comps : option components) (op : operation) (path : str) (shared : list (ref_or parameter)) (oid : str).
Variables (verb : http_method) (m : op_method) (h : hooks).
Hypothesis Hid : op_id op = Some oid.
Hypothesis Hm : process_operation snake pascal ts op comps path (http_method_str verb) shared = Ok m.
Hypothesis Hcv : codes_valid op.
Hypothesis Hel : elements_known ts types.

Lemma page_items_known pg : m_paginated m = Some pg -> types (pg_item pg) <> None.
Proof.
  intro Hpg. destruct (process_operation_params _ _ _ _ _ _ _ _ _ Hm)
    as (oid' & others & own & qs & body & _ & _ & _ & _ & _ & _ & _ & _ & _ & _ & Hpag & _).
  rewrite Hpg in Hpag. symmetry in Hpag. apply pagination_item in Hpag as (_ & a & Ha). exact (Hel a _ Ha).
Qed.

Lemma positional_explained :
  explained (error_cause snake pascal ts types Positional comps op path shared oid)
    (panic_cause snake pascal ts types Positional comps op path shared oid) (positional_method types h m).
Proof.
  unfold positional_method. cbv zeta. apply explained_bind.
  { apply explained_mapM. intros q Hq. unfold sig_type_of. destruct (p_typ q) as [t|] eqn:Et.
    - destruct (types t) eqn:Ey; [now destruct (is_optional (p_kind q))|]. cbn.
      exact (pn_unknown _ _ _ _ _ _ _ _ _ _ _ _ _ eq_refl (argument_passed _ _ _ _ _ _ _ _ _ _ Hid Hm q t Hq Et) Ey).
    - destruct (argument_raw _ _ _ _ _ _ _ _ _ Hm q Hq Et) as [->|(mime & ->)]; exact I. }
  intros tys _. apply explained_bind.
  { exact (sig_body_explained _ _ _ _ _ _ _ _ _ _ _ _ Hid Hm Hcv h). }
  intros sb _. destruct (m_paginated m) as [pg|] eqn:Ep; [|exact I].
  destruct (types (pg_item pg)) eqn:Ey; [exact I|]. now elim (page_items_known pg Ep).
Qed.

Notation EB := (error_cause snake pascal ts types Builder comps op path shared oid).
Notation PB := (panic_cause snake pascal ts types Builder comps op path shared oid).

Lemma get_type_explained q t : In q (m_params m) -> p_typ q = PType t -> explained EB PB (get_type types t).
Proof.
  intros Hq Et. unfold get_type. destruct (types t) eqn:Ey; [exact I|]. cbn.
  exact (er_unknown _ _ _ _ _ _ _ _ _ _ _ _ _ eq_refl (argument_passed _ _ _ _ _ _ _ _ _ _ Hid Hm q t Hq Et) Ey).
Qed.

Lemma struct_explained U style : explained EB PB (struct_of U types h style m).
Proof.
  unfold struct_of. apply explained_bind; [|intros c _; exact I]. unfold builder_struct. cbv zeta.
  apply explained_bind.
  { apply explained_mapM. intros q Hq. unfold field_type_of. destruct (p_typ q) as [t|] eqn:Et; [|exact I].
    apply explained_bind; [now apply (get_type_explained q)|]. intros info _. exact I. }
  intros tys _. apply explained_bind.
  { apply explained_mapM. intros q Hq. unfold initial_of. destruct (p_typ q) as [t|] eqn:Et; [|exact I].
    apply explained_bind; [now apply (get_type_explained q)|]. intros info _. exact I. }
  intros ins _. apply explained_bind.
  { apply explained_mapM. intros q Hq. unfold finalize_of. destruct (p_typ q) as [t|] eqn:Et; [|exact I].
    apply explained_bind; [now apply (get_type_explained q)|]. intros info _. exact I. }
  intros fins _. apply explained_bind.
  { apply explained_mapM. intros q Hq. unfold setter_of. destruct (p_typ q) as [t|] eqn:Et.
    2: { destruct (argument_raw _ _ _ _ _ _ _ _ _ Hm q Hq Et) as [->|(mime & ->)]; exact I. }
    apply explained_bind; [now apply (get_type_explained q)|]. intros info Hi.
    unfold get_type in Hi. destruct (types t) as [info'|] eqn:Ey; [|discriminate]. injection Hi as ->.
    pose proof (argument_passed _ _ _ _ _ _ _ _ _ _ Hid Hm q t Hq Et) as Hpass.
    destruct (ti_builder info) eqn:Eb; [|now destruct (is_optional (p_kind q))].
    unfold is_optional. destruct (is_required (p_kind q)) eqn:Er; cbn [negb].
    - destruct (str_eqb (p_name q) (lit "body")) eqn:En; [exact I|]. cbn.
      apply (pn_builder _ _ _ _ _ _ _ _ _ _ _ t info eq_refl Hpass Ey Eb). intros E.
      apply (proj2 (str_eqb_spec _ _)) in E. congruence.
    - cbn. exact (pn_optional_builder _ _ _ _ _ _ _ _ _ _ _ t info eq_refl Hpass Ey Eb). }
  intros sets _. apply explained_bind.
  { exact (sig_body_explained _ _ _ _ _ _ _ _ _ _ _ _ Hid Hm Hcv h). }
  intros sb _. apply explained_bind; [|intros c _; exact I]. destruct (m_paginated m) as [pg|] eqn:Ep; [|exact I].
  destruct (types (pg_item pg)) eqn:Ey; [exact I|]. now elim (page_items_known pg Ep).
Qed.
End Render.

(** ** Documents *)

Section Document.
Variables (U : unicode) (add_ref_types : list (str * ref_or schema) -> outcome type_space)
  (types : type_id -> option type_info).
Hypothesis Hvalid : forall d, validate_openapi U d = Ok tt <-> valid_document U d.

Lemma validate_explained (P : error -> Prop) (Q : str -> Prop) d : (forall x, ~ valid_document U d -> P (UnexpectedFormat x)) ->
  explained P Q (validate_openapi U d).
Proof.
  intro HP. destruct (validate_openapi U d) as [[]|e|m] eqn:E; cbn; [exact I| |now elim (validate_no_panic U d m)].
  assert (Hn : ~ valid_document U d) by (intro H; apply Hvalid in H; congruence).
  enough (exists x, e = UnexpectedFormat x) as (x & ->) by now apply HP.
  unfold validate_openapi, validate_openapi_spec_version in E. destruct (starts_with _ _); cbn [obind] in E; [|injection E as <-; eauto].
  assert (Ho : forall path ops seen e, validate_operations path ops seen = Err e -> exists x, e = UnexpectedFormat x).
  { intros path ops. induction ops as [|[v o] l IH]; intros seen e' H; cbn in H; [discriminate|].
    destruct (op_id o); [|injection H as <-; eauto]. destruct (mem _ _); [injection H as <-; eauto|eauto]. }
  assert (Hp : forall paths seen e, validate_paths paths seen = Err e -> exists x, e = UnexpectedFormat x).
  { intros paths. induction paths as [|[path [r|it]] l IH]; intros seen e' H; cbn [validate_paths] in H; [discriminate|injection H as <-; eauto|].
    destruct (validate_operations _ _ _) as [x|e1|] eqn:E1; cbn [obind] in H; [eauto| |discriminate]. injection H as <-. eauto. }
  destruct (validate_paths _ _) as [x|e1|] eqn:E1; cbn in E; try discriminate. injection E as <-. eauto.
Qed.

(** Reading the operations. *)
Lemma paths_explained P (Q : str -> Prop) ts d : valid_document U d ->
  (forall A (f : outcome A) o oid, in_document d o -> op_id (do_op o) = Some oid ->
    explained (made_error (GenerateSpec.pascal U) ts (oa_components d) (do_op o) (do_path o) (do_params o) oid)
      (made_panic (GenerateSpec.pascal U) ts (oa_components d) (do_op o) (do_path o) (do_params o) oid) f -> explained P Q f) ->
  explained P Q (mapM (process_path U ts (oa_components d)) (oa_paths d)).
Proof.
  intros Hv Hop.
  assert (G : forall paths k, (forall path r, ~ In (path, Ref r) paths) ->
    (forall e, In e (doc_ops k paths) -> in_document d e) ->
    explained P Q (mapM (process_path U ts (oa_components d)) paths)).
  { induction paths as [|[path [r|it]] l IH]; intros k Hr H; cbn [mapM]; [exact I|elim (Hr path r); now left|].
    apply explained_bind; [|intros g _; apply explained_bind; [|intros gs _; exact I]].
    - unfold process_path. cbn [snd fst]. rewrite (path_item_iter_ops k path), mapM_map.
      apply explained_mapM. intros e He. assert (Hd : in_document d e).
      { apply H. cbn [doc_ops]. apply in_or_app. now left. }
      destruct (op_id (do_op e)) as [oid|] eqn:Eid; [|now elim (vd_ids _ _ Hv e Hd)].
      apply (Hop _ _ e oid Hd Eid). apply in_item_ops in He as (_ & Hp & _ & Hq). cbn [fst snd]. rewrite <- Hp, <- Hq.
      apply process_explained. exact Eid.
    - apply (IH (S k)).
      + intros p r Hi. apply (Hr p r). now right.
      + intros e He. apply H. cbn [doc_ops]. apply in_or_app. now right. }
  apply (G _ 0%nat); [exact (vd_no_refs _ _ Hv)|]. intros e He. now apply (doc_ops_in_order d).
Qed.

Lemma generate_explained s d :
  (forall ts, add_ref_types (component_schemas d) = Ok ts -> elements_known ts types) ->
  (forall e, in_document d e -> codes_valid (do_op e)) ->
  explained (error_reason U add_ref_types types s d) (panic_reason U add_ref_types types s d)
    (generate_tokens U add_ref_types types s d).
Proof.
  intros Hel Hcv. unfold generate_tokens. fold (component_schemas d).
  apply explained_bind; [apply validate_explained; now apply rr_invalid|]. intros [] Hv. apply Hvalid in Hv.
  apply explained_bind.
  { destruct (add_ref_types (component_schemas d)) as [ts|e|m] eqn:E; cbn; [exact I| |].
    - exact (rr_components _ _ _ _ _ _ Hv E).
    - exact (pr_components _ _ _ _ _ _ Hv E). }
  intros ts Hts. specialize (Hel ts Hts).
  assert (Hop : forall A (f : outcome A) o oid, in_document d o -> op_id (do_op o) = Some oid ->
    explained (error_cause (GenerateSpec.snake U) (GenerateSpec.pascal U) ts types (se_interface s) (oa_components d) (do_op o) (do_path o) (do_params o) oid)
      (panic_cause (GenerateSpec.snake U) (GenerateSpec.pascal U) ts types (se_interface s) (oa_components d) (do_op o) (do_path o) (do_params o) oid) f ->
    explained (error_reason U add_ref_types types s d) (panic_reason U add_ref_types types s d) f).
  { intros A [a|e|m] o oid Ho Hoid H; cbn in *; [exact I| |].
    - exact (rr_operation _ _ _ _ _ ts o oid e Hv Hts Ho Hoid H).
    - exact (pr_operation _ _ _ _ _ ts o oid m Hv Hts Ho Hoid H). }
  apply explained_bind.
  { apply paths_explained; [exact Hv|]. intros A f o oid Ho Hoid H. apply (Hop A f o oid Ho Hoid). now apply made_causes. }
  intros groups Hg. pose proof (process_paths U ts d (oa_paths d) 0 groups Hg) as HF.
  assert (Hms : forall m, In m (concat groups) -> exists o oid, in_document d o /\ op_id (do_op o) = Some oid /\ processed U ts d o m).
  { intros m Hm. destruct (forall2_In_r _ _ _ _ HF Hm) as (e & He & Hp). apply (doc_ops_in_order d) in He.
    destruct (op_id (do_op e)) as [oid|] eqn:Eid; [eauto|]. now elim (vd_ids _ _ Hv e He). }
  apply explained_bind; [|intros c _; exact I].
  destruct (se_interface s) eqn:Ei, (se_tag s) eqn:Et.
  - unfold generate_tokens_positional_merged. apply explained_bind; [|intros l _; exact I]. apply explained_mapM.
    intros m Hm. destruct (Hms m Hm) as (o & oid & Ho & Hoid & Hp). apply (Hop _ _ o oid Ho Hoid).
    exact (positional_explained _ _ _ _ _ _ _ _ _ _ _ _ Hoid Hp (Hcv o Ho) Hel).
  - cbn. now apply pr_style.
  - unfold generate_tokens_builder_merged. apply explained_bind; [|intros l _; exact I]. apply explained_mapM.
    intros m Hm. destruct (Hms m Hm) as (o & oid & Ho & Hoid & Hp). apply (Hop _ _ o oid Ho Hoid).
    exact (struct_explained _ _ _ _ _ _ _ _ _ _ _ _ Hoid Hp (Hcv o Ho) Hel U Merged).
  - unfold generate_tokens_builder_separate. apply explained_bind.
    + apply explained_mapM.
      intros m Hm. destruct (Hms m Hm) as (o & oid & Ho & Hoid & Hp). apply (Hop _ _ o oid Ho Hoid).
      exact (struct_explained _ _ _ _ _ _ _ _ _ _ _ _ Hoid Hp (Hcv o Ho) Hel U Separate).
    + intros l _. destruct (builder_tags U _ _). exact I.
Qed.
End Document.

(** ** Every cause makes the generator fail *)

Lemma resolves_all_fun {A} (get : components -> list (str * ref_or A)) comps l : forall xs ys,
  Forall2 (resolves get comps) l xs -> Forall2 (resolves get comps) l ys -> xs = ys.
Proof.
  induction l as [|r l IH]; intros xs ys H1 H2; inversion H1; inversion H2; subst; auto.
  f_equal; [eapply resolves_fun; eauto|auto].
Qed.

Lemma media_fun cs ct ct' : media_is cs ct -> media_is cs ct' -> ct = ct'.
Proof. intros H1 H2. apply body_content_type_iff in H1, H2. congruence. Qed.

Lemma typed_has_schema ts tn p t r : typed_param ts tn p t r ->
  exists sch t', pd_schema (parameter_data p) = Some sch /\ ts_add ts sch tn = Ok t'.
Proof. intros []; cbn; eauto. Qed.

Section Causes.
Variables (snake pascal : str -> str) (ts : type_space) (types : type_id -> option type_info) (i : interface_style).
Variables (comps : option components) (op : operation) (path : str) (shared : list (ref_or parameter)) (oid : str).
Hypothesis Hid : op_id op = Some oid.
Variables (others own : list parameter).
Hypothesis Hoth : Forall2 (resolves co_parameters comps) shared others.
Hypothesis Hown : Forall2 (resolves co_parameters comps) (op_parameters op) own.
Hypothesis Hpar : forall p, effective others own p -> exists t required,
  typed_param ts (pascal (oid ++ lit "-" ++ param_name p)) p t required /\ passable types i (snake (param_name p)) t required.
Hypothesis Hbody : supported_body ts types comps (pascal (oid ++ lit "-body")) (op_request_body op).
Hypothesis Hresp : forall key r, doc_entry op key r -> exists doc, resolves co_responses comps r doc
  /\ supported_response ts (pascal (oid ++ lit "-response")) doc.

Lemma counted_typed p : counts comps shared (op_parameters op) p -> exists t required,
  typed_param ts (pascal (oid ++ lit "-" ++ param_name p)) p t required /\ passable types i (snake (param_name p)) t required.
Proof.
  intros [o w Ho Hw He]. rewrite (resolves_all_fun _ _ _ _ _ Ho Hoth), (resolves_all_fun _ _ _ _ _ Hw Hown) in He. auto.
Qed.

Lemma body_found cs mt : only_media comps (op_request_body op) cs mt -> exists ct typ, media_is cs ct
  /\ DocSpec.body_typed ts comps (pascal (oid ++ lit "-body")) ct mt typ /\ (forall t, typ = PType t -> types t <> None).
Proof.
  intro H. revert Hbody. clear -H. destruct H as [r b cs mt Hr Hc]. intro Hbody.
  inversion Hbody as [|r' b' Hr' Hc' E'|r' b' cs' mt' name ct typ Hr' Hc' Hn Hmt Ht Hk E'];
    clear E'; rewrite (resolves_fun _ _ _ _ _ Hr' Hr) in Hc'; rewrite Hc in Hc'; [discriminate|].
  injection Hc' as -> ->. exists ct, typ. split; [exists name; auto|]. split; [exact Ht|exact Hk].
Qed.

Lemma answer_typed mt : json_answer comps op mt -> mt_encoding_empty mt = true
  /\ exists sch t, mt_schema mt = Some sch /\ ts_add ts sch (pascal (oid ++ lit "-response")) = Ok t.
Proof.
  intros [key r doc pre n mt' post He Hr Hc Hp Hn]. destruct (Hresp key r He) as (doc' & Hr' & Hs).
  rewrite (resolves_fun _ _ _ _ _ Hr' Hr) in Hs. exact (Hs pre n mt' post Hc Hp Hn).
Qed.

Lemma typed_schema_ok sch tn : typed_schema pascal comps op shared oid sch tn -> exists t, ts_add ts sch tn = Ok t.
Proof.
  intros [p sch' Hp Es|cs mt sch' ct Ho Es Hm Hct|mt sch' Hj Es].
  - destruct (counted_typed p Hp) as (t & r & Ht & _). apply typed_has_schema in Ht as (s & t' & E & Ha).
    rewrite Es in E. injection E as <-. eauto.
  - destruct (body_found cs mt Ho) as (ct' & typ & Hm' & Ht & _). rewrite (media_fun _ _ _ Hm' Hm) in Ht.
    destruct Hct as [-> | ->]; [inversion Ht as [| |? s t E2 _ E3|]|inversion Ht as [| | |? s t E2 _ E3]]; rewrite Es in E2; injection E2 as <-; eauto.
  - destruct (answer_typed mt Hj) as (_ & s & t & Es' & Ht). rewrite Es in Es'. injection Es' as <-. eauto.
Qed.

Lemma passed_ok x t r : passed snake pascal ts comps op shared oid x t r -> passable types i x t r.
Proof.
  intros [p t' r' Hp Ht|cs mt ct t' Ho Hm Ht].
  - destruct (counted_typed p Hp) as (t'' & r'' & Ht' & Hpass).
    assert (E : process_param snake pascal ts oid p = Ok (made snake p t' r')) by (apply process_param_iff; eauto).
    assert (E' : process_param snake pascal ts oid p = Ok (made snake p t'' r'')) by (apply process_param_iff; eauto).
    rewrite E in E'. injection E' as ? ?. subst t''. assert (r' = r'').
    { rewrite <- (typed_required _ _ _ _ _ Ht), <- (typed_required _ _ _ _ _ Ht'). congruence. }
    now subst r''.
  - destruct (body_found cs mt Ho) as (ct' & typ & Hm' & Ht' & Hk). rewrite (media_fun _ _ _ Hm' Hm) in Ht'.
    assert (E : typ = PType t').
    { destruct Ht; inversion Ht'; subst; congruence. }
    specialize (Hk _ E). destruct (types t') as [info|] eqn:Ey; [|easy]. exists info. split; [exact Ey|]. auto.
Qed.
Variable (pieces : list piece).
Hypothesis Hpath : path = show pieces.
Hypothesis Hlax : lax pieces.
Hypothesis Hone : forall p q, effective others own p -> effective others own q -> in_path p -> in_path q -> p <> q ->
  In (param_name p) (vars pieces).

Lemma counted_iff p : counts comps shared (op_parameters op) p <-> effective others own p.
Proof.
  split; [|now apply counts_intro]. intros [o w Ho Hw He].
  now rewrite (resolves_all_fun _ _ _ _ _ Ho Hoth), (resolves_all_fun _ _ _ _ _ Hw Hown) in He.
Qed.
Lemma same_vars ps : path = show ps -> lax ps -> vars ps = vars pieces.
Proof.
  intros Hp Hl. destruct (proj2 (parse_accepts_iff path)) as (tmp & Htmp); [eauto|].
  rewrite <- (parse_names ps tmp Hl), <- (parse_names pieces tmp Hlax); [reflexivity|now rewrite <- Hpath|now rewrite <- Hp].
Qed.

Lemma no_made_error e : ordinary op -> ~ made_error pascal ts comps op path shared oid e.
Proof.
  intros (_ & Hext) Hc. pose proof counted_typed as Hct. pose proof body_found as Hbf.
  destruct Hc as [p Hp Es|d Hp|d st Hp Hst|d st Hp Hst|cs mt Ho Es|cs mt Ho Hno|cs mt sch x Ho Hm Es Hx Hb|cs mt mime sch x Ho Hm Es Hx Hb
    |s Hno|H1 H2|sch tn e Hs Ha].
  - destruct (Hct p Hp) as (t & r & Ht & _). apply typed_has_schema in Ht as (s' & t' & E & _). congruence.
  - destruct (Hct _ Hp) as (t & r & Ht & _). inversion Ht.
  - destruct (Hct _ Hp) as (t & r & Ht & _). inversion Ht; congruence.
  - destruct (Hct _ Hp) as (t & r & Ht & _). inversion Ht; congruence.
  - destruct (Hbf cs mt Ho) as (ct & typ & _ & Ht & _). destruct Ht; congruence.
  - destruct (Hbf cs mt Ho) as (ct & typ & Hm & _). exact (Hno ct Hm).
  - destruct (Hbf cs mt Ho) as (ct & typ & Hm' & Ht & _). rewrite (media_fun _ _ _ Hm' Hm) in Ht.
    inversion Ht as [? sch' s' Es' Hs' Hb'| | |]; subst. assert (sch' = sch) by congruence. subst. apply Hb.
    now rewrite (resolves_fun _ _ _ _ _ Hx Hs').
  - destruct (Hbf cs mt Ho) as (ct & typ & Hm' & Ht & _). rewrite (media_fun _ _ _ Hm' Hm) in Ht.
    inversion Ht as [|? ? sch' s' Es' Hs' Hb'| |]; subst. assert (sch' = sch) by congruence. subst. apply Hb.
    now rewrite (resolves_fun _ _ _ _ _ Hx Hs').
  - exact (Hno pieces Hpath Hlax).
  - auto.
  - destruct (typed_schema_ok sch tn Hs) as (t & Ht). congruence.
Qed.

Lemma no_made_panic msg : ~ made_panic pascal ts comps op path shared oid msg.
Proof.
  intros Hc. pose proof counted_typed as Hct. pose proof body_found as Hbf. pose proof answer_typed as Hans.
  destruct Hc as [r m Hi Hb|r m Er Hb|cs mt ct sch m Ho Hm Hk Es Hb|key r m He Hb|d st Hp Er|p q ps Hp Hq Hpp Hqp Hne Hps Hl Hni
    |r b Er Hr Hlen|cs mt ct Ho Hm Hk Ee|mt Hj Ee|mt Hj Es|sch tn m Hs Ha|d st sch t Hp Es Ha Hd].
  - apply in_app_or in Hi as [Hi|Hi].
    + destruct (forall2_In_l _ _ _ _ Hoth Hi) as (a & _ & Ha). exact (Hb a Ha).
    + destruct (forall2_In_l _ _ _ _ Hown Hi) as (a & _ & Ha). exact (Hb a Ha).
  - rewrite Er in Hbody. inversion Hbody; subst; eapply Hb; eauto.
  - destruct (Hbf cs mt Ho) as (ct' & typ & Hm' & Ht & _). rewrite (media_fun _ _ _ Hm' Hm) in Ht.
    destruct Hk as [->|(mime & ->)]; [inversion Ht as [? s x E2 E3 _| | |]|inversion Ht as [|? ? s x E2 E3 _| |]];
      rewrite Es in E2; injection E2 as <-; exact (Hb x E3).
  - destruct (Hresp key r He) as (doc & Hd & _). exact (Hb doc Hd).
  - destruct (Hct _ Hp) as (t & r & Ht & _). inversion Ht; congruence.
  - apply Hni. rewrite (same_vars ps Hps Hl). apply (Hone p q); auto; now apply counted_iff.
  - rewrite Er in Hbody. inversion Hbody as [|r' b' Hr' Hc'|r' b' cs' mt' name ct typ Hr' Hc']; subst;
      rewrite (resolves_fun _ _ _ _ _ Hr' Hr) in Hc'; rewrite Hc' in Hlen; cbn in Hlen; lia.
  - destruct (Hbf cs mt Ho) as (ct' & typ & Hm' & Ht & _). rewrite (media_fun _ _ _ Hm' Hm) in Ht.
    destruct Hk as [-> | ->]; inversion Ht; congruence.
  - destruct (Hans mt Hj) as (E & _). congruence.
  - destruct (Hans mt Hj) as (_ & s & t & E & _). congruence.
  - destruct (typed_schema_ok sch tn Hs) as (t & Ht). congruence.
  - destruct (Hct _ Hp) as (t' & r & Ht & _). unfold param_name in Ht. cbn [parameter_data] in Ht. inversion Ht; subst; congruence.
Qed.
End Causes.

(** Two tables of one operation have the same entries. *)
Lemma success_same op ws t t' k : (forall x, In x t <-> In x t') -> success_entry op ws t k -> success_entry op ws t' k.
Proof.
  intros H [c k' Hi Hc|k' Hi|k' Hi Hd|Hn|Hw].
  - apply (se_code _ _ _ c); [now apply H|exact Hc].
  - apply se_class. now apply H.
  - apply se_default; [now apply H|exact Hd].
  - apply se_generic. intros Hd. apply Hn. unfold documents_success in *.
    destruct Hd as [(c & k' & Hi & Hc)|[(k' & Hi)|(k' & Hi)]]; apply H in Hi; eauto 6.
  - now apply se_upgrade.
Qed.
Lemma error_same t t' k : (forall x, In x t <-> In x t') -> error_entry t k -> error_entry t' k.
Proof.
  intros H [c k' Hi Hc|n k' Hi Hc|k' Hi]; apply H in Hi; [now apply (ee_code _ c)|now apply (ee_class _ n)|now apply ee_default].
Qed.

Section Unsupported.
Variables (snake pascal : str -> str) (ts : type_space) (types : type_id -> option type_info) (i : interface_style).
Variables (comps : option components) (op : operation) (path : str) (shared : list (ref_or parameter)) (oid : str).
Hypothesis Hid : op_id op = Some oid.

Lemma error_cause_unsupported e : ordinary op ->
  error_cause snake pascal ts types i comps op path shared oid e ->
  ~ supported_operation snake pascal ts types i comps op path shared.
Proof.
  intros Hord Hc [oid' own others pieces table Hid' Hoth Hown Hpar Hpath Hlax Hcov Hone Hbody Hresp Htab A1 A2 A3].
  assert (oid' = oid) by congruence. subst oid'. destruct Hc as [e Hc|x t r Hi Hp Hk].
  - exact (no_made_error _ _ _ _ _ _ _ _ _ _ _ _ Hoth Hown Hpar Hbody Hresp pieces Hpath Hlax e Hord Hc).
  - destruct (passed_ok _ _ _ _ _ _ _ _ _ _ _ Hoth Hown Hpar Hbody x t r Hp) as (info & Hinfo & _). congruence.
Qed.

Lemma panic_cause_unsupported msg :
  panic_cause snake pascal ts types i comps op path shared oid msg ->
  ~ supported_operation snake pascal ts types i comps op path shared.
Proof.
  intros Hc [oid' own others pieces table Hid' Hoth Hown Hpar Hpath Hlax Hcov Hone Hbody Hresp Htab A1 A2 A3].
  assert (oid' = oid) by congruence. subst oid'.
  destruct Hc as [msg Hc|ps n Hps Hl Hn Hno|tab Ht Hn|tab key Ht Hk Hb Hd|x t r Hi Hp Hk|x t info Hi Hp Hk Hb Hno|x t info Hi Hp Hk Hb].
  - exact (no_made_panic _ _ _ _ _ _ _ _ _ _ _ _ Hoth Hown Hpar Hbody Hresp pieces Hpath Hlax Hone msg Hc).
  - rewrite (same_vars _ pieces Hpath Hlax ps Hps Hl) in Hn. destruct (Hcov n Hn) as (p & Hp & Hpp & Hnm). apply (Hno p); auto.
    now apply (counted_iff _ _ _ _ _ Hoth Hown).
  - destruct Ht as (o1 & Ho1 & Ht), Htab as (o2 & Ho2 & Ht2). assert (o2 = o1) by congruence. subst o2.
    assert (Hsame : forall x, In x tab <-> In x table).
    { intros [key k]. rewrite (Ht key k), (Ht2 key k). reflexivity. }
    apply Hn. split.
    + intros k k' Hk Hk'. apply A1; eapply success_same; eauto.
    + intros k k' Hk Hk'. apply A2; eapply error_same; eauto.
  - destruct Ht as (o1 & Ho1 & Ht), Htab as (o2 & Ho2 & Ht2). assert (o2 = o1) by congruence. subst o2.
    apply Hd. apply A3; [|exact Hb]. now apply Ht2, Ht.
  - destruct (passed_ok _ _ _ _ _ _ _ _ _ _ _ Hoth Hown Hpar Hbody x t r Hp) as (info & Hinfo & _). congruence.
  - destruct (passed_ok _ _ _ _ _ _ _ _ _ _ _ Hoth Hown Hpar Hbody x t true Hp) as (info' & Hinfo & Hbb).
    apply Hno. apply Hbb; congruence.
  - destruct (passed_ok _ _ _ _ _ _ _ _ _ _ _ Hoth Hown Hpar Hbody x t false Hp) as (info' & Hinfo & Hbb).
    destruct (Hbb Hi) as (E & _); [congruence|discriminate].
Qed.
End Unsupported.

Section Exact.
Variables (U : unicode) (add_ref_types : list (str * ref_or schema) -> outcome type_space)
  (types : type_id -> option type_info) (s : settings) (d : openapi).
Hypothesis Hvalid : forall d, validate_openapi U d = Ok tt <-> valid_document U d.
Hypothesis Hel : forall ts, add_ref_types (component_schemas d) = Ok ts -> elements_known ts types.
Hypothesis Hord : forall e, in_document d e -> ordinary (do_op e).

Lemma error_reason_unsupported e : error_reason U add_ref_types types s d e -> ~ supported_document U add_ref_types types s d.
Proof.
  intros Hr [ts Hv Hst Hts Hops]. destruct Hr as [x Hn|e _ Ha|ts' o oid e _ Hts' Ho Hoid Hc]; [auto| |].
  - unfold component_schemas in Ha. congruence.
  - unfold component_schemas in Hts'. rewrite Hts in Hts'. injection Hts' as <-.
    exact (error_cause_unsupported _ _ _ _ _ _ _ _ _ _ Hoid e (Hord o Ho) Hc (Hops o Ho)).
Qed.
Lemma panic_reason_unsupported msg : panic_reason U add_ref_types types s d msg -> ~ supported_document U add_ref_types types s d.
Proof.
  intros Hr [ts Hv Hst Hts Hops]. destruct Hr as [_ H1 H2|m _ Ha|ts' o oid m _ Hts' Ho Hoid Hc]; [auto| |].
  - unfold component_schemas in Ha. congruence.
  - unfold component_schemas in Hts'. rewrite Hts in Hts'. injection Hts' as <-.
    exact (panic_cause_unsupported _ _ _ _ _ _ _ _ _ _ Hoid m Hc (Hops o Ho)).
Qed.

Lemma all_explained : explained (error_reason U add_ref_types types s d) (panic_reason U add_ref_types types s d)
  (generate_tokens U add_ref_types types s d).
Proof. apply generate_explained; auto. intros e He. exact (proj1 (Hord e He)). Qed.

Lemma generated_unless : (exists g, generate_tokens U add_ref_types types s d = Ok g) <->
  (forall e, ~ error_reason U add_ref_types types s d e) /\ (forall m, ~ panic_reason U add_ref_types types s d m).
Proof.
  split.
  - intros H. apply (document_iff U add_ref_types types Hvalid s d Hel Hord) in H.
    split; [intros e Hr; exact (error_reason_unsupported e Hr H)|intros m Hr; exact (panic_reason_unsupported m Hr H)].
  - intros (H1 & H2). pose proof all_explained as H. destruct (generate_tokens _ _ _ _ _) as [g|e|m]; [eauto|now elim (H1 e)|now elim (H2 m)].
Qed.

Lemma errors_iff : (forall m, ~ panic_reason U add_ref_types types s d m) ->
  ((exists e, generate_tokens U add_ref_types types s d = Err e) <-> exists e, error_reason U add_ref_types types s d e).
Proof.
  intro Hp. pose proof all_explained as H. pose proof generated_unless as Hg. split.
  - intros (e & E). rewrite E in H. eauto.
  - intros (e & He). destruct (generate_tokens _ _ _ _ _) as [g|e'|m]; [|eauto|now elim (Hp m)].
    destruct (proj1 Hg (ex_intro _ g eq_refl)) as (Hn & _). now elim (Hn e).
Qed.

Lemma panics_iff : (forall e, ~ error_reason U add_ref_types types s d e) ->
  ((exists m, generate_tokens U add_ref_types types s d = Panic m) <-> exists m, panic_reason U add_ref_types types s d m).
Proof.
  intro Hp. pose proof all_explained as H. pose proof generated_unless as Hg. split.
  - intros (m & E). rewrite E in H. eauto.
  - intros (m0 & He). destruct (generate_tokens _ _ _ _ _) as [g|e'|m]; [|now elim (Hp e')|eauto].
    destruct (proj1 Hg (ex_intro _ g eq_refl)) as (_ & Hn). now elim (Hn m0).
Qed.
End Exact.

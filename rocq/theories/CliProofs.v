(** Proofs about the arguments of generated commands. *)
From Verif Require Import Base ClientModel MethodModel OpModel RunModel BuilderModel SanitizeModel SanitizeSpec SanitizeProofs
  WordProofs ParamProofs CliModel CliSpec.
From Coq Require Import Permutation Sorted.
Local Open Scope N_scope.

(** ** Lists *)

Lemma bt_insert_perm {A} k (v : A) m : assoc k m = None -> Permutation (bt_insert k v m) ((k, v) :: m).
Proof.
  induction m as [|[k' v'] r IH]; cbn [bt_insert assoc]; intro H; auto.
  destruct (str_eqb k k') eqn:E; [discriminate|].
  destruct (str_cmp k k') eqn:C; auto.
  - apply str_cmp_eq in C. subst. now rewrite str_eqb_refl in E.
  - rewrite IH by auto. apply perm_swap.
Qed.

Lemma assoc_none_in {A} k (m : list (str * A)) : assoc k m = None <-> ~ In k (map fst m).
Proof.
  induction m as [|[k' v'] r IH]; cbn; [tauto|]. destruct (str_eqb k k') eqn:E.
  - apply str_eqb_spec in E. subst. split; [discriminate|]. intro H. exfalso. auto.
  - apply str_eqb_neq in E. rewrite IH. split; intros H; [intros [->|]; auto|auto].
Qed.

Lemma has_arg_in (m : list (str * cli_arg)) k : has_arg m k = true <-> In k (map fst m).
Proof.
  unfold has_arg. destruct (assoc k m) eqn:E.
  - split; auto. intros _. apply assoc_In in E. apply (in_map fst) in E. exact E.
  - apply assoc_none_in in E. split; [discriminate|easy].
Qed.

Lemma has_arg_none (m : list (str * cli_arg)) k : has_arg m k = false <-> assoc k m = None.
Proof. unfold has_arg. destruct (assoc k m); split; auto; discriminate. Qed.

Lemma mem_In x l : mem x l = true <-> In x l.
Proof.
  unfold mem. rewrite existsb_exists. split.
  - intros (y & Hy & E). apply str_eqb_spec in E. now subst.
  - intro H. exists x. split; auto. apply str_eqb_refl.
Qed.

Lemma simple_all vs : forallb (fun v : str * bool => snd v) vs = true -> vs = map (fun v => (v, true)) (map fst vs).
Proof.
  induction vs as [|[v b] r IH]; cbn; auto. intro H. apply andb_true_iff in H as [-> H]. f_equal. auto.
Qed.

Section Cli.
Variable U : unicode.
Variable types : type_id -> option cli_type.
Hypothesis Hcases : forall c, lowercase U c = true -> uppercase U c = false.
Hypothesis Hdash : alphanumeric U (ch "-") = false.
Notation kebab := (to_kebab_case U).

(** ** Names *)

Lemma words_any s : words (any_text U) s = words U s.
Proof. reflexivity. Qed.

Lemma replaced_any s : replaced (any_text U) s = s.
Proof. unfold replaced. cbn. apply map_id. Qed.

Lemma join_dash ws : join (lit "-") ws = tl (flat_map (fun w => ch "-" :: w) ws).
Proof.
  assert (H : forall w ws, join (lit "-") (w :: ws) = w ++ flat_map (fun w => ch "-" :: w) ws).
  { intros w vs. revert w. induction vs as [|v vs IH]; intro w; [cbn; now rewrite app_nil_r|].
    change (join (lit "-") (w :: v :: vs)) with (w ++ lit "-" ++ join (lit "-") (v :: vs)).
    rewrite IH. reflexivity. }
  destruct ws; auto. rewrite H. reflexivity.
Qed.

Lemma kebab_glue s ws : words U s = ws -> kebab s = tl (flat_map (fun w => ch "-" :: lowered U w) ws).
Proof.
  intros <-. unfold to_kebab_case. rewrite join_dash, !flat_map_concat_map, map_map. f_equal. f_equal.
  apply map_ext. intro w. now rewrite lowercase_word_eq.
Qed.

Lemma kebab_name s n : kebab s = n <-> argument_name U s n.
Proof.
  split.
  - intros <-. exists (words U s). split; [|now apply kebab_glue].
    pose proof (words_of_complete (any_text U) Hcases Hdash s) as H.
    now rewrite replaced_any, words_any in H.
  - intros (ws & Hw & ->). apply kebab_glue.
    pose proof (words_of_sound (any_text U) Hcases Hdash s ws Hw) as H.
    now rewrite replaced_any, words_any in H.
Qed.

(** ** Parsers *)

Lemma parser_ok n vol desc ct : parser_for ct (cl_parser (make_clap_arg n vol desc ct)).
Proof.
  cbn. unfold simple_variants. destruct (ct_details ct) as [vs| | |] eqn:E; try (apply pf_type; congruence).
  destruct (forallb _ vs) eqn:F.
  - apply pf_enum. rewrite E. f_equal. now apply simple_all.
  - apply pf_type. rewrite E. intros vs' [= ->]. rewrite forallb_map in F || idtac.
    assert (H : forallb (fun v : str * bool => snd v) (map (fun v => (v, true)) vs') = true).
    { clear. induction vs'; auto. }
    congruence.
Qed.

(** ** Parameters *)

Definition param_vol (m : op_method) (p : op_param) : volitionality :=
  if match innately_required (p_kind p) with Some r => r | None => false end || first_page_required m (p_api_name p)
  then VoRequired else VoOptional.

Definition param_entry (m : op_method) (p : op_param) (ct : cli_type) : str * cli_arg :=
  let n := kebab (p_name p) in
  (n, CliArg (make_clap_arg n (param_vol m p) (p_description p) ct)
        (CoParam (ct_ident ct) n (sanitize U (p_name p) Snake))).

Definition param_made (m : op_method) (p : op_param) (e : str * cli_arg) : Prop :=
  exists t ct, p_typ p = PType t /\ types t = Some ct /\ e = param_entry m p ct.

Lemma first_page_spec m n : first_page_required m n = true <->
  exists pg, m_paginated m = Some pg /\ In n (pg_first_page_params pg).
Proof.
  unfold first_page_required. destruct (m_paginated m) as [pg|].
  - rewrite mem_In. split; [eauto|]. intros (pg' & [= ->] & H). exact H.
  - split; [discriminate|]. now intros (pg & H & _).
Qed.

Lemma param_vol_required m p : (forall ct, p_kind p <> KBody ct) ->
  (param_vol m p = VoRequired <-> api_requires m p) /\ (param_vol m p = VoOptional <-> ~ api_requires m p).
Proof.
  intro Hk. unfold param_vol, api_requires. rewrite <- first_page_spec.
  destruct (first_page_required m (p_api_name p)); destruct (p_kind p) as [|[]|[]|ct] eqn:E; cbn;
    try (now destruct (Hk ct)); split; split; intro H; try discriminate; auto 6; try tauto;
    try (exfalso; tauto); try (intros [?|[?|[?|?]]]; discriminate); try (destruct H as [?|[?|[?|?]]]; discriminate).
Qed.

Lemma argument_dec m p : {has_argument m p} + {~ has_argument m p}.
Proof.
  unfold has_argument. destruct (p_kind p) as [| | |ct] eqn:E;
    try (right; intros (H & _); now apply (H ct)).
  all: destruct (m_paginated m) as [pg|] eqn:Ep;
    [destruct (list_eq_dec N.eq_dec (p_name p) (lit "page_token")) as [En|En]|].
  all: try (right; intros (_ & H); apply H; split; [discriminate|exact En]).
  all: left; split; [intros ct'; discriminate|]; intros (H1 & H2); auto; contradiction.
Qed.

Lemma param_arg_ok m args p args' : param_arg U types m args p = Ok args' ->
  (~ has_argument m p /\ args' = args)
  \/ (has_argument m p /\ exists e, param_made m p e /\ assoc (fst e) args = None
      /\ args' = bt_insert (fst e) (snd e) args).
Proof.
  unfold param_arg. destruct (innately_required (p_kind p)) as [req|] eqn:Er.
  - destruct (is_paginated m && str_eqb (p_name p) (lit "page_token")) eqn:Ep.
    + intros [= <-]. left. split; auto. intros (_ & H). apply H.
      apply andb_true_iff in Ep as [E1 E2]. unfold is_paginated in E1. apply str_eqb_spec in E2.
      split; auto. destruct (m_paginated m); [discriminate|discriminate].
    + assert (Hh : has_argument m p).
      { split.
        - intros ct E. rewrite E in Er. discriminate.
        - intros (H1 & H2). rewrite H2, str_eqb_refl in Ep. unfold is_paginated in Ep.
          destruct (m_paginated m); [discriminate|now apply H1]. }
      destruct (p_typ p) as [t|] eqn:Et; [|discriminate]. unfold unwrap_type.
      destruct (types t) as [ct|] eqn:Ec; cbn [obind]; [|discriminate].
      destruct (has_arg args (kebab (p_name p))) eqn:Eh; [discriminate|]. intros [= <-]. right.
      split; auto. exists (param_entry m p ct). split; [exists t, ct; auto|].
      cbn [param_entry fst snd]. split; [now apply has_arg_none|]. unfold param_vol. now rewrite Er.
  - intros [= <-]. left. split; auto. destruct (p_kind p) as [| | |ct] eqn:Ek; try discriminate.
    intros (H & _). now apply (H ct).
Qed.

Lemma param_args_ok m ps : forall args args', param_args U types m args ps = Ok args' ->
  StronglySorted key_lt args ->
  exists params new, kept (has_argument m) ps params /\ Forall2 (param_made m) params new
    /\ Permutation args' (args ++ new) /\ StronglySorted key_lt args'.
Proof.
  induction ps as [|p ps IH]; intros args args' H Hs; cbn [param_args] in H.
  - injection H as <-. exists [], []. rewrite app_nil_r. repeat split; auto; constructor.
  - destruct (param_arg U types m args p) as [args1| |] eqn:E; try discriminate. cbn [obind] in H.
    apply param_arg_ok in E as [(Hn & ->)|(Hh & e & He & Hf & ->)].
    + destruct (IH _ _ H Hs) as (params & new & H1 & H2 & H3 & H4). exists params, new.
      repeat split; auto. now apply ke_drop.
    + destruct (IH _ _ H (bt_insert_sorted _ _ _ Hs)) as (params & new & H1 & H2 & H3 & H4).
      exists (p :: params), (e :: new). repeat split; auto.
      * now apply ke_keep.
      * rewrite H3, (bt_insert_perm _ _ _ Hf), <- surjective_pairing. cbn [app].
        apply Permutation_middle.
Qed.

(** When it succeeds. *)
Lemma param_args_iff m ps : forall args, StronglySorted key_lt args ->
  ((exists args', param_args U types m args ps = Ok args') <->
   exists params, kept (has_argument m) ps params
     /\ Forall (fun p => exists t ct, p_typ p = PType t /\ types t = Some ct) params
     /\ NoDup (map (fun p => kebab (p_name p)) params)
     /\ forall p, In p params -> ~ In (kebab (p_name p)) (map fst args)).
Proof.
  induction ps as [|p ps IH]; intros args Hs; cbn [param_args].
  - split; [|eauto]. intros _. exists []. repeat split; auto; constructor.
  - split.
    + intros (args' & H). destruct (param_arg U types m args p) as [args1| |] eqn:E; try discriminate.
      cbn [obind] in H. apply param_arg_ok in E as [(Hn & ->)|(Hh & e & He & Hf & ->)].
      * destruct (proj1 (IH args Hs) (ex_intro _ args' H)) as (params & H1 & H2 & H3 & H4).
        exists params. repeat split; auto. now apply ke_drop.
      * destruct (proj1 (IH _ (bt_insert_sorted _ _ _ Hs)) (ex_intro _ args' H)) as (params & H1 & H2 & H3 & H4).
        destruct He as (t & ct & Et & Ec & ->). cbn [param_entry fst snd] in *.
        assert (Hk : forall q, In q params -> kebab (p_name q) <> kebab (p_name p) /\ ~ In (kebab (p_name q)) (map fst args)).
        { intros q Hq. apply H4 in Hq.
          rewrite (Permutation_map fst (bt_insert_perm _ _ _ Hf)) in Hq. cbn in Hq. tauto || (split; auto). }
        exists (p :: params). split; [now apply ke_keep|]. split; [constructor; eauto|]. split.
        -- cbn. constructor; auto. rewrite in_map_iff. intros (q & Eq & Hq). now apply Hk in Hq.
        -- intros q [<-|Hq]; [now apply assoc_none_in|]. now apply Hk.
    + intros (params & H1 & H2 & H3 & H4). unfold param_arg. inversion H1 as [|a l l' Hh Hk|a l l' Hn Hk]; subst.
      * inversion H2 as [|? ? (t & ct & Et & Ec) H2']; subst. cbn in H3. inversion H3 as [|? ? Hni H3']; subst.
        destruct (innately_required (p_kind p)) as [req|] eqn:Er.
        2:{ exfalso. destruct (p_kind p) as [| | |b] eqn:Eb; try discriminate. destruct Hh as (H & _). rewrite Eb in H. now apply (H b). }
        replace (is_paginated m && str_eqb (p_name p) (lit "page_token")) with false.
        2:{ symmetry. apply andb_false_iff. destruct Hh as (_ & Hh). unfold is_paginated.
            destruct (m_paginated m); auto. right. apply str_eqb_neq. intro E. apply Hh. split; [discriminate|auto]. }
        rewrite Et. unfold unwrap_type. rewrite Ec. cbn [obind].
        assert (Hp := H4 p (or_introl eq_refl)). apply assoc_none_in in Hp.
        rewrite (proj2 (has_arg_none _ _) Hp). cbn [obind]. apply IH; [now apply bt_insert_sorted|].
        exists l'. repeat split; auto. intros q Hq.
        rewrite (Permutation_map fst (bt_insert_perm _ _ _ Hp)). cbn. intros [E|Hi].
        { apply Hni. rewrite E. apply in_map_iff. eauto. }
        { apply (H4 q); auto. now right. }
      * assert (E : param_arg U types m args p = Ok args).
        { unfold param_arg. destruct (innately_required (p_kind p)) as [req|] eqn:Er; auto.
          replace (is_paginated m && str_eqb (p_name p) (lit "page_token")) with true; auto.
          symmetry. destruct (is_paginated m && _) eqn:Ep; auto. exfalso. apply Hn. split.
          - intros b Eb. rewrite Eb in Er. discriminate.
          - intros (H5 & H6). rewrite H6, str_eqb_refl in Ep. unfold is_paginated in Ep.
            destruct (m_paginated m); [discriminate|auto]. }
        unfold param_arg in E. rewrite E. cbn [obind]. apply IH; auto. exists params. auto.
Qed.

Lemma made_argument m p e : (forall ct, p_kind p <> KBody ct) -> param_made m p e ->
  argument_for U types m p (ca_parser (snd e)) /\ cl_id (ca_parser (snd e)) = fst e.
Proof.
  intros Hk (t & ct & Et & Ec & ->). split; auto. destruct (param_vol_required m p Hk) as [H1 H2]. split.
  - now apply kebab_name.
  - reflexivity.
  - exists t, ct. split; auto. split; auto. apply parser_ok.
  - exact H1.
  - exact H2.
Qed.

(** ** Properties of the body *)

Definition prop_vol (pr : prop_info) : volitionality :=
  if pr_required pr then VoRequiredIfNoBody else VoOptional.

Definition prop_entry (pr : prop_info) (ct : cli_type) : str * cli_arg :=
  let n := kebab (pr_name pr) in
  (n, CliArg (make_clap_arg n (prop_vol pr) (pr_description pr) ct)
        (CoProp (ct_ident ct) n (sanitize U (pr_name pr) Snake))).

Definition prop_made (pr : prop_info) (e : str * cli_arg) : Prop :=
  exists ct, value_type types (pr_type pr) ct /\ ct_from_str ct = true /\ e = prop_entry pr ct.

Lemma value_type_ok t ct : prop_value_type types t = Ok ct <-> value_type types t ct.
Proof.
  unfold prop_value_type, unwrap_type. split.
  - destruct (types t) as [ct0|] eqn:E; cbn [obind]; [|discriminate].
    destruct (ct_details ct0) as [| |i|] eqn:Ed; try (intros [= <-]; apply vt_plain; auto; congruence).
    destruct (types i) as [ct'|] eqn:Ei; [|discriminate]. intros [= <-]. now apply (vt_option types t ct0 i).
  - intros [ct' E Hn|ct0 i ct' E Ed Ei].
    + rewrite E. cbn [obind]. destruct (ct_details ct') as [| |i|] eqn:Ed; auto. now destruct (Hn i).
    + rewrite E. cbn [obind]. rewrite Ed, Ei. reflexivity.
Qed.

Lemma value_type_unique t a b : value_type types t a -> value_type types t b -> a = b.
Proof. intros Ha Hb. apply value_type_ok in Ha, Hb. congruence. Qed.

Lemma made_property pr e : prop_made pr e ->
  property_argument U types pr (ca_parser (snd e)) /\ cl_id (ca_parser (snd e)) = fst e.
Proof.
  intros (ct & Ht & Hf & ->). split; auto. split.
  - now apply kebab_name.
  - reflexivity.
  - exists ct. split; auto. apply parser_ok.
  - cbn. unfold prop_vol. destruct (pr_required pr); split; auto; discriminate.
  - cbn. unfold prop_vol. destruct (pr_required pr); split; auto; discriminate.
Qed.

Lemma divided_ext taken taken' prs own rest : (forall n, In n taken <-> In n taken') ->
  divided U types taken prs own rest -> divided U types taken' prs own rest.
Proof.
  intros He H. revert taken' He. induction H as [taken|taken pr n prs own rest Hs Hn Hi H IH|taken pr n prs own rest Hn Hi H IH]; intros taken' He.
  - constructor.
  - apply (di_own U types taken' pr n); auto; [now rewrite <- He|]. apply IH. intro k. cbn. now rewrite He.
  - apply (di_rest U types taken' pr n); auto. now rewrite <- He.
Qed.

Lemma body_args_ok prs : forall args b args' b', body_args U types (args, b) prs = Ok (args', b') ->
  StronglySorted key_lt args ->
  exists own rest new, divided U types (map fst args) prs own rest /\ Forall2 prop_made own new
    /\ Permutation args' (args ++ new) /\ StronglySorted key_lt args'
    /\ (b <> BaNone -> b' <> BaNone)
    /\ (b' = BaRequired <-> b = BaRequired \/ exists pr, In pr rest /\ pr_required pr = true).
Proof.
  induction prs as [|pr prs IH]; intros args b args' b' H Hs; cbn [body_args] in H.
  - injection H as <- <-. exists [], [], []. rewrite app_nil_r. repeat split; auto; try constructor; auto.
    intros [|(pr & [] & _)]; auto.
  - unfold cli_method_body_arg in H. destruct (prop_value_type types (pr_type pr)) as [ct| |] eqn:Et; try discriminate.
    cbn [obind] in H. pose proof (proj1 (value_type_ok _ _) Et) as Hv.
    destruct (ct_from_str ct && negb (has_arg args (kebab (pr_name pr)))) eqn:Ef; cbn [obind] in H.
    + apply andb_true_iff in Ef as [Ef Eh]. apply negb_true_iff, has_arg_none in Eh.
      destruct (IH _ _ _ _ H (bt_insert_sorted _ _ _ Hs)) as (own & rest & new & H1 & H2 & H3 & H4 & H5 & H6).
      exists (pr :: own), rest, (prop_entry pr ct :: new). split; [|split; [|split; [|split; [|split]]]]; auto.
      * apply (di_own U types _ pr (kebab (pr_name pr))).
        { exists ct. auto. }
        { now apply kebab_name. }
        { now apply assoc_none_in. }
        { apply divided_ext with (2 := H1). intro n.
          rewrite (Permutation_map fst (bt_insert_perm _ _ _ Eh)). reflexivity. }
      * constructor; auto. exists ct. auto.
      * rewrite H3, (bt_insert_perm _ _ _ Eh). cbn [app]. apply Permutation_middle.
    + assert (Hr : ~ scalar types pr \/ In (kebab (pr_name pr)) (map fst args)).
      { apply andb_false_iff in Ef as [Ef|Ef].
        - left. intros (ct' & Hv' & Hf). rewrite (value_type_unique _ _ _ Hv Hv') in Ef. congruence.
        - right. apply negb_false_iff in Ef. now apply has_arg_in. }
      assert (Hd : forall own rest, divided U types (map fst args) prs own rest -> divided U types (map fst args) (pr :: prs) own (pr :: rest)).
      { intros own rest Hd. apply (di_rest U types _ pr (kebab (pr_name pr))); auto. now apply kebab_name. }
      destruct (pr_required pr) eqn:Er.
      * unfold body_required in H. destruct b; try discriminate; cbn [obind] in H;
          destruct (IH _ _ _ _ H Hs) as (own & rest & new & H1 & H2 & H3 & H4 & H5 & H6);
          exists own, (pr :: rest), new; (split; [|split; [|split; [|split; [|split]]]]); auto;
          try (intros _; apply H5; discriminate); (split; [intros _; right; exists pr; split; auto; now left|]);
          intros _; apply H6; auto.
      * destruct (IH _ _ _ _ H Hs) as (own & rest & new & H1 & H2 & H3 & H4 & H5 & H6);
          exists own, (pr :: rest), new; (split; [|split; [|split; [|split; [|split]]]]); auto.
        rewrite H6. split; intros [|(q & Hq & Eq)]; auto; right; exists q; auto.
        { split; auto. now right. }
        { destruct Hq as [<-|Hq]; [congruence|auto]. }
Qed.

Lemma body_args_total prs : forall args b, b <> BaNone ->
  Forall (fun pr => exists ct, value_type types (pr_type pr) ct) prs ->
  exists r, body_args U types (args, b) prs = Ok r.
Proof.
  induction prs as [|pr prs IH]; intros args b Hb H; cbn [body_args]; [eauto|].
  inversion H as [|? ? (ct & Hv) H']; subst. apply value_type_ok in Hv. unfold cli_method_body_arg. rewrite Hv. cbn [obind].
  destruct (_ && _); cbn [obind]; [now apply IH|]. destruct (pr_required pr); cbn [obind]; [|now apply IH].
  unfold body_required. destruct b; try easy; cbn [obind]; apply IH; auto; discriminate.
Qed.

Lemma body_args_types prs : forall args b r, body_args U types (args, b) prs = Ok r ->
  Forall (fun pr => exists ct, value_type types (pr_type pr) ct) prs.
Proof.
  induction prs as [|pr prs IH]; intros args b r H; cbn [body_args] in H; constructor.
  - unfold cli_method_body_arg in H. destruct (prop_value_type types (pr_type pr)) as [ct| |] eqn:E; try discriminate.
    exists ct. now apply value_type_ok.
  - destruct (cli_method_body_arg U types (args, b) pr) as [[args1 b1]| |]; try discriminate. eauto.
Qed.

(** ** The body *)

Lemma find_body_some ps p : find (fun p => is_body_kind (p_kind p)) ps = Some p ->
  exists pre post ct, ps = pre ++ p :: post /\ p_kind p = KBody ct /\ forall q ct', In q pre -> p_kind q <> KBody ct'.
Proof.
  induction ps as [|q ps IH]; cbn; [discriminate|]. destruct (is_body_kind (p_kind q)) eqn:E.
  - intros [= ->]. destruct (p_kind p) as [| | |ct] eqn:Ek; try discriminate. exists [], ps, ct. cbn. auto.
  - intro H. destruct (IH H) as (pre & post & ct & -> & Ek & Hq). exists (q :: pre), post, ct. repeat split; auto.
    intros r ct' [<-|Hr]; eauto. intro E'. rewrite E' in E. discriminate.
Qed.

Lemma find_body_none ps : find (fun p => is_body_kind (p_kind p)) ps = None ->
  forall p ct, In p ps -> p_kind p <> KBody ct.
Proof. intros H p ct Hp E. apply find_none with (x := p) in H; auto. rewrite E in H. discriminate. Qed.

Lemma body_of_cases m :
  match find (fun p => is_body_kind (p_kind p)) (m_params m) with
  | Some p => body_of m (Some (p_typ p))
  | None => body_of m None
  end.
Proof.
  destruct (find _ _) as [p|] eqn:E.
  - apply find_body_some in E as (pre & post & ct & E & Ek & Hq). now apply (bo_some m pre p post ct).
  - apply bo_none. now apply find_body_none.
Qed.

Lemma body_of_unique m a b : body_of m a -> body_of m b -> a = b.
Proof.
  assert (H : forall a, body_of m a -> option_map p_typ (find (fun p => is_body_kind (p_kind p)) (m_params m)) = a).
  { clear. intros a [Hn|pre p post ct E Ek Hq].
    - destruct (find _ _) as [p|] eqn:E; auto. apply find_some in E as (Hi & E).
      destruct (p_kind p) as [| | |ct] eqn:Ek; try discriminate. now destruct (Hn p ct).
    - rewrite E. clear E. induction pre as [|q pre IH]; cbn.
      + now rewrite Ek.
      + destruct (p_kind q) as [| | |ct'] eqn:Eq; cbn; try (apply IH; intros r c Hr; apply Hq; now right).
        now destruct (Hq q ct' (or_introl eq_refl)). }
  intros Ha Hb. apply H in Ha, Hb. congruence.
Qed.

Lemma body_type_spec m t : body_type_id m = Some t <-> body_of m (Some (PType t)).
Proof.
  unfold body_type_id. pose proof (body_of_cases m) as H. destruct (find _ _) as [p|] eqn:E.
  - destruct (p_typ p) as [t'|] eqn:Et; split.
    + intros [= <-]. exact H.
    + intro H'. pose proof (body_of_unique _ _ _ H H') as [= <-]. reflexivity.
    + discriminate.
    + intro H'. pose proof (body_of_unique _ _ _ H H'). discriminate.
  - split; [discriminate|]. intro H'. pose proof (body_of_unique _ _ _ H H'). discriminate.
Qed.

Lemma body_type_none m : body_type_id m = None <-> body_of m None \/ body_of m (Some PRawBody).
Proof.
  unfold body_type_id. pose proof (body_of_cases m) as H. destruct (find _ _) as [p|] eqn:E.
  - destruct (p_typ p) as [t'|] eqn:Et; split; auto; try discriminate.
    intros [H'|H']; pose proof (body_of_unique _ _ _ H H'); discriminate.
  - split; auto.
Qed.

(** ** All arguments *)

Notation made m := (fun p e => param_made m p e) (only parsing).

(** Everything that is known about the result of [cli_method_args]. *)
Inductive outline (m : op_method) (a : cli_args) : Prop :=
| outline_intro params props own rest new_params new_props args body :
    kept (has_argument m) (m_params m) params ->
    Forall2 (param_made m) params new_params ->
    body_properties types m props ->
    divided U types (map fst new_params) props own rest ->
    Forall2 prop_made own new_props ->
    Permutation args (new_params ++ new_props) ->
    StronglySorted key_lt args ->
    cg_parsers a = map (fun ka => ca_parser (snd ka)) args ++ json_body_args body ->
    cg_consumers a = map (fun ka => ca_consumer (snd ka)) args ->
    match body_type_id m with
    | None => body = BaNone /\ cg_json a = None
    | Some t => exists ct, types t = Some ct /\ cg_json a = Some (ct_ident ct) /\ body <> BaNone
        /\ (body = BaRequired <-> (forall prs, ct_details ct <> CdStruct prs)
                                  \/ exists pr, In pr rest /\ pr_required pr = true)
    end -> outline m a.

Lemma cli_method_args_ok m a : cli_method_args U types m = Ok a -> outline m a.
Proof.
  unfold cli_method_args. destruct (param_args U types m [] (m_params m)) as [args0| |] eqn:E0; try discriminate.
  cbn [obind]. apply param_args_ok in E0 as (params & new & H1 & H2 & H3 & H4); [|constructor]. cbn [app] in H3.
  destruct (body_type_id m) as [t|] eqn:Eb.
  - apply body_type_spec in Eb as Hb. cbn [body_present obind]. unfold unwrap_type.
    destruct (types t) as [ct|] eqn:Et; cbn [obind]; [|discriminate].
    destruct (ct_details ct) as [vs|prs|i|] eqn:Ed.
    all: cbn [body_required obind].
    all: try (intros [= <-]; apply (outline_intro m _ params [] [] [] new [] args0 BaRequired); auto;
      [apply (bp_other types m t ct); auto; congruence|constructor|now rewrite app_nil_r|];
      rewrite Eb; exists ct; cbn; repeat split; auto; try discriminate; intros _; left; congruence).
    destruct (body_args U types (args0, BaOptional) prs) as [[args body]| |] eqn:Ea; try discriminate. cbn [obind].
    intros [= <-]. apply body_args_ok in Ea as (own & rest & newp & G1 & G2 & G3 & G4 & G5 & G6); auto.
    apply (outline_intro m _ params prs own rest new newp args body); auto.
    + apply (bp_struct types m t ct); auto.
    + apply divided_ext with (2 := G1). intro n. now rewrite (Permutation_map fst H3).
    + now rewrite G3, H3.
    + rewrite Eb. exists ct. cbn. repeat split; auto.
      { apply G5. discriminate. }
      { intro E. apply G6 in E as [E|E]; [discriminate|auto]. }
      { intros [Hn|Hr]; [now destruct (Hn prs)|]. apply G6. auto. }
  - cbn [obind]. intros [= <-]. apply (outline_intro m _ params [] [] [] new [] args0 BaNone); auto.
    + apply body_type_none in Eb as [Eb|Eb]; [now apply bp_none|now apply bp_raw].
    + constructor.
    + now rewrite app_nil_r.
    + rewrite Eb. auto.
Qed.

(** The fact about requiredness that [json_arguments] states. *)
Lemma struct_dec ct : {prs | ct_details ct = CdStruct prs} + {forall prs, ct_details ct <> CdStruct prs}.
Proof. destruct (ct_details ct) as [|prs| |]; [right; discriminate|left; eauto|right; discriminate|right; discriminate]. Qed.

Lemma required_dec (rest : list prop_info) :
  {exists pr, In pr rest /\ pr_required pr = true} + {forall pr, In pr rest -> pr_required pr = false}.
Proof.
  induction rest as [|pr rest IH]; [right; easy|]. destruct (pr_required pr) eqn:E.
  - left. exists pr. split; auto. now left.
  - destruct IH as [IH|IH]; [left|right].
    + destruct IH as (q & Hq & Eq). exists q. split; auto. now right.
    + intros q [<-|Hq]; auto.
Qed.

Lemma kept_sat {A} (P : A -> Prop) l l' : kept P l l' -> Forall P l'.
Proof. induction 1; auto. Qed.

Lemma kept_in {A} (P : A -> Prop) l l' a : kept P l l' -> (In a l' <-> In a l /\ P a).
Proof.
  induction 1 as [|b l l' Hb H IH|b l l' Hb H IH]; cbn; [tauto| |].
  - rewrite IH. split; [intros [->|]|intros [[->|] ]]; tauto.
  - rewrite IH. split; [tauto|]. intros [[->|]]; tauto.
Qed.

Lemma outline_arguments m a : outline m a ->
  exists own rest args json, cg_parsers a = args ++ json /\ arguments_of U types m own rest args
    /\ json_arguments types m rest json.
Proof.
  intros [params props own rest newp newpr args body H1 H2 H3 H4 H5 H6 H7 H8 H9 H10].
  exists own, rest, (map (fun ka => ca_parser (snd ka)) args), (json_body_args body).
  split; [exact H8|].
  assert (Hids : forall l, Forall (fun e : str * cli_arg => cl_id (ca_parser (snd e)) = fst e) l ->
    map cl_id (map (fun ka => ca_parser (snd ka)) l) = map fst l).
  { clear. induction 1 as [|e l He _ IH]; cbn; auto. now rewrite He, IH. }
  assert (Hp : Forall2 (argument_for U types m) params (map (fun ka => ca_parser (snd ka)) newp)
    /\ Forall (fun e : str * cli_arg => cl_id (ca_parser (snd e)) = fst e) newp).
  { apply kept_sat in H1. clear H3 H4 H5 H6 H10. revert H1. induction H2 as [|p e ps es He _ IH]; intro Hk; cbn; [auto|].
    inversion Hk as [|? ? [Hb _] Hk']; subst. apply made_argument in He as [G1 G2]; auto. destruct (IH Hk') as [I1 I2]. auto. }
  assert (Hq : Forall2 (property_argument U types) own (map (fun ka => ca_parser (snd ka)) newpr)
    /\ Forall (fun e : str * cli_arg => cl_id (ca_parser (snd e)) = fst e) newpr).
  { clear - H5 Hcases Hdash. induction H5 as [|p e ps es He _ IH]; cbn; auto. apply made_property in He as [G1 G2]. destruct IH. auto. }
  destruct Hp as [Hp Hpi], Hq as [Hq Hqi]. split.
  - apply (ao_intro U types m own rest _ params (map (fun ka => ca_parser (snd ka)) newp)
             (map (fun ka => ca_parser (snd ka)) newpr) props); auto.
    + now rewrite Hids.
    + rewrite <- map_app. now apply Permutation_map.
    + assert (Hi : Forall (fun e : str * cli_arg => cl_id (ca_parser (snd e)) = fst e) args).
      { apply Forall_forall. intros e He. apply (Permutation_in _ H6) in He. apply in_app_iff in He as [He|He].
        - rewrite Forall_forall in Hpi. auto.
        - rewrite Forall_forall in Hqi. auto. }
      clear - H7 Hi. induction H7 as [|e l Hs IH Hl]; cbn; [constructor|]. inversion Hi; subst.
      constructor; auto. apply Forall_map. rewrite Forall_forall in *. intros x Hx. rewrite H1, H2; auto.
      now apply Hl.
  - destruct (body_type_id m) as [t|] eqn:Eb.
    + apply body_type_spec in Eb. destruct H10 as (ct & Et & _ & Hn & Hr).
      destruct body; [easy| |].
      * apply (ja_typed types m rest t ct); auto; cbn.
        { split; auto. intros _. now apply Hr. }
        { split; [discriminate|]. intros (prs & Ed & Hf). exfalso.
          destruct (proj1 Hr eq_refl) as [G|(pr & Hi & Er)]; [now apply (G prs)|]. rewrite Hf in Er; auto. discriminate. }
      * apply (ja_typed types m rest t ct); auto; cbn.
        { split; [discriminate|]. intro G. now apply Hr in G. }
        { split; auto. intros _. destruct (struct_dec ct) as [(prs & Ed)|Hns].
          - exists prs. split; auto. destruct (required_dec rest) as [G|G]; auto.
            exfalso. assert (BaOptional = BaRequired) by (apply Hr; auto). discriminate.
          - exfalso. assert (BaOptional = BaRequired) by (apply Hr; auto). discriminate. }
    + destruct H10 as (-> & _). apply body_type_none in Eb as [Eb|Eb]; [now apply ja_none|now apply ja_raw].
Qed.
End Cli.

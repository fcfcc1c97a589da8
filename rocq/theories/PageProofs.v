(** Recognition of paginated operations. *)
From Coq Require Import Permutation Sorted.
From Verif Require Import Base OasModel TemplateModel MethodModel OpModel ParamSpec ParamProofs PageSpec StreamSpec EnvProofs OpCor.
Local Open Scope N_scope.

Lemma property_last props n t : property props n t <-> assoc_last n props = Some t.
Proof.
  split.
  - intros (pre & post & -> & Hn). rewrite assoc_last_app. cbn [assoc_last]. apply assoc_last_None in Hn.
    now rewrite Hn, str_eqb_refl.
  - induction props as [|[k v] props IH]; cbn [assoc_last]; [easy|].
    destruct (assoc_last n props) as [t'|] eqn:E.
    + intros [= ->]. destruct (IH eq_refl) as (pre & post & -> & Hn). now exists ((k, v) :: pre), post.
    + destruct (str_eqb n k) eqn:Ek; [|easy]. apply str_eqb_spec in Ek. subst k. intros [= ->].
      exists [], props. split; auto. now apply assoc_last_None.
Qed.

Lemma last_in {A} (props : list (str * A)) n : In n (map fst props) <-> exists t, assoc_last n props = Some t.
Proof.
  split.
  - intro H. destruct (assoc_last n props) as [t|] eqn:E; [eauto|]. now apply assoc_last_None in E.
  - intros (t & H). apply assoc_last_In in H. now apply (in_map fst) in H.
Qed.

Lemma two_keys {A} (m : list (str * A)) a b : a <> b -> NoDup (map fst m) -> In a (map fst m) -> In b (map fst m) ->
  (length m = 2%nat <-> forall n, In n (map fst m) -> n = a \/ n = b).
Proof.
  intros Hab Hnd Ha Hb. rewrite <- (map_length fst m). split.
  - intros Hl n Hn. destruct (map fst m) as [|x [|y [|]]]; try discriminate. cbn in *.
    destruct Ha as [->|[->|[]]], Hb as [->|[->|[]]], Hn as [->|[->|[]]]; auto; easy.
  - intro H. assert (Hi : incl (map fst m) [a; b]) by (intros n Hn; apply H in Hn; cbn; intuition).
    assert (Hi' : incl [a; b] (map fst m)) by (intros n [->|[->|[]]]; auto).
    apply NoDup_incl_length in Hi; auto.
    assert (Hnd' : NoDup [a; b]) by (repeat constructor; cbn; intuition congruence).
    apply NoDup_incl_length in Hi'; auto. cbn in *. lia.
Qed.

(** The struct part of the recognition. *)
Definition page_item (ts : type_space) (success : type_id) : option type_id :=
  match ts_details ts success with
  | Some (TdStruct props) =>
      let properties := bt_inserts props [] in
      if negb (Nat.eqb (List.length properties) 2) then None
      else
        match assoc (lit "next_page") properties with
        | None => None
        | Some np =>
            match ts_details ts np with
            | Some (TdOption o) =>
                match ts_details ts o with
                | Some TdString =>
                    match assoc (lit "items") properties with
                    | None => None
                    | Some it => match ts_details ts it with Some (TdVec i) => Some i | _ => None end
                    end
                | _ => None
                end
            | _ => None
            end
        end
  | _ => None
  end.

Lemma page_item_iff ts t i : page_item ts t = Some i <-> page_type ts t i.
Proof.
  unfold page_item, page_type. split.
  - destruct (ts_details ts t) as [[| | |props|]|] eqn:Et; try discriminate. cbv zeta.
    destruct (Nat.eqb _ 2) eqn:El; [|discriminate]. cbn [negb].
    assert (Hs := bt_inserts_sorted props [] (SSorted_nil _)).
    assert (Ha := fun n => bt_inserts_assoc props n [] (SSorted_nil _)). cbn [assoc] in Ha.
    destruct (assoc (lit "next_page") _) as [np|] eqn:En; [|discriminate].
    destruct (ts_details ts np) as [[o| | | |]|] eqn:Eo; try discriminate.
    destruct (ts_details ts o) as [[| | | |]|] eqn:Es; try discriminate.
    destruct (assoc (lit "items") _) as [it|] eqn:Ei; [|discriminate].
    destruct (ts_details ts it) as [[| |v| |]|] eqn:Ev; try discriminate.
    intros [= ->]. exists props. split; auto.
    assert (Hn : assoc_last (lit "next_page") props = Some np).
    { rewrite Ha in En. now destruct (assoc_last (lit "next_page") props). }
    assert (Hi : assoc_last (lit "items") props = Some it).
    { rewrite Ha in Ei. now destruct (assoc_last (lit "items") props). }
    split; [|split].
    + apply Nat.eqb_eq in El.
      assert (Hin : forall n x, assoc n (bt_inserts props []) = Some x -> In n (map fst (bt_inserts props []))).
      { intros n x Hx. destruct (in_dec (list_eq_dec N.eq_dec) n (map fst (bt_inserts props []))) as [|Hni]; auto.
        apply assoc_none_notin in Hni. congruence. }
      assert (H2 := two_keys (bt_inserts props []) (lit "items") (lit "next_page") ltac:(discriminate)
                      (sorted_nodup _ Hs) (Hin _ _ Ei) (Hin _ _ En)).
      intro n. split; [|intros [-> | ->]; apply last_in; eauto]. intro H. apply H2; auto.
      apply last_in in H as (x & H). apply (Hin n x). now rewrite Ha, H.
    + exists it. split; auto. now apply property_last.
    + exists np, o. split; auto. now apply property_last.
  - intros (props & -> & Hnames & (it & Hi & Ev) & (np & o & Hn & Eo & Es)). cbv zeta.
    assert (Hs := bt_inserts_sorted props [] (SSorted_nil _)).
    assert (Ha := fun n => bt_inserts_assoc props n [] (SSorted_nil _)). cbn [assoc] in Ha.
    apply property_last in Hi, Hn.
    assert (Ei : assoc (lit "items") (bt_inserts props []) = Some it) by now rewrite Ha, Hi.
    assert (En : assoc (lit "next_page") (bt_inserts props []) = Some np) by now rewrite Ha, Hn.
    assert (Hin : forall n, In n (map fst (bt_inserts props [])) <-> In n (map fst props)).
    { intro n. rewrite (last_in props n). split.
      - intro H. destruct (assoc_last n props) eqn:E; [eauto|]. exfalso.
        assert (E' : assoc n (bt_inserts props []) = None) by now rewrite Ha, E. now apply assoc_none_notin in E'.
      - intros (x & H). destruct (in_dec (list_eq_dec N.eq_dec) n (map fst (bt_inserts props []))) as [|Hni]; auto.
        apply assoc_none_notin in Hni. rewrite Ha, H in Hni. discriminate. }
    assert (El : length (bt_inserts props []) = 2%nat).
    { apply (two_keys _ (lit "items") (lit "next_page")); try easy.
      - now apply sorted_nodup.
      - apply Hin, Hnames. auto.
      - apply Hin, Hnames. auto.
      - intros n H. now apply Hnames, Hin. }
    rewrite El, En, Eo, Es, Ei, Ev. reflexivity.
Qed.

(** Typed successes. *)
Definition success_types (rs : list op_response) : list type_id :=
  flat_map (fun r => match o_status r, o_typ r with
                     | SCode c, RType t => if (200 <=? c) && (c <=? 299) then [t] else []
                     | SRange n, RType t => if n =? 2 then [t] else []
                     | _, _ => []
                     end) rs.
Lemma success_one r : (exists t, success_types [r] = [t] /\ typed_success r t) \/
  (success_types [r] = [] /\ forall t, ~ typed_success r t).
Proof.
  unfold success_types, typed_success. cbn [flat_map]. rewrite app_nil_r.
  destruct (o_status r) as [c|n|] eqn:Es, (o_typ r) as [t| | |] eqn:Et;
    try (right; split; [reflexivity|]; intros t' (H & [(c' & H2 & _)|H2]); congruence).
  - destruct ((200 <=? c) && (c <=? 299)) eqn:E.
    + left. exists t. split; auto. split; auto. left. exists c. split; auto. lia.
    + right. split; auto. intros t' (_ & [(c' & [= ->] & H)|H]); [lia|discriminate].
  - destruct (n =? 2) eqn:E.
    + left. exists t. split; auto. split; auto. right. f_equal. lia.
    + right. split; auto. intros t' (_ & [(c' & H & _)|[= ->]]); discriminate.
Qed.
Lemma success_cons r rs : success_types (r :: rs) = success_types [r] ++ success_types rs.
Proof. unfold success_types. cbn [flat_map]. now rewrite app_nil_r. Qed.
Lemma success_none rs : success_types rs = [] <-> forall r t, In r rs -> ~ typed_success r t.
Proof.
  induction rs as [|r rs IH]; [split; auto; easy|]. rewrite success_cons.
  destruct (success_one r) as [(t & -> & Ht)|(-> & Hn)].
  - split; [easy|]. intro H. exfalso. apply (H r t); auto. now left.
  - cbn [app]. rewrite IH. split; intros H x t' Hx; [destruct Hx as [<-|Hx]; auto|apply H; now right].
Qed.
Lemma success_single rs t : success_types rs = [t] <->
  exists pre r post, rs = pre ++ r :: post /\ typed_success r t /\
    forall r' t', In r' (pre ++ post) -> ~ typed_success r' t'.
Proof.
  induction rs as [|r rs IH].
  - split; [discriminate|]. intros (pre & r & post & E & _). now destruct pre.
  - rewrite success_cons. destruct (success_one r) as [(t0 & -> & Ht)|(-> & Hn)]; cbn [app].
    + split.
      * intros [= -> H]. exists [], r, rs. split; auto. split; auto. intros r' t' Hr. eapply success_none; eauto.
      * intros (pre & r' & post & E & Hr & Hno). destruct pre as [|x pre]; cbn in E; injection E as -> ->.
        -- f_equal; [destruct Ht as (H1 & _), Hr as (H2 & _); congruence|]. apply success_none. exact Hno.
        -- exfalso. apply (Hno x t0); auto. now left.
    + rewrite IH. split.
      * intros (pre & r' & post & -> & Hr & Hno). exists (r :: pre), r', post. split; auto. split; auto.
        intros x t' [<-|Hx]; auto.
      * intros (pre & r' & post & E & Hr & Hno). destruct pre as [|x pre]; cbn in E; injection E as -> ->.
        -- now apply Hn in Hr.
        -- exists pre, r', post. split; auto. split; auto. intros y t' Hy. apply Hno. now right.
Qed.

(** The two page parameters. *)
Definition page_params (ps : list op_param) : list op_param := filter is_page_param ps.
Lemma page_param_iff p : is_page_param p = true <->
  p_kind p = KQuery false /\ (p_api_name p = lit "page_token" \/ p_api_name p = lit "limit").
Proof.
  unfold is_page_param. destruct (p_kind p) as [|[]|r|ct]; try (split; [discriminate|now intros ([=] & _)]).
  rewrite orb_true_iff, !str_eqb_spec. tauto.
Qed.
Lemma page_params_two ps : NoDup (map p_api_name (page_params ps)) ->
  (length (page_params ps) = 2%nat <-> optional_query ps (lit "page_token") /\ optional_query ps (lit "limit")).
Proof.
  intro Hnd. rewrite <- (map_length p_api_name).
  assert (Hin : forall n, n = lit "page_token" \/ n = lit "limit" ->
    (In n (map p_api_name (page_params ps)) <-> optional_query ps n)).
  { intros n Hn. rewrite in_map_iff. unfold optional_query, page_params. split.
    - intros (p & E & Hp). apply filter_In in Hp as (Hp & Hpp). apply page_param_iff in Hpp as (Hk & _). exists p. auto.
    - intros (p & Hp & E & Hk). exists p. split; auto. apply filter_In. split; auto. apply page_param_iff. split; auto. now rewrite E. }
  assert (Hall : incl (map p_api_name (page_params ps)) [lit "page_token"; lit "limit"]).
  { intros n Hn. apply in_map_iff in Hn as (p & <- & Hp). apply filter_In in Hp as (_ & Hp).
    apply page_param_iff in Hp as (_ & [-> | ->]); cbn; auto. }
  split.
  - intro Hl. assert (Hi : incl [lit "page_token"; lit "limit"] (map p_api_name (page_params ps))).
    { apply NoDup_length_incl; auto. cbn. lia. }
    split; apply Hin; auto; apply Hi; cbn; auto.
  - intros (H1 & H2). apply Hin in H1; auto. apply Hin in H2; auto.
    assert (Hi : incl [lit "page_token"; lit "limit"] (map p_api_name (page_params ps))) by (intros n [<-|[<-|[]]]; auto).
    apply NoDup_incl_length in Hall; auto. apply NoDup_incl_length in Hi; [|repeat constructor; cbn; intuition discriminate].
    cbn in *. lia.
Qed.

Lemma pagination_data ts ext ps rs : NoDup (map p_api_name (page_params ps)) -> forall pg,
  dropshot_pagination_data ts ext ps rs = Some pg <->
  pageable ts ext ps rs (pg_item pg) /\
  exists v, assoc (lit "x-dropshot-pagination") ext = Some v /\ pg_first_page_params pg = first_page_params_of v.
Proof.
  intros Hnd [item fpp]. cbn [pg_item pg_first_page_params].
  assert (Hrw : dropshot_pagination_data ts ext ps rs =
    match assoc (lit "x-dropshot-pagination") ext with
    | None => None
    | Some value =>
        if negb (Nat.eqb (List.length (page_params ps)) 2) then None
        else if negb (forallb (fun p => match p_kind p with KQuery r => negb r | _ => true end) ps) then None
        else if existsb (fun p => match p_typ p with PRawBody => true | _ => false end) ps then None
        else match success_types rs with
             | [t] => match page_item ts t with Some i => Some (Pagination i (first_page_params_of value)) | None => None end
             | _ => None
             end
    end).
  { unfold dropshot_pagination_data, page_item. fold (page_params ps) (success_types rs).
    destruct (assoc (lit "x-dropshot-pagination") ext); auto.
    destruct (negb (Nat.eqb (List.length (page_params ps)) 2)); auto.
    destruct (negb (forallb _ ps)); auto. destruct (existsb _ ps); auto.
    destruct (success_types rs) as [|t [|]]; auto. destruct (ts_details ts t) as [[| | |props|]|]; auto. cbv zeta.
    destruct (negb _); auto. destruct (assoc (lit "next_page") _) as [np|]; auto.
    destruct (ts_details ts np) as [[o| | | |]|]; auto. destruct (ts_details ts o) as [[| | | |]|]; auto.
    destruct (assoc (lit "items") _) as [it|]; auto. now destruct (ts_details ts it) as [[| |v| |]|]. }
  rewrite Hrw. clear Hrw. split.
  - destruct (assoc (lit "x-dropshot-pagination") ext) as [v|] eqn:Ev; [|discriminate].
    destruct (Nat.eqb _ 2) eqn:E1; [|discriminate]. cbn [negb].
    destruct (forallb _ ps) eqn:E2; [|discriminate]. cbn [negb].
    destruct (existsb _ ps) eqn:E3; [discriminate|].
    destruct (success_types rs) as [|t [|]] eqn:E4; try discriminate.
    destruct (page_item ts t) as [i|] eqn:E5; [|discriminate]. intros [= -> <-]. split; [|eauto].
    apply Nat.eqb_eq, page_params_two in E1; auto. destruct E1 as (H1 & H2).
    split; auto.
    + destruct (in_dec (list_eq_dec N.eq_dec) (lit "x-dropshot-pagination") (map fst ext)) as [|Hni]; auto.
      apply assoc_none_notin in Hni. congruence.
    + intros p r Hp Ek. rewrite forallb_forall in E2. specialize (E2 p Hp). rewrite Ek in E2. now apply negb_true_iff.
    + intros p Hp Ht. enough (true = false) by discriminate. rewrite <- E3. symmetry. apply existsb_exists. exists p. now rewrite Ht.
    + apply success_single in E4 as (pre & r & post & -> & Hr & Hno). exists pre, r, post, t. split; auto. split; auto. split; auto.
      now apply page_item_iff.
  - intros ([Hext Htok Hlim Hq Hb (pre & r & post & t & Hrs & Hr & Hpt & Hno)] & v & Ev & ->). rewrite Ev.
    assert (E1 : length (page_params ps) = 2%nat) by (apply page_params_two; auto). rewrite E1. cbn [Nat.eqb negb].
    assert (E2 : forallb (fun p => match p_kind p with KQuery r => negb r | _ => true end) ps = true).
    { apply forallb_forall. intros p Hp. destruct (p_kind p) eqn:Ek; auto. now rewrite (Hq p _ Hp Ek). }
    rewrite E2. cbn [negb].
    assert (E3 : existsb (fun p => match p_typ p with PRawBody => true | _ => false end) ps = false).
    { destruct (existsb _ ps) eqn:E; auto. apply existsb_exists in E as (p & Hp & E). destruct (p_typ p) eqn:Et; [discriminate|].
      now apply Hb in Hp. }
    rewrite E3. assert (E4 : success_types rs = [t]) by (apply success_single; eauto 10). rewrite E4.
    apply page_item_iff in Hpt. now rewrite Hpt.
Qed.

(** The parameters of a processed operation. *)
Lemma nodup_filter {A} (f : A -> str) g l : NoDup (map f l) -> NoDup (map f (filter g l)).
Proof.
  induction l as [|a l IH]; cbn; auto. inversion 1 as [|? ? Hn Hnd]; subst. destruct (g a); cbn; auto.
  constructor; auto. intro Hi. apply Hn. apply in_map_iff in Hi as (x & <- & Hx). apply filter_In in Hx as (Hx & _). now apply in_map.
Qed.

Section Doc.
Context {snake pascal : str -> str} {ts : type_space} {comps : option components} {op : operation}
  {path method : str} {pp : list (ref_or parameter)} {m : op_method}.
Hypothesis Hp : process_operation snake pascal ts op comps path method pp = Ok m.

Lemma page_names : NoDup (map p_api_name (page_params (m_params m))).
Proof.
  destruct (process_operation_params _ _ _ _ _ _ _ _ _ Hp) as (oid & pi & ops & qs & body & _ & _ & _ & _ & _ & _ & Hsort & Hpres & _).
  apply sort_params_sorted in Hsort as (Hperm & _); auto.
  destruct Hpres as (front & b & E & Hf & Hnd & Hb). rewrite E in Hperm.
  assert (Hperm' : Permutation (page_params (m_params m)) (page_params (front ++ b))).
  { unfold page_params. clear -Hperm. induction Hperm; cbn; auto.
    - destruct (is_page_param x); auto.
    - destruct (is_page_param x), (is_page_param y); auto. constructor.
    - etransitivity; eauto. }
  apply (Permutation_map p_api_name) in Hperm'. apply Permutation_sym in Hperm'.
  eapply Permutation_NoDup; [exact Hperm'|]. unfold page_params. rewrite filter_app.
  assert (Eb : filter is_page_param b = []).
  { destruct Hb as [-> | (x & ct & -> & Ek)]; auto. cbn. unfold is_page_param. now rewrite Ek. }
  rewrite Eb, app_nil_r. now apply nodup_filter.
Qed.

Theorem recognised_iff item :
  (exists pg, m_paginated m = Some pg /\ pg_item pg = item) <->
  pageable ts (op_extensions op) (m_params m) (m_responses m) item.
Proof.
  destruct (process_operation_params _ _ _ _ _ _ _ _ _ Hp) as (oid & pi & ops & qs & body & _ & _ & _ & _ & _ & _ & _ & _ & _ & _ & Hpg & _).
  rewrite Hpg. split.
  - intros (pg & H & <-). now apply pagination_data in H; [|apply page_names].
  - intro H. assert (Hv : exists v, assoc (lit "x-dropshot-pagination") (op_extensions op) = Some v).
    { destruct (assoc (lit "x-dropshot-pagination") (op_extensions op)) as [v|] eqn:E; [eauto|].
      apply assoc_none_notin in E. now destruct H. }
    destruct Hv as (v & Hv). exists (Pagination item (first_page_params_of v)). split; auto.
    apply pagination_data; [apply page_names|]. eauto.
Qed.

Lemma token_name p : snake (lit "page_token") = lit "page_token" -> In p (m_params m) -> p_api_name p = lit "page_token" ->
  p_name p = lit "page_token".
Proof.
  intros Hs Hi Ea.
  destruct (process_operation_params _ _ _ _ _ _ _ _ _ Hp) as (oid & pi & ops & qs & body & _ & _ & _ & Hqs & Hbody & _ & Hsort & Hpres & _).
  apply sort_params_sorted in Hsort as (Hperm & _); auto.
  apply (Permutation_in _ Hperm) in Hi. apply in_app_iff in Hi as [Hi|Hi].
  - clear -Hqs Hi Ea Hs. induction Hqs as [|a b l l' Hab _ IH]; [easy|]. destruct Hi as [->|Hi]; auto.
    apply process_param_ok in Hab as (H1 & H2 & _). rewrite H2, <- H1, Ea. exact Hs.
  - destruct body as [b|]; [|easy]. destruct Hi as [->|[]]. apply get_body_param_ok in Hbody as (ct & _ & _ & E & _).
    rewrite E in Ea. discriminate.
Qed.

Lemma named_once (ps : list op_param) p q : NoDup (map p_name ps) -> In p ps -> In q ps -> p_name p = p_name q -> p = q.
Proof.
  induction ps as [|a l IH]; [easy|]. cbn. inversion 1 as [|? ? Hn Hnd]; subst.
  intros [->|Hp'] [->|Hq] E; auto; exfalso; apply Hn; [rewrite E|rewrite <- E]; now apply in_map.
Qed.

Lemma recognised_params pg : snake (lit "page_token") = lit "page_token" -> NoDup (map p_name (m_params m)) ->
  m_paginated m = Some pg -> paginated_params (m_params m).
Proof.
  intros Hs Hnd Hpg.
  assert (H : pageable ts (op_extensions op) (m_params m) (m_responses m) (pg_item pg)) by (apply recognised_iff; eauto).
  destruct H as [_ (pt & Hpt & Ea & Ek) _ Hq _ _]. split; [exact Hnd|]. split; [eauto|]. split; [|exact Hq].
  intros p Hi. split.
  - intro En. rewrite (named_once (m_params m) p pt); auto. rewrite En. symmetry. now apply token_name.
  - now apply token_name.
Qed.
End Doc.

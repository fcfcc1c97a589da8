(** Proofs about the generated client as a whole. *)
From Coq Require Import Sorted.
From Verif Require Import Base OasModel TemplateModel MethodModel OpModel RunModel BuilderModel FutureModel
  StreamModel SanitizeModel TemplateSpec TemplateProofs ParamProofs GenerateModel GenerateSpec ValidateProofs.

Lemma http_method_of_str m : http_method_of (http_method_str m) = Ok m.
Proof. destruct m; reflexivity. Qed.

Section Generate.
Variable U : unicode.
Variable add_ref_types : list (str * ref_or schema) -> outcome type_space.
Variable types : type_id -> option type_info.

(** ** One operation *)

Record facts (d : openapi) (e : doc_op) (m : op_method) : Prop := {
  fa_id : op_id (do_op e) <> None;
  fa_name : m_operation_id m = method_name U e;
  fa_tags : m_tags m = op_tags (do_op e);
  fa_method : m_method m = do_method e;
  fa_path : parse (do_path e) = Ok (m_path m);
  fa_summary : m_summary m = non_empty (op_summary (do_op e));
  fa_description : m_description m = non_empty (op_description (do_op e));
  fa_websocket : m_websocket m
    = match assoc (lit "x-dropshot-websocket") (op_extensions (do_op e)) with
      | Some _ => true | None => false end }.

Lemma processed_facts ts d e m : processed U ts d e m -> facts d e m.
Proof.
  unfold processed, process_operation. destruct (op_id (do_op e)) as [oid|] eqn:Eid; [|discriminate].
  intro H. apply obind_ok in H as (m0 & _ & H). apply obind_ok in H as (ops & _ & H).
  apply obind_ok in H as (ps & _ & H). apply obind_ok in H as (body & _ & H).
  apply obind_ok in H as (tmp & Hp & H). apply obind_ok in H as (ps' & _ & H).
  apply obind_ok in H as (rs & _ & H).
  destruct (_ && _) in H; [discriminate|].
  rewrite http_method_of_str in H. cbn [obind] in H. injection H as <-.
  split; cbn; auto; [congruence|]. unfold method_name. now rewrite Eid.
Qed.

Lemma Forall2_app_iff {A B} (R : A -> B -> Prop) l1 l2 m1 m2 :
  Forall2 R l1 m1 -> Forall2 R l2 m2 -> Forall2 R (l1 ++ l2) (m1 ++ m2).
Proof. apply Forall2_app. Qed.

Lemma mapM_map {A B C} (f : B -> outcome C) (g : A -> B) l : mapM f (map g l) = mapM (fun a => f (g a)) l.
Proof. induction l as [|a l IH]; cbn; auto. now rewrite IH. Qed.

Lemma process_paths ts d paths : forall k groups,
  mapM (process_path U ts (oa_components d)) paths = Ok groups ->
  Forall2 (processed U ts d) (doc_ops k paths) (concat groups).
Proof.
  induction paths as [|[path [r|i]] l IH]; intros k groups H; cbn [mapM] in H.
  - injection H as <-. constructor.
  - discriminate.
  - apply obind_ok in H as (g & Hg & H). apply obind_ok in H as (gs & Hgs & H). injection H as <-.
    cbn [doc_ops concat]. apply Forall2_app; [|now apply IH].
    unfold process_path in Hg. cbn [snd fst] in Hg.
    rewrite (path_item_iter_ops k path), mapM_map in Hg. apply mapM_ok in Hg.
    assert (Hin : Forall (fun e => do_path e = path /\ do_params e = pi_parameters i) (item_ops k path i)).
    { apply Forall_forall. intros e He. apply in_item_ops in He. tauto. }
    revert Hin. induction Hg as [|e m es ms He _ IH']; intro Hin; constructor.
    + inversion Hin as [|? ? [Hp Hq] _]; subst. unfold processed. rewrite Hq. exact He.
    + apply IH'. now inversion Hin.
Qed.

(** ** The whole run *)

Definition code_for (s : settings) (d : openapi) (ms : list op_method) : outcome operation_code :=
  match se_interface s, se_tag s with
  | Positional, Merged => generate_tokens_positional_merged types s ms
  | Positional, Separate =>
      Panic (lit "not implemented: positional arguments with separate tags are currently unsupported")
  | Builder, Merged => generate_tokens_builder_merged U types s ms
  | Builder, Separate =>
      generate_tokens_builder_separate U types s ms
        (bt_inserts (map (fun t => (tg_name t, t)) (oa_tags d)) [])
  end.

Record run_of (s : settings) (d : openapi) (g : generated_code) (ts : type_space) (ms : list op_method) : Prop := {
  ro_valid : validate_openapi U d = Ok tt;
  ro_ops : forall l, operations_in_order d l -> Forall2 (processed U ts d) l ms;
  ro_code : code_for s d ms = Ok (ge_code g);
  ro_doc : ge_doc g = client_docstring d;
  ro_fixed : ge_fixed g = fixed_methods s;
  ro_version : ge_version g = oa_version d;
  ro_futures : ge_futures g = existsb (fun m => match m_paginated m with Some _ => true | None => false end) ms;
  ro_websockets : ge_websockets g = existsb m_websocket ms }.

Lemma generate_run s d g : generate_tokens U add_ref_types types s d = Ok g ->
  exists ts ms, run_of s d g ts ms.
Proof.
  unfold generate_tokens. intro H. apply obind_ok in H as ([] & Hv & H).
  apply obind_ok in H as (ts & _ & H). apply obind_ok in H as (groups & Hg & H).
  apply obind_ok in H as (code & Hc & H). injection H as <-.
  exists ts, (concat groups). split; auto.
  intros l Hl. rewrite (in_order_unique d l Hl). now apply process_paths.
Qed.

Lemma method_names ts d l ms : Forall2 (processed U ts d) l ms ->
  map m_operation_id ms = map (method_name U) l.
Proof.
  induction 1 as [|e m l ms H _ IH]; cbn; auto. f_equal; auto.
  apply processed_facts in H. apply H.
Qed.

(** *** Positional *)

Lemma positional_items h m items : positional_method types h m = Ok items ->
  exists tys sb rest, mapM (sig_type_of types) (m_params m) = Ok tys /\ method_sig_body h m = Ok sb
    /\ items = ImMethod (m_operation_id m) (make_doc_comment m)
                 (combine (map p_name (m_params m)) tys) (existsb raw_body_param (m_params m)) sb :: rest
    /\ (m_paginated m = None /\ rest = []
        \/ m_paginated m <> None
           /\ rest = [ImStream (m_operation_id m ++ lit "_stream") (make_stream_doc_comment m)
                (filter (fun pt => negb (str_eqb (fst pt) (lit "page_token")))
                   (combine (map p_name (m_params m)) tys)) (existsb raw_body_param (m_params m))
                (m_operation_id m) (first_params (m_params m)) (step_params (m_params m))]).
Proof.
  unfold positional_method. intro H. apply obind_ok in H as (tys & Ht & H).
  apply obind_ok in H as (sb & Hs & H). exists tys, sb.
  destruct (m_paginated m) as [pg|] eqn:Ep.
  - destruct (types (pg_item pg)); [|discriminate]. injection H as <-.
    eexists. split; [eauto|]. split; [eauto|]. split; [reflexivity|]. right. split; [easy|reflexivity].
  - injection H as <-. exists []. auto 10.
Qed.

Definition method_item (h : hooks) (m : op_method) (i : impl_item) : Prop :=
  exists tys sb, mapM (sig_type_of types) (m_params m) = Ok tys /\ method_sig_body h m = Ok sb
    /\ i = ImMethod (m_operation_id m) (make_doc_comment m)
             (combine (map p_name (m_params m)) tys) (existsb raw_body_param (m_params m)) sb.

Lemma positional_own s ms c : generate_tokens_positional_merged types s ms = Ok c ->
  Forall2 (method_item (se_hooks s)) ms (own_methods c).
Proof.
  unfold generate_tokens_positional_merged. intro H. apply obind_ok in H as (items & Hi & H).
  injection H as <-. unfold own_methods. cbn [oc_impl]. apply mapM_ok in Hi.
  induction Hi as [|m its ms items H _ IH]; cbn; [constructor|].
  apply positional_items in H as (tys & sb & rest & Ht & Hs & -> & Hr).
  rewrite filter_app. cbn [filter is_stream negb].
  assert (filter (fun i => negb (is_stream i)) rest = []) as ->
    by (destruct Hr as [[_ ->]|[_ ->]]; reflexivity).
  cbn [app]. constructor; auto. exists tys, sb. auto.
Qed.

Lemma method_item_name h m i : method_item h m i -> im_name i = m_operation_id m.
Proof. intros (tys & sb & _ & _ & ->). reflexivity. Qed.

(** *** Builders *)

Definition struct_item (h : hooks) (m : op_method) (sc : struct_code) : Prop :=
  sc_name sc = sanitize U (m_operation_id m) Pascal /\ builder_struct types h m = Ok (sc_code sc).

Lemma structs_items h style ms structs : mapM (struct_of U types h style) ms = Ok structs ->
  Forall2 (struct_item h) ms structs.
Proof.
  intro H. apply mapM_ok in H. induction H as [|m sc ms structs H _ IH]; constructor; auto.
  unfold struct_of in H. apply obind_ok in H as (c & Hc & H). injection H as <-. split; auto.
Qed.

Lemma builder_structs s d ms c : se_interface s = Builder -> code_for s d ms = Ok c ->
  Forall2 (struct_item (se_hooks s)) ms (oc_builders c).
Proof.
  intros Hi H. unfold code_for in H. rewrite Hi in H. destruct (se_tag s).
  - unfold generate_tokens_builder_merged in H. apply obind_ok in H as (st & Hs & H).
    injection H as <-. eapply structs_items, Hs.
  - unfold generate_tokens_builder_separate in H. apply obind_ok in H as (st & Hs & H).
    destruct (builder_tags _ _ _). injection H as <-. eapply structs_items, Hs.
Qed.

(** *** Tags *)

Notation ext_map := (list (str * list impl_item)).
Definition lookup (t : str) (m : ext_map) : list impl_item :=
  match assoc t m with Some l => l | None => [] end.
Definition ext_ok (m : ext_map) : Prop := StronglySorted key_lt m /\ Forall (fun kv => snd kv <> []) m.

Lemma ext_push_in k x (m : ext_map) y : In y (ext_push k x m) -> fst y = k \/ In y m.
Proof.
  induction m as [|[k' l] m IH]; cbn.
  - intros [<-|[]]. auto.
  - destruct (str_cmp k k') eqn:E; cbn.
    + intros [<-|H]; auto. apply str_cmp_eq in E. auto.
    + intros [<-|[H|H]]; auto.
    + intros [H|H]; auto. apply IH in H. tauto.
Qed.

Lemma ext_push_ok k x (m : ext_map) : ext_ok m -> ext_ok (ext_push k x m).
Proof.
  intros [Hs Hf]. induction Hs as [|[k' l] m Hs IH Hk]; cbn.
  - split; repeat constructor; easy.
  - inversion Hf as [|? ? Hl Hm]; subst. cbn in Hl. destruct (str_cmp k k') eqn:E.
    + split; constructor; auto. cbn. now destruct l.
    + split; constructor; auto; [now constructor| |easy].
      constructor; auto. eapply Forall_impl; [|exact Hk]. intros y Hy. unfold key_lt in *. cbn in *.
      eapply str_cmp_lt_trans; eauto.
    + destruct (IH Hm) as [IH1 IH2]. split; constructor; auto. apply Forall_forall. intros y Hy.
      apply ext_push_in in Hy as [Hy|Hy].
      * unfold key_lt. cbn. rewrite Hy. now apply str_cmp_gt.
      * rewrite Forall_forall in Hk. auto.
Qed.

Lemma sorted_assoc_none k k' (l : list impl_item) (m : ext_map) :
  Forall (key_lt (k', l)) m -> str_cmp k k' = Lt -> assoc k m = None.
Proof.
  intros Hf Hlt. destruct (assoc k m) as [v|] eqn:E; auto. exfalso.
  assert (In (k, v) m) as Hi.
  { clear -E. induction m as [|[a b] m IH]; cbn in *; [discriminate|].
    destruct (str_eqb k a) eqn:Ek; [apply str_eqb_spec in Ek; injection E as ->; left; congruence|auto]. }
  rewrite Forall_forall in Hf. apply Hf in Hi. unfold key_lt in Hi. cbn in Hi.
  pose proof (str_cmp_lt_trans _ _ _ Hlt Hi) as Hc. now rewrite str_cmp_refl in Hc.
Qed.

Lemma ext_push_lookup k x (m : ext_map) t : ext_ok m ->
  lookup t (ext_push k x m) = lookup t m ++ if str_eqb t k then [x] else [].
Proof.
  intros [Hs _]. unfold lookup. induction Hs as [|[k' l] m Hs IH Hk]; cbn.
  - now destruct (str_eqb t k).
  - destruct (str_cmp k k') eqn:E; cbn.
    + apply str_cmp_eq in E. subst k'. destruct (str_eqb t k); [auto|now rewrite app_nil_r].
    + destruct (str_eqb t k) eqn:Ek.
      * apply str_eqb_spec in Ek. subst t.
        assert (str_eqb k k' = false) as ->
          by (apply str_eqb_neq; intros ->; now rewrite str_cmp_refl in E).
        now rewrite (sorted_assoc_none _ _ _ _ Hk E).
      * now rewrite app_nil_r.
    + destruct (str_eqb t k') eqn:Ek; auto.
      apply str_eqb_spec in Ek. subst t.
      assert (str_eqb k' k = false) as ->
        by (apply str_eqb_neq; intros ->; now rewrite str_cmp_refl in E).
      now rewrite app_nil_r.
Qed.

Lemma push_tags b tags : forall (m : ext_map), ext_ok m ->
  ext_ok (fold_left (fun ext tag => ext_push tag b ext) tags m)
  /\ forall t, lookup t (fold_left (fun ext tag => ext_push tag b ext) tags m)
               = lookup t m ++ repeat b (count_occ str_eq_dec tags t).
Proof.
  induction tags as [|a tags IH]; intros m Hm; cbn [fold_left count_occ repeat].
  - split; auto. intro t. now rewrite app_nil_r.
  - destruct (IH _ (ext_push_ok a b m Hm)) as [H1 H2]. split; auto. intro t.
    rewrite H2, ext_push_lookup, <- app_assoc by auto. f_equal.
    destruct (str_eq_dec a t) as [->|Hn].
    + now rewrite str_eqb_refl.
    + assert (str_eqb t a = false) as -> by (apply str_eqb_neq; congruence). reflexivity.
Qed.

Lemma tag_steps ms : forall base ext, ext_ok ext ->
  let '(base', ext') := fold_left (tag_step U) ms (base, ext) in
  ext_ok ext'
  /\ base' = base ++ map (builder_helper U) (filter (fun m => match m_tags m with [] => true | _ => false end) ms)
  /\ forall t, lookup t ext'
       = lookup t ext ++ flat_map (fun m => repeat (builder_helper U m) (count_occ str_eq_dec (m_tags m) t)) ms.
Proof.
  induction ms as [|m ms IH]; intros base ext Hok; cbn [fold_left].
  - split; auto. split; [cbn; now rewrite app_nil_r|]. intro t. cbn. now rewrite app_nil_r.
  - unfold tag_step at 2. destruct (m_tags m) as [|t0 ts] eqn:Et.
    + specialize (IH (base ++ [builder_helper U m]) ext Hok).
      destruct (fold_left (tag_step U) ms _) as [base' ext'].
      destruct IH as (H1 & H2 & H3). split; auto. cbn [filter]. rewrite Et.
      cbn [map]. split; [now rewrite H2, <- app_assoc|]. intro t. rewrite H3. cbn. now rewrite Et.
    + set (tags := t0 :: ts) in *.
      destruct (push_tags (builder_helper U m) tags ext Hok) as [P1 P2].
      specialize (IH base _ P1).
      destruct (fold_left (tag_step U) ms _) as [base' ext'].
      destruct IH as (H1 & H2 & H3). split; auto. cbn [filter]. rewrite Et. unfold tags at 1.
      split; auto. intro t. rewrite H3, P2, <- app_assoc. cbn [flat_map]. now rewrite Et.
Qed.

Lemma ext_nil_ok : ext_ok [].
Proof. split; constructor. Qed.

Lemma assoc_in {A} t (m : list (str * A)) l : StronglySorted key_lt m -> In (t, l) m -> assoc t m = Some l.
Proof.
  intros Hs Hi. induction Hs as [|[k v] m Hs IH Hk]; [easy|]. cbn.
  destruct Hi as [[= -> ->]|Hi].
  - now rewrite str_eqb_refl.
  - destruct (str_eqb t k) eqn:E; auto. apply str_eqb_spec in E. subst.
    rewrite Forall_forall in Hk. apply Hk in Hi. unfold key_lt in Hi. cbn in Hi.
    now rewrite str_cmp_refl in Hi.
Qed.

Lemma sorted_keys {A} (m : list (str * A)) : StronglySorted key_lt m -> StronglySorted str_lt (map fst m).
Proof.
  induction 1 as [|a m Hs IH Hk]; cbn; constructor; auto.
  apply Forall_map. eapply Forall_impl; [|exact Hk]. auto.
Qed.

Lemma assoc_fst_in {A} t (m : list (str * A)) v : assoc t m = Some v -> In (t, v) m.
Proof.
  induction m as [|[a b] m IH]; cbn; [discriminate|]. destruct (str_eqb t a) eqn:E.
  - apply str_eqb_spec in E. intros [= ->]. left. congruence.
  - auto.
Qed.

Lemma tag_info_description d t :
  tag_description d t
    (match assoc t (bt_inserts (map (fun t => (tg_name t, t)) (oa_tags d)) []) with
     | Some x => tg_description x | None => None end).
Proof.
  rewrite bt_inserts_assoc by constructor. cbn [assoc].
  assert (H : forall l, match assoc_last t (map (fun t => (tg_name t, t)) l) with
    | Some x => exists pre post, l = pre ++ x :: post /\ tg_name x = t
                 /\ (forall y, In y post -> tg_name y <> t)
    | None => forall y, In y l -> tg_name y <> t end).
  { induction l as [|x l IH]; cbn; [easy|].
    destruct (assoc_last t (map _ l)) as [y|].
    - destruct IH as (pre & post & -> & H1 & H2). exists (x :: pre), post. auto.
    - destruct (str_eqb t (tg_name x)) eqn:E.
      + apply str_eqb_spec in E. exists [], l. auto.
      + apply str_eqb_neq in E. intros y [<-|Hy]; auto. }
  specialize (H (oa_tags d)). destruct (assoc_last t _) as [x|].
  - destruct H as (pre & post & H1 & H2 & H3). apply td_entry with pre post; auto.
    rewrite H1. destruct x; cbn in *. congruence.
  - now apply td_none.
Qed.

(** The traits of [builder_tags]. *)
Lemma builder_tags_spec d ts l ms base traits : Forall2 (processed U ts d) l ms ->
  builder_tags U ms (bt_inserts (map (fun t => (tg_name t, t)) (oa_tags d)) []) = (base, traits) ->
  map im_name base = map (method_name U) (filter untagged l)
  /\ exists tags, StronglySorted str_lt tags
     /\ (forall t, In t tags <-> exists e, In e l /\ In t (op_tags (do_op e)))
     /\ Forall2 (fun t tr => tc_name tr = lit "Client" ++ pascal U t ++ lit "Ext"
                   /\ tc_impl tr = tc_methods tr
                   /\ tag_description d t (tc_doc tr)
                   /\ map im_name (tc_methods tr)
                      = flat_map (fun e => repeat (method_name U e) (times_tagged t e)) l) tags traits.
Proof.
  intros Hl H. unfold builder_tags in H.
  pose proof (tag_steps ms [] [] ext_nil_ok) as Hs.
  destruct (fold_left (tag_step U) ms ([], [])) as [base' ext] eqn:Ef.
  destruct Hs as ([Ho1 Ho2] & Hb & Hlk). injection H as <- <-. cbn [app] in Hb.
  assert (Hnames : forall t, map im_name (lookup t ext)
            = flat_map (fun e => repeat (method_name U e) (times_tagged t e)) l).
  { intro t. rewrite Hlk. cbn. clear -Hl. induction Hl as [|e m l ms H _ IH]; cbn; auto.
    apply processed_facts in H. rewrite map_app, IH. f_equal.
    unfold times_tagged. rewrite <- (fa_tags _ _ _ H).
    generalize (count_occ str_eq_dec (m_tags m) t) as n. induction n; cbn; auto. f_equal; auto.
    apply H. }
  split.
  - rewrite Hb. clear -Hl. induction Hl as [|e m l ms H _ IH]; cbn; auto.
    apply processed_facts in H. unfold untagged at 1. rewrite <- (fa_tags _ _ _ H).
    destruct (m_tags m); cbn; auto. f_equal; auto. apply H.
  - exists (map fst ext). split; [now apply sorted_keys|]. split.
    + intro t. split.
      * intro Hi. apply in_map_iff in Hi as ([k v] & <- & Hi). cbn.
        assert (Hne : v <> []) by (rewrite Forall_forall in Ho2; apply (Ho2 _ Hi)).
        pose proof (assoc_in _ _ _ Ho1 Hi) as Ha. specialize (Hnames k). unfold lookup in Hnames.
        rewrite Ha in Hnames. destruct v as [|x v]; [easy|]. cbn in Hnames.
        assert (Hx : In (im_name x) (flat_map (fun e => repeat (method_name U e) (times_tagged k e)) l))
          by (rewrite <- Hnames; now left).
        apply in_flat_map in Hx as (e & He & Hr). exists e. split; auto.
        unfold times_tagged in Hr. apply (count_occ_In str_eq_dec).
        destruct (count_occ str_eq_dec (op_tags (do_op e)) k); [easy|lia].
      * intros (e & He & Ht). destruct (assoc t ext) as [v|] eqn:Ea.
        { apply in_map_iff. exists (t, v). split; auto. now apply assoc_fst_in. }
        specialize (Hnames t). unfold lookup in Hnames. rewrite Ea in Hnames. cbn in Hnames.
        apply (count_occ_In str_eq_dec) in Ht.
        assert (Hx : In (method_name U e) (flat_map (fun e => repeat (method_name U e) (times_tagged t e)) l)).
        { apply in_flat_map. exists e. split; auto. unfold times_tagged.
          destruct (count_occ str_eq_dec (op_tags (do_op e)) t); [lia|]. now left. }
        rewrite <- Hnames in Hx. easy.
    + assert (Hall : forall k v, In (k, v) ext -> lookup k ext = v)
        by (intros k v Hi; unfold lookup; now rewrite (assoc_in _ _ _ Ho1 Hi)).
      assert (Hsub : forall sub, (forall kv, In kv sub -> In kv ext) ->
        Forall2 (fun t tr => tc_name tr = lit "Client" ++ pascal U t ++ lit "Ext"
                   /\ tc_impl tr = tc_methods tr
                   /\ tag_description d t (tc_doc tr)
                   /\ map im_name (tc_methods tr)
                      = flat_map (fun e => repeat (method_name U e) (times_tagged t e)) l)
          (map fst sub)
          (map (fun kv => TraitCode (trait_name U (fst kv))
                 (match assoc (fst kv) (bt_inserts (map (fun t => (tg_name t, t)) (oa_tags d)) []) with
                  | Some t => tg_description t | None => None end)
                 (snd kv) (snd kv)) sub)).
      { induction sub as [|[k v] sub IH]; intro Hi; cbn; constructor.
        - cbn. split; auto. split; auto. split; [apply tag_info_description|].
          rewrite <- Hnames, (Hall k v); auto. apply Hi. now left.
        - apply IH. intros kv Hkv. apply Hi. now right. }
      apply Hsub. auto.
Qed.

End Generate.

(** Which documents give a client that compiles. *)
From Coq Require Import Sorted.
From Verif Require Import Base OasModel TemplateModel TemplateSpec TemplateProofs SanitizeModel MethodModel OpModel BuilderModel
  StreamModel GenerateModel RequestSpec BuilderSpec GenerateSpec ParamProofs BuilderProofs ValidateProofs GenerateProofs GenerateCor
  CompileSpec CompileItemSpec CompileProofs CompileItemProofs.

Lemma nodup_app_iff {A} (l l' : list A) : NoDup (l ++ l') <-> NoDup l /\ NoDup l' /\ forall x, In x l -> ~ In x l'.
Proof.
  induction l as [|a l IH]; cbn [app In].
  - split; [intro H; repeat split; auto; constructor|easy].
  - rewrite !NoDup_cons_iff, IH, in_app_iff. split.
    + intros (H1 & H2 & H3 & H4). repeat split; auto. intros x [<-|Hx]; auto.
    + intros ((H1 & H2) & H3 & H4). split; [intros [H|H]; [auto|exact (H4 a (or_introl eq_refl) H)]|]. auto.
Qed.

Lemma nodup_repeats {A} (f : A -> str) (c : A -> nat) (l : list A) :
  NoDup (flat_map (fun a => repeat (f a) (c a)) l) <->
  (forall a, In a l -> c a <= 1)
  /\ forall i j a b, nth_error l i = Some a -> nth_error l j = Some b -> 0 < c a -> 0 < c b -> f a = f b -> i = j.
Proof.
  induction l as [|a l IH]; cbn [flat_map].
  - split; [|intros _; constructor]. intros _. split; [easy|]. intros [|i] j x y H; discriminate.
  - rewrite nodup_app_iff, IH. split.
    + intros (H1 & (H2 & H3) & H4).
      assert (Hone : c a <= 1).
      { destruct (c a) as [|[|n]]; [lia|lia|]. inversion H1 as [|? ? Hn _]. exfalso. apply Hn. now left. }
      assert (Hno : forall j b, nth_error l j = Some b -> 0 < c a -> 0 < c b -> f a <> f b).
      { intros j b Hb Ha Hc E. apply (H4 (f a)).
        - destruct (c a); [lia|now left].
        - apply in_flat_map. exists b. split; [eapply nth_error_In; eauto|]. rewrite E. destruct (c b); [lia|now left]. }
      split.
      * intros x [<-|Hx]; auto.
      * intros [|i] [|j] x y; cbn [nth_error]; intros Hx Hy Cx Cy E; auto.
        -- injection Hx as <-. now destruct (Hno j y Hy Cx Cy).
        -- injection Hy as <-. now destruct (Hno i x Hx Cy Cx).
        -- f_equal. eapply H3; eauto.
    + intros (H1 & H2). split.
      * pose proof (H1 a (or_introl eq_refl)). destruct (c a) as [|[|n]]; [constructor|repeat constructor; easy|lia].
      * split.
        -- split; [intros x Hx; apply H1; now right|]. intros i j x y Hx Hy Cx Cy E.
           assert (E' : S i = S j) by (eapply H2; eauto). now injection E'.
        -- intros x Hx Hin. apply in_flat_map in Hin as (b & Hb & Hin). apply repeat_spec in Hx as Ex. subst x.
           apply repeat_spec in Hin as Eb. apply In_nth_error in Hb as (j & Hj).
           assert (E' : 0 = S j); [|discriminate]. eapply (H2 0 (S j) a b); auto.
           ++ destruct (c a); [easy|lia].
           ++ destruct (c b); [easy|lia].
Qed.

Lemma types_run U add_ref_types types s d g ts : generate_tokens U add_ref_types types s d = Ok g ->
  add_ref_types (match oa_components d with Some c => co_schemas c | None => [] end) = Ok ts ->
  exists ms, run_of U types s d g ts ms.
Proof.
  unfold generate_tokens. intros H Ht. apply obind_ok in H as ([] & Hv & H).
  rewrite Ht in H. cbn [obind] in H. apply obind_ok in H as (groups & Hg & H).
  apply obind_ok in H as (code & Hc & H). injection H as <-.
  exists (concat groups). split; auto.
  intros l Hl. rewrite (in_order_unique d l Hl). now apply process_paths.
Qed.

Lemma same_name {A} (f : A -> str) l a b : NoDup (map f l) -> In a l -> In b l -> f a = f b -> a = b.
Proof.
  induction l as [|x l IH]; [easy|]. cbn. inversion 1 as [|? ? Hn Hnd]; subst.
  intros [->|Ha] [->|Hb] E; auto; exfalso; apply Hn; [rewrite E|rewrite <- E]; now apply in_map.
Qed.

Lemma forall_concat {A} (P : A -> Prop) ls : Forall P (concat ls) <-> Forall (Forall P) ls.
Proof. induction ls as [|l ls IH]; cbn; [split; constructor|]. rewrite Forall_app, IH, Forall_cons_iff. reflexivity. Qed.

Lemma nodup_names {A} (f h : A -> str) l : (forall x y, In x l -> In y l -> h x = h y -> f x = f y) -> NoDup (map f l) -> NoDup (map h l).
Proof.
  intros Hi. induction l as [|a l IH]; [constructor|]. cbn. inversion 1 as [|? ? Hn Hnd]; subst. constructor.
  - intro Hin. apply in_map_iff in Hin as (b & E & Hb). apply Hn. rewrite (Hi a b); [now apply in_map|now left|now right|auto].
  - apply IH; auto. intros x y Hx Hy. apply Hi; now right.
Qed.

Section Client.
Variable has : type_id -> rust_trait -> Prop.
Variable U : unicode.
Hypothesis Hsnake : snake U (lit "page_token") = lit "page_token".
Variables (types : type_id -> option type_info) (s : settings) (d : openapi) (g : generated_code) (ts : type_space) (ms : list op_method)
  (l : list doc_op).
Hypothesis R : run_of U types s d g ts ms.
Hypothesis F : Forall2 (processed U ts d) l ms.

Lemma pieces_of e m : processed U ts d e m -> exists ps, do_path e = show ps /\ lax ps.
Proof.
  intro H. destruct (process_operation_params _ _ _ _ _ _ _ _ _ H) as (oid & pi & ops' & qs & body & _ & _ & _ & _ & _ & Hpa & _).
  apply parse_accepts_iff. eauto.
Qed.

Lemma each_positional all : NoDup (map im_name all) -> forall items,
  Forall2 (fun m its => positional_method types (se_hooks s) m = Ok its) ms items -> incl (concat items) all ->
  Forall (item_ok has ts all []) (concat items) <->
  Forall2 (fun e m => exists ps sb, do_path e = show ps /\ lax ps /\ method_sig_body (se_hooks s) m = Ok sb /\ sound_positional has ts ps m sb) l ms.
Proof.
  intros Hnd items. rewrite forall_concat. clear R. revert items. induction F as [|e m l' ms' He F' IH]; intros items Hm Hall.
  - inversion Hm; subst. split; intro; constructor.
  - inversion Hm as [|? its ? items' Hits Hm']; subst. cbn [concat] in Hall.
    rewrite Forall_cons_iff.
    assert (IH' := IH F' items' Hm' (fun x Hx => Hall x (in_or_app _ _ _ (or_intror Hx)))).
    rewrite IH'. clear IH IH'.
    pose proof (positional_items _ _ _ _ Hits) as (tys & sb & rest & _ & Hsb & Eits & _).
    destruct (pieces_of e m He) as (ps & Eps & Hlax). pose proof He as Hp. unfold processed in Hp. rewrite Eps in Hp.
    assert (Hone : Forall (item_ok has ts all []) its <-> sound_positional has ts ps m sb).
    { apply (positional_ok_iff has Hp Hlax Hsnake Hsb Hits).
      - intros x Hx. apply Hall, in_or_app. now left.
      - intros n doc params generic code Hin En. rewrite Eits.
        set (own := ImMethod (m_operation_id m) _ _ _ _). left. symmetry.
        apply (same_name im_name all); auto. apply Hall, in_or_app. left. rewrite Eits. now left. }
    rewrite Hone. split.
    + intros (H1 & H2). constructor; auto. exists ps, sb. auto.
    + inversion 1 as [|? ? ? ? (ps' & sb' & E' & Hl' & Hs' & H1) H2]; subst. split; auto.
      rewrite Eps in E'. apply (show_inj ps ps' Hlax Hl') in E'. subst ps'. rewrite Hsb in Hs'. injection Hs' as <-. exact H1.
Qed.

Lemma positional_client : se_interface s = Positional ->
  file_ok has ts g <-> NoDup (fixed_methods s ++ flat_map positional_names ms) /\ all_sound (sound_positional has ts) s l ms.
Proof.
  intro Hi. pose proof (ro_code _ _ _ _ _ _ _ R) as Hc. unfold code_for in Hc. rewrite Hi in Hc.
  destruct (se_tag s); [|discriminate]. unfold generate_tokens_positional_merged in Hc. apply obind_ok in Hc as (items & Hm & Hc).
  apply mapM_ok in Hm.
  assert (Hnames : map im_name (concat items) = flat_map positional_names ms).
  { clear -Hm. induction Hm as [|m its ms items H _ IH]; [reflexivity|]. cbn [concat flat_map]. rewrite map_app, IH. f_equal.
    apply positional_items in H as (tys & sb & rest & _ & _ & -> & [(E & ->)|(E & ->)]); unfold positional_names.
    - now rewrite E.
    - destruct (m_paginated m); [reflexivity|easy]. }
  assert (Hfile : file_ok has ts g <-> NoDup (fixed_methods s ++ map im_name (concat items))
                  /\ Forall (item_ok has ts (concat items) []) (concat items)).
  { assert (E : ge_code g = OperationCode (concat items) [] [] [lit "Client"]) by congruence. rewrite <- (ro_fixed _ _ _ _ _ _ _ R). split.
    - intros [H1 H2 _ _ _ _ _]. rewrite E in H1, H2. cbn in H1, H2. auto.
    - intros (H1 & H2). constructor; rewrite E; cbn; auto; try constructor; try easy.
      + intros [H|[H|[H|[H|[]]]]]; discriminate.
      + repeat (constructor; [cbn; intuition discriminate|]). constructor. }
  rewrite Hfile, Hnames. unfold all_sound.
  assert (Heach : NoDup (flat_map positional_names ms) ->
    Forall (item_ok has ts (concat items) []) (concat items) <->
    Forall2 (fun e m => exists ps sb, do_path e = show ps /\ lax ps /\ method_sig_body (se_hooks s) m = Ok sb /\ sound_positional has ts ps m sb) l ms).
  { intro Hnd. rewrite <- Hnames in Hnd. apply each_positional; auto. now intro. }
  split; intros (H1 & H2); (split; [exact H1|]); apply Heach; auto; apply nodup_app_iff in H1; tauto.
Qed.

(** ** Builders *)

Lemma builders_sound structs : Forall2 (struct_item U types (se_hooks s)) ms structs ->
  Forall (fun sc => builder_code_ok has ts (sc_code sc)) structs <-> all_sound (sound_builder has ts types) s l ms.
Proof.
  unfold all_sound. clear R. revert structs. induction F as [|e m l' ms' He F' IH]; intros structs Hs.
  - inversion Hs; subst. split; intro; constructor.
  - inversion Hs as [|? sc ? structs' (_ & Hsc) Hs']; subst. rewrite Forall_cons_iff, (IH F' structs' Hs'). clear IH.
    destruct (builder_struct_ok _ _ _ _ Hsc) as (_ & Hsb & _).
    destruct (pieces_of e m He) as (ps & Eps & Hlax). pose proof He as Hp. unfold processed in Hp. rewrite Eps in Hp.
    rewrite (builder_ok_iff has Hp Hlax Hsnake Hsb Hsc). split.
    + intros (H1 & H2). constructor; auto. exists ps, (bc_send (sc_code sc)). auto.
    + inversion 1 as [|? ? ? ? (ps' & sb' & E' & Hl' & Hs1 & H1) H2]; subst. split; auto.
      rewrite Eps in E'. apply (show_inj ps ps' Hlax Hl') in E'. subst ps'. rewrite Hsb in Hs1. injection Hs1 as <-. exact H1.
Qed.

Lemma all_builder_ok : all_sound (sound_builder has ts types) s l ms -> forall m, In m ms -> builder_ok types m.
Proof.
  intros Ha m Hm. destruct (forall2_right _ _ _ _ Ha Hm) as (e & _ & ps & sb & _ & _ & _ & [S1 S2 _ _ _ _ _ _]).
  split; [exact (so_names _ _ _ _ S1)|exact S2].
Qed.

Lemma mentions_iff m sc n : struct_item U types (se_hooks s) m sc -> builder_ok types m ->
  In n (mentions (sc_code sc)) <->
  n = lit "Result" \/ (n = lit "String" /\ m_params m <> [])
  \/ (n = lit "Option" /\ exists p, In p (m_params m) /\ is_required (p_kind p) = false)
  \/ (n = lit "From" /\ exists p t, In p (m_params m) /\ nested types p t)
  \/ (n = lit "Unpin" /\ m_paginated m <> None).
Proof.
  intros (_ & Hc) Hok. pose proof (cases Hc Hok) as Hf. destruct (builder_struct_ok _ _ _ _ Hc) as (_ & _ & _ & Hst).
  set (c := sc_code sc) in *. unfold mentions. rewrite !in_app_iff.
  assert (E1 : In n [lit "Result"] <-> n = lit "Result") by (cbn; intuition).
  assert (E2 : In n (if bc_fields c then [] else [lit "String"]) <-> n = lit "String" /\ m_params m <> []).
  { clear -Hf. destruct Hf; cbn; intuition; easy. }
  assert (E3 : In n (flat_map (fun f => match bf_type f with FtOptional => [lit "Option"] | _ => [] end) (bc_fields c))
               <-> n = lit "Option" /\ exists p, In p (m_params m) /\ is_required (p_kind p) = false).
  { rewrite in_flat_map. split.
    - intros (f & Hi & Hn). destruct (forall2_right _ _ _ _ Hf Hi) as (p & Hp & Hcase & _).
      destruct Hcase as [t ty _ E _ _ _ _ _|ty _ Ho E _ _ _ _|ty _ _ E _ _ _ _]; rewrite E in Hn; try easy. destruct Hn as [<-|[]].
      split; auto. exists p. split; auto. unfold is_optional in Ho. now apply negb_true_iff.
    - intros (-> & p & Hp & Hr). destruct (forall2_left _ _ _ _ Hf Hp) as (f & Hi & Hcase & _). exists f. split; auto.
      destruct Hcase as [t ty ((ct & Hk) & _) _ _ _ _ _ _|ty _ Ho E _ _ _ _|ty _ Ho _ _ _ _ _].
      + rewrite Hk in Hr. discriminate.
      + rewrite E. now left.
      + unfold is_optional in Ho. rewrite Hr in Ho. discriminate. }
  assert (E4 : In n (flat_map (fun f => match bf_setter f with StBody _ _ => [lit "From"] | _ => [] end) (bc_fields c))
               <-> n = lit "From" /\ exists p t, In p (m_params m) /\ nested types p t).
  { rewrite in_flat_map. split.
    - intros (f & Hi & Hn). destruct (forall2_right _ _ _ _ Hf Hi) as (p & Hp & Hcase & _).
      destruct Hcase as [t ty Hne _ _ _ _ _ E|ty _ _ _ _ _ _ E|ty _ _ _ _ _ _ [E|E]]; rewrite E in Hn; try easy. destruct Hn as [<-|[]]. eauto.
    - intros (-> & p & t & Hp & Hne). destruct (forall2_left _ _ _ _ Hf Hp) as (f & Hi & Hcase & _). exists f. split; auto.
      destruct Hcase as [t' ty _ _ _ _ _ _ E|ty Hno _ _ _ _ _ _|ty Hno _ _ _ _ _ _]; [rewrite E; now left| |]; now destruct (Hno t). }
  assert (E5 : In n (match bc_stream c with Some _ => [lit "Unpin"] | None => [] end) <-> n = lit "Unpin" /\ m_paginated m <> None).
  { destruct (m_paginated m); rewrite Hst; cbn; intuition; easy. }
  rewrite E1, E2, E3, E4, E5. reflexivity.
Qed.

Lemma struct_names_of xs structs : Forall2 (struct_item U types (se_hooks s)) xs structs ->
  map sc_name structs = map (fun m => pascal U (m_operation_id m)) xs.
Proof. induction 1 as [|m sc ms' structs' (E & _) _ IH]; cbn; [reflexivity|]. rewrite IH, E. reflexivity. Qed.

Lemma structs_named structs : Forall2 (struct_item U types (se_hooks s)) ms structs -> (forall m, In m ms -> builder_ok types m) ->
  NoDup (imports ++ map sc_name structs) /\ (forall a b, In a structs -> In b structs -> ~ In (sc_name a) (mentions (sc_code b)))
  <-> NoDup (map (fun m => pascal U (m_operation_id m)) ms) /\ (forall m, In m ms -> ~ reserved types ms (pascal U (m_operation_id m))).
Proof.
  intros Hs Hok. rewrite (struct_names_of ms _ Hs), nodup_app_iff. split.
  - intros ((_ & Hnd & Himp) & Hsh). split; [exact Hnd|]. intros m Hm Hr.
    destruct (forall2_left _ _ _ _ Hs Hm) as (a & Ha & Ea & _). unfold pascal in Hr. rewrite <- Ea in Hr.
    assert (Hb : forall m' sc, In m' ms -> struct_item U types (se_hooks s) m' sc -> In sc structs -> ~ In (sc_name a) (mentions (sc_code sc)))
      by (intros; now apply Hsh).
    assert (Hget : forall m', In m' ms -> exists sc, In sc structs /\ struct_item U types (se_hooks s) m' sc)
      by (intros m' Hm'; exact (forall2_left _ _ _ _ Hs Hm')).
    destruct Hr as [Hr|[Hr|[(Hr & m' & Hm' & Hx)|[(Hr & m' & p & Hm' & Hx)|[(Hr & m' & p & t & Hm' & Hx)|(Hr & m' & Hm' & Hx)]]]]].
    + apply (Himp _ Hr). rewrite Ea. apply in_map_iff. exists m. auto.
    + destruct (Hget m Hm) as (sc & Hsc & Hi). apply (Hb m sc Hm Hi Hsc). apply (mentions_iff m sc _ Hi (Hok m Hm)). now left.
    + destruct (Hget m' Hm') as (sc & Hsc & Hi). apply (Hb m' sc Hm' Hi Hsc). apply (mentions_iff m' sc _ Hi (Hok m' Hm')). auto.
    + destruct (Hget m' Hm') as (sc & Hsc & Hi). apply (Hb m' sc Hm' Hi Hsc). apply (mentions_iff m' sc _ Hi (Hok m' Hm')). eauto 6.
    + destruct (Hget m' Hm') as (sc & Hsc & Hi). apply (Hb m' sc Hm' Hi Hsc). apply (mentions_iff m' sc _ Hi (Hok m' Hm')). eauto 8.
    + destruct (Hget m' Hm') as (sc & Hsc & Hi). apply (Hb m' sc Hm' Hi Hsc). apply (mentions_iff m' sc _ Hi (Hok m' Hm')). auto 6.
  - intros (Hnd & Hr). split; [split; [|split; [exact Hnd|]]|].
    + repeat (constructor; [cbn; intuition discriminate|]). constructor.
    + intros x Hx Hin. apply in_map_iff in Hin as (m & <- & Hm). apply (Hr m Hm). now left.
    + intros a b Ha Hb Hin. destruct (forall2_right _ _ _ _ Hs Ha) as (m & Hm & Ea & _).
      destruct (forall2_right _ _ _ _ Hs Hb) as (m' & Hm' & Hi). apply (mentions_iff m' b _ Hi (Hok m' Hm')) in Hin.
      apply (Hr m Hm). unfold reserved, pascal. rewrite <- Ea.
      destruct Hin as [H|[(H & Hx)|[(H & p & Hx)|[(H & p & t & Hx)|(H & Hx)]]]]; rewrite H.
      * auto.
      * right. right. left. split; auto. exists m'. auto.
      * right. right. right. left. split; auto. exists m', p. tauto.
      * right. right. right. right. left. split; auto. exists m', p, t. tauto.
      * right. right. right. right. right. split; auto. exists m'. auto.
Qed.

Lemma helpers_ok all structs xs : incl (map (fun m => pascal U (m_operation_id m)) xs) structs ->
  Forall (item_ok has ts all structs) (map (builder_helper U) xs).
Proof.
  intro H. apply Forall_map, Forall_forall. intros m Hm. apply io_builder, H. apply in_map_iff. exists m. auto.
Qed.

Lemma helper_names xs : map im_name (map (builder_helper U) xs) = map m_operation_id xs.
Proof. rewrite map_map. reflexivity. Qed.

Lemma repeat_names t xs :
  map im_name (flat_map (fun m => repeat (builder_helper U m) (count_occ str_eq_dec (m_tags m) t)) xs)
  = flat_map (fun m => repeat (m_operation_id m) (count_occ str_eq_dec (m_tags m) t)) xs.
Proof.
  induction xs as [|m xs IH]; [reflexivity|]. cbn [flat_map]. rewrite map_app, IH. f_equal.
  generalize (count_occ str_eq_dec (m_tags m) t) as n. induction n as [|n IHn]; [reflexivity|]. cbn [repeat map]. now rewrite IHn.
Qed.

Lemma ext_name_inj a b : lit "Client" ++ a ++ lit "Ext" = lit "Client" ++ b ++ lit "Ext" -> a = b.
Proof. intro H. apply app_inv_head in H. now apply app_inv_tail in H. Qed.

(** The traits of the tags. *)
Lemma tags_iff xs info base traits structs : builder_tags U xs info = (base, traits) ->
  incl (map (fun m => pascal U (m_operation_id m)) xs) structs ->
  base = map (builder_helper U) (filter (fun m => match m_tags m with [] => true | _ => false end) xs)
  /\ (NoDup (map tc_name traits)
      /\ Forall (fun t => NoDup (map im_name (tc_methods t)) /\ tc_impl t = tc_methods t
                  /\ Forall (item_ok has ts (tc_methods t) structs) (tc_methods t)) traits
      <-> sound_tags (pascal U) xs).
Proof.
  intros H Hst. unfold builder_tags in H. pose proof (tag_steps U xs [] [] ext_nil_ok) as Hs.
  destruct (fold_left (tag_step U) xs ([], [])) as [base' ext] eqn:Ef. destruct Hs as ([Ho1 Ho2] & Hb & Hlk).
  injection H as <- <-. cbn [app] in Hb. split; [exact Hb|].
  assert (Hall : forall k v, In (k, v) ext -> v = flat_map (fun m => repeat (builder_helper U m) (count_occ str_eq_dec (m_tags m) k)) xs).
  { intros k v Hi. specialize (Hlk k). unfold lookup in Hlk. now rewrite (assoc_in _ _ _ Ho1 Hi) in Hlk. }
  assert (Hin : forall t, In t (map fst ext) <-> exists m, In m xs /\ In t (m_tags m)).
  { intro t. split.
    - intro Hi. apply in_map_iff in Hi as ([k v] & <- & Hi). cbn. rewrite Forall_forall in Ho2. pose proof (Ho2 _ Hi) as Hne. cbn in Hne.
      rewrite (Hall k v Hi) in Hne. destruct (flat_map _ xs) as [|x v'] eqn:E; [easy|].
      assert (Hx : In x (x :: v')) by now left. rewrite <- E in Hx. apply in_flat_map in Hx as (m & Hm & Hr). exists m. split; auto.
      apply (count_occ_In str_eq_dec). destruct (count_occ _ _ _); [easy|lia].
    - intros (m & Hm & Ht). specialize (Hlk t). unfold lookup in Hlk. destruct (assoc t ext) as [v|] eqn:Ea.
      + apply in_map_iff. exists (t, v). split; auto. now apply assoc_fst_in.
      + cbn [assoc app] in Hlk. apply (count_occ_In str_eq_dec) in Ht.
        assert (Hx : In (builder_helper U m) (flat_map (fun m => repeat (builder_helper U m) (count_occ str_eq_dec (m_tags m) t)) xs)).
        { apply in_flat_map. exists m. split; auto. destruct (count_occ str_eq_dec (m_tags m) t); [lia|]. now left. }
        rewrite <- Hlk in Hx. easy. }
  assert (Hkeys : NoDup (map fst ext)).
  { clear -Ho1. induction Ho1 as [|[k v] m Hs IH Hk]; cbn; constructor; auto. intro Hi. apply in_map_iff in Hi as ((k' & v') & E & Hi).
    cbn in E. subst k'. rewrite Forall_forall in Hk. apply Hk in Hi. unfold key_lt in Hi. cbn in Hi. now rewrite str_cmp_refl in Hi. }
  rewrite map_map, Forall_map. cbn [tc_name tc_methods tc_impl].
  assert (Hmethods : forall t, NoDup (map im_name (flat_map (fun m => repeat (builder_helper U m) (count_occ str_eq_dec (m_tags m) t)) xs)) <->
     (forall a, In a xs -> count_occ str_eq_dec (m_tags a) t <= 1)
     /\ forall i j a b, nth_error xs i = Some a -> nth_error xs j = Some b -> 0 < count_occ str_eq_dec (m_tags a) t
          -> 0 < count_occ str_eq_dec (m_tags b) t -> m_operation_id a = m_operation_id b -> i = j).
  { intro t. rewrite repeat_names. apply (nodup_repeats m_operation_id (fun m => count_occ str_eq_dec (m_tags m) t)). }
  split.
  - intros (H1 & H2). rewrite Forall_forall in H2.
    assert (Hnd : forall t m, In m xs -> In t (m_tags m) ->
      NoDup (map im_name (flat_map (fun m => repeat (builder_helper U m) (count_occ str_eq_dec (m_tags m) t)) xs))).
    { intros t m Hm Ht. assert (Hi : In t (map fst ext)) by (apply Hin; eauto). apply in_map_iff in Hi as ([k v] & E & Hi). cbn in E. subst k.
      rewrite <- (Hall t v Hi). exact (proj1 (H2 _ Hi)). }
    constructor.
    + intros m n t u Hm Hn Ht Hu E. assert (It : In t (map fst ext)) by (apply Hin; eauto). assert (Iu : In u (map fst ext)) by (apply Hin; eauto).
      apply in_map_iff in It as (kt & <- & It). apply in_map_iff in Iu as (ku & <- & Iu).
      f_equal. apply (same_name (fun x => trait_name U (fst x)) ext); auto. unfold trait_name. unfold pascal in E. now rewrite E.
    + intros m Hm. apply (NoDup_count_occ str_eq_dec). intro t. destruct (in_dec str_eq_dec t (m_tags m)) as [Ht|Ht].
      * exact (proj1 (proj1 (Hmethods t) (Hnd t m Hm Ht)) m Hm).
      * apply (count_occ_not_In str_eq_dec) in Ht. lia.
    + intros i j m n t Hi Hj Ht Hu E.
      apply (proj2 (proj1 (Hmethods t) (Hnd t m (nth_error_In _ _ Hi) Ht)) i j m n); auto; now apply (count_occ_In str_eq_dec).
  - intros [S1 S2 S3]. split.
    + apply (nodup_names fst); auto. intros x y Hx Hy E. apply ext_name_inj in E.
      assert (It : In (fst x) (map fst ext)) by now apply in_map. assert (Iu : In (fst y) (map fst ext)) by now apply in_map.
      apply Hin in It as (m & Hm & Ht). apply Hin in Iu as (n & Hn & Hu). exact (S1 m n _ _ Hm Hn Ht Hu E).
    + apply Forall_forall. intros (k & v) Hi. cbn [snd]. rewrite (Hall k v Hi). split; [|split; [reflexivity|]].
      * apply Hmethods. split.
        -- intros a Ha. apply (NoDup_count_occ str_eq_dec), S2, Ha.
        -- intros i j a b Hi' Hj Ha Hb' E. apply (S3 i j a b k); auto; now apply (count_occ_In str_eq_dec).
      * apply Forall_forall. intros x Hx. apply in_flat_map in Hx as (m & Hm & Hr). apply repeat_spec in Hr. subst x.
        apply io_builder, Hst. apply in_map_iff. exists m. auto.
Qed.

Lemma builder_client : se_interface s = Builder ->
  file_ok has ts g <->
  NoDup (fixed_methods s ++ client_methods s ms)
  /\ (se_tag s = Separate -> sound_tags (pascal U) ms)
  /\ NoDup (map (fun m => pascal U (m_operation_id m)) ms)
  /\ (forall m, In m ms -> ~ reserved types ms (pascal U (m_operation_id m)))
  /\ all_sound (sound_builder has ts types) s l ms.
Proof.
  intro Hi. pose proof (ro_code _ _ _ _ _ _ _ R) as Hc. pose proof (builder_structs _ _ _ _ _ _ Hi Hc) as Hst.
  pose proof (builders_sound _ Hst) as Hb.
  assert (Hn : all_sound (sound_builder has ts types) s l ms -> _) by exact (fun H => structs_named _ Hst (all_builder_ok H)).
  assert (Himpl : map im_name (oc_impl (ge_code g)) = client_methods s ms
     /\ Forall (item_ok has ts (oc_impl (ge_code g)) (map sc_name (oc_builders (ge_code g)))) (oc_impl (ge_code g))
     /\ (NoDup (map tc_name (oc_traits (ge_code g)))
         /\ Forall (fun t => NoDup (map im_name (tc_methods t)) /\ tc_impl t = tc_methods t
              /\ Forall (item_ok has ts (tc_methods t) (map sc_name (oc_builders (ge_code g)))) (tc_methods t)) (oc_traits (ge_code g))
         <-> (se_tag s = Separate -> sound_tags (pascal U) ms))).
  { rewrite (struct_names_of ms _ Hst). unfold client_methods. unfold code_for in Hc. rewrite Hi in Hc. destruct (se_tag s).
    - unfold generate_tokens_builder_merged in Hc. apply obind_ok in Hc as (st & _ & Hc).
      assert (E : ge_code g = OperationCode (map (builder_helper U) ms) [] st [lit "Client"]) by congruence. rewrite E. cbn [oc_impl oc_traits map].
      rewrite helper_names. split; [|split].
      + f_equal. clear. induction ms as [|m xs IH]; [reflexivity|]. cbn [filter]. now rewrite <- IH.
      + apply helpers_ok. now intro.
      + split; [discriminate|]. intros _. split; constructor.
    - unfold generate_tokens_builder_separate in Hc. apply obind_ok in Hc as (st & _ & Hc).
      destruct (builder_tags U ms _) as (base & traits) eqn:Et.
      assert (E : ge_code g = OperationCode base traits st (lit "Client" :: map tc_name traits)) by congruence. rewrite E. cbn [oc_impl oc_traits].
      destruct (tags_iff ms _ _ _ (map (fun m => pascal U (m_operation_id m)) ms) Et (fun x H => H)) as (-> & Hiff). rewrite helper_names.
      split; [|split].
      + apply f_equal, filter_ext. intro m. now destruct (m_tags m).
      + apply helpers_ok. intros x Hx. apply in_map_iff in Hx as (m & <- & Hm). apply filter_In in Hm as (Hm & _). apply in_map_iff. exists m. auto.
      + rewrite Hiff. split; auto. }
  destruct Himpl as (I1 & I2 & I3). rewrite <- I1, <- (ro_fixed _ _ _ _ _ _ _ R). split.
  - intros [H1 H2 H3 H4 H5 H6 H7]. apply Hb in H7. destruct (proj1 (Hn H7) (conj H5 H6)) as (H8 & H9). pose proof (proj1 I3 (conj H3 H4)) as H10. auto 6.
  - intros (H1 & H2 & H3 & H4 & H5). destruct (proj2 (Hn H5) (conj H3 H4)) as (H6 & H7). destruct (proj2 I3 H2) as (H8 & H9).
    constructor; auto. now apply Hb.
Qed.
End Client.

(** C44-C47: which schemas are converted, documents, null, annotations and
    bounds. *)
From Coq Require Import QArith ZifyBool ZifyN.
From Verif Require Import Base OasModel TemplateModel MethodModel OpModel RefSpec RefProofs ParamSpec
  ParamProofs ToSchemaModel SchemaSpec SchemaProofs SchemaMain.
Local Open Scope N_scope.

(** ** Which schemas are converted *)

Definition converts (s : schema) : Prop := exists j, convert s = Ok j.

Lemma mapM_total {A B} (f : A -> outcome B) l :
  (exists l', mapM f l = Ok l') <-> Forall (fun a => exists b, f a = Ok b) l.
Proof.
  induction l as [|a l IH]; cbn.
  - split; [constructor|]. eauto.
  - split.
    + intros (l' & H). apply obind_ok in H as (b & Hb & H). apply obind_ok in H as (bs & Hbs & H).
      constructor; eauto. apply IH. eauto.
    + intro H. inversion H as [|? ? (b & Hb) Hl]; subst. apply IH in Hl as (bs & Hbs).
      rewrite Hb. cbn. rewrite Hbs. cbn. eauto.
Qed.

Lemma ref_total r : (exists j, convert_ref_with convert r = Ok j) <-> Forall converts (ref_schemas r).
Proof.
  destruct r as [n|s]; cbn.
  - split; [constructor|]. eauto.
  - split; intro H; [constructor; auto|now inversion H].
Qed.

Lemma refs_total l :
  (exists js, mapM (convert_ref_with convert) l = Ok js) <-> Forall converts (flat_map ref_schemas l).
Proof.
  rewrite mapM_total. induction l as [|r l IH]; cbn; [split; constructor|].
  rewrite Forall_app, <- IH, <- ref_total. split; intro H.
  - inversion H; subst; auto.
  - destruct H. constructor; auto.
Qed.

Lemma props_total l :
  (exists js, mapM (fun kv => do j <- convert_ref_with convert (snd kv); Ok (fst kv, j)) l = Ok js)
  <-> Forall converts (property_schemas l).
Proof.
  rewrite mapM_total. unfold property_schemas. induction l as [|[n r] l IH]; cbn; [split; constructor|].
  rewrite Forall_app, <- IH, <- ref_total. split; intro H.
  - inversion H as [|? ? (b & Hb) Hl]; subst. split; auto. cbn in Hb.
    apply obind_ok in Hb as (j & Hj & _). eauto.
  - destruct H as [(j & Hj) Hl]. constructor; auto. cbn. rewrite Hj. cbn. eauto.
Qed.

Lemma opt_total o :
  (exists js, oconvert (convert_ref_with convert) o = Ok js)
  <-> Forall converts (flat_map ref_schemas (optional o)).
Proof.
  destruct o as [r|]; cbn.
  - rewrite app_nil_r, <- ref_total. split.
    + intros (js & H). apply obind_ok in H as (j & Hj & _). eauto.
    + intros (j & Hj). rewrite Hj. cbn. eauto.
  - split; [constructor|]. eauto.
Qed.

Lemma additional_total o :
  (exists js, oconvert (fun ap => match ap with
                                  | ApAny b => Ok (JsBool b)
                                  | ApSchema r => convert_ref_with convert r
                                  end) o = Ok js)
  <-> Forall converts (additional_schemas o).
Proof.
  destruct o as [[b|r]|]; cbn.
  - split; [constructor|]. eauto.
  - rewrite <- ref_total. split.
    + intros (js & H). apply obind_ok in H as (j & Hj & _). eauto.
    + intros (j & Hj). rewrite Hj. cbn. eauto.
  - split; [constructor|]. eauto.
Qed.

Lemma any_bound_total w b e : (exists p, any_bound w b e = Ok p) <-> (e = Some true -> b <> None).
Proof.
  destruct b as [b|], e as [[]|]; cbn; split; eauto; try easy; intros; try congruence.
  - destruct H as (p & H). discriminate.
  - exfalso. now apply H.
Qed.

Lemma type_named_total t : (exists i, type_named t = Some i) <-> In t known_types.
Proof.
  unfold type_named, known_types. split.
  - intros (i & H). repeat match type of H with
    | (if str_eqb t ?x then _ else _) = _ =>
        let E := fresh in destruct (str_eqb t x) eqn:E;
        [apply str_eqb_spec in E; subst t; cbn; auto 10|]
    end. discriminate.
  - intro H. repeat (destruct H as [<-|H]; [eexists; reflexivity|]). destruct H.
Qed.

Lemma any_type_total typ nl a b c d :
  (exists ty, any_type typ nl a b c d = Ok ty) <-> (forall t, typ = Some t -> In t known_types).
Proof.
  unfold any_type. destruct typ as [t|].
  - split.
    + intros (ty & H) t' E. injection E as <-. apply type_named_total.
      destruct (type_named t); [eauto|discriminate].
    + intro H. specialize (H t eq_refl). apply type_named_total in H as (i & ->). eauto.
  - split; [easy|eauto].
Qed.

Lemma convert_one d k : converts (Schema d k) <-> Forall converts (children k) /\ translatable k.
Proof.
  destruct k as [t|t|t|t|t|e|l|l|l|r|a]; cbn [children translatable];
    try solve [split; [split; constructor|]; intros _; eexists; reflexivity].
  - rewrite Forall_app, <- props_total, <- additional_total. unfold converts. cbn [convert]. split.
    + intros (j & H). apply obind_ok in H as (ps & Hp & H). apply obind_ok in H as (ad & Ha & H). eauto.
    + intros [[(ps & Hp) (ad & Ha)] _]. rewrite Hp. cbn [obind]. rewrite Ha. cbn [obind]. eauto.
  - rewrite <- opt_total. unfold converts. cbn [convert]. split.
    + intros (j & H). apply obind_ok in H as (ps & Hp & H). eauto.
    + intros [(ps & Hp) _]. rewrite Hp. cbn [obind]. eauto.
  - rewrite <- refs_total. unfold converts. cbn [convert]. split.
    + intros (j & H). apply obind_ok in H as (ps & Hp & H). eauto.
    + intros [(ps & Hp) _]. rewrite Hp. cbn [obind]. eauto.
  - rewrite <- refs_total. unfold converts. cbn [convert]. split.
    + intros (j & H). apply obind_ok in H as (ps & Hp & H). eauto.
    + intros [(ps & Hp) _]. rewrite Hp. cbn [obind]. eauto.
  - rewrite <- refs_total. unfold converts. cbn [convert]. split.
    + intros (j & H). apply obind_ok in H as (ps & Hp & H). eauto.
    + intros [(ps & Hp) _]. rewrite Hp. cbn [obind]. eauto.
  - rewrite <- ref_total. unfold converts. cbn [convert]. split.
    + intros (j & H). apply obind_ok in H as (ps & Hp & H). eauto.
    + intros [(ps & Hp) _]. rewrite Hp. cbn [obind]. eauto.
  - (* any *)
    destruct (any_bare a && (is_nil (an_enumeration a) || only_null (an_enumeration a))) eqn:B.
    { assert (Hj : converts (Schema d (SkAny a))).
      { unfold converts. cbn [convert]. apply andb_prop in B as [B1 B2]. rewrite B1. cbn [andb].
        destruct (is_nil (an_enumeration a)); [eauto|]. cbn [orb] in B2. rewrite B2. eauto. }
      split; auto. intros _. apply andb_prop in B as [B _].
      apply bare_iff in B as (E1 & E2 & E3 & E4 & E5 & E6). rewrite E1, E5, E6.
      split; [|repeat split; easy].
      unfold value_keywords, object_keywords, array_keywords, combines in E2, E3.
      repeat rewrite orb_false_iff in E2. repeat rewrite orb_false_iff in E3.
      destruct E2 as ((_ & ((((O1 & O2) & O3) & O4) & O5)) & (((A1 & A2) & A3) & A4)),
        E3 as (((C1 & C2) & C3) & C4).
      repeat match goal with
      | H : present ?o = false |- _ => destruct o; [discriminate|clear H]
      | H : some_of ?l = false |- _ => destruct l; [clear H|discriminate]
      end. constructor. }
    rewrite andb_orb_distrib_r, orb_false_iff in B. destruct B as [B1 B2].
    rewrite !Forall_app, <- props_total, <- additional_total, <- !opt_total, <- !refs_total.
    rewrite <- (any_type_total (an_typ a) (sd_nullable d) (object_keywords a) (array_keywords a)
      (number_keywords a) (string_keywords a)).
    rewrite <- (any_bound_total (lit "minimum")), <- (any_bound_total (lit "maximum")).
    split.
    + intros (j & H).
      destruct (convert_any_general _ _ _ H B1 B2)
        as (number & props & add & items & ones & alls & anys & no & ty & Hparts & Hty & _).
      inversion Hparts as [? ? ? ? ? ? ? ? Hnum Hp Ha Hi Ho Hal Han Hno]; subst.
      rewrite (any_number_some a) in Hty by auto.
      unfold any_number in Hnum. apply obind_ok in Hnum as (mi & Hmi & Hnum).
      apply obind_ok in Hnum as (ma & Hma & _).
      repeat match goal with |- _ /\ _ => split end; eexists; eassumption.
    + intros (((ps & Hp) & (ad & Ha) & (it & Hi) & (on & Ho) & (al & Hal) & (an & Han) & (no & Hno))
              & (ty & Hty) & (mi & Hmi) & (ma & Hma)).
      unfold converts. cbn [convert]. rewrite B1, B2. unfold any_number. rewrite Hmi. cbn [obind].
      rewrite Hma. cbn [obind]. rewrite Hp. cbn [obind]. rewrite Ha. cbn [obind].
      rewrite Hi. cbn [obind]. rewrite Ho. cbn [obind]. rewrite Hal. cbn [obind].
      rewrite Han. cbn [obind]. rewrite Hno. cbn [obind]. cbv zeta.
      match goal with |- exists j, obind ?x ?f = Ok j =>
        assert (Hx : exists ty, x = Ok ty);
        [apply any_type_total; exact (proj1 (any_type_total _ _ _ _ _ _) (ex_intro _ ty Hty))
        |destruct Hx as (ty' & ->)] end.
      cbn [obind]. destruct ty' as [[[]|]|]; eauto.
      match goal with |- context [if ?c then Ok _ else Ok _] => destruct c; eauto end.
Qed.

Theorem convert_total s : converts s <-> forall t, nested t s -> translatable (s_kind t).
Proof.
  induction s as [d k IH] using schema_children_ind. rewrite convert_one. rewrite Forall_forall in IH.
  split.
  - intros [Hc Hk] t Ht. rewrite Forall_forall in Hc. inversion Ht as [|? u Hu Hn]; subst; auto.
    cbn in Hu. apply (proj1 (IH u Hu) (Hc u Hu)). auto.
  - intro H. split.
    + apply Forall_forall. intros u Hu. apply IH; auto. intros t Ht. apply H. econstructor 2; eauto.
    + apply (H (Schema d k)). constructor.
Qed.

(** ** Documents *)

Section Meaning.
Variable refs : str -> json -> bool.
Variable matches : str -> str -> bool.
Variable format_ok : str -> json -> bool.
Notation accepts := (accepts refs matches format_ok).
Notation accepts_ref := (accepts_ref refs matches format_ok).
Notation valid := (valid refs matches format_ok).
Notation of_format := (of_format format_ok).
Notation all_kept := (all_kept refs matches format_ok).

Theorem to_schema_kept r j : (forall s, r = Item s -> all_kept s) -> to_schema r = Ok j ->
  forall v, valid j v = accepts_ref r v.
Proof.
  intros HK H v. destruct r as [n|s].
  - injection H as <-. reflexivity.
  - apply convert_kept; auto.
Qed.

Theorem documents_agree prefix defs jdefs :
  (forall name s, In (name, Item s) defs -> all_kept s) ->
  Forall2 (fun nd nj => fst nd = fst nj /\ to_schema (snd nd) = Ok (snd nj)) defs jdefs ->
  (meant_by_document refs matches format_ok prefix defs
   <-> meant_by_converted refs matches format_ok prefix jdefs).
Proof.
  intros HK H. unfold meant_by_document, meant_by_converted, meaning_of.
  induction H as [|[n r] [n' j] defs jdefs [E Hj] Hf IH]; cbn in *; [split; easy|]. subst n'.
  assert (IH' := IH (fun name s Hi => HK name s (or_intror Hi))). clear IH.
  assert (Hs : forall v, valid j v = accepts_ref r v).
  { apply to_schema_kept; auto. intros s ->. apply (HK n). auto. }
  split; intros G m x [Ex|Hi].
  - injection Ex as <- <-. intro v. rewrite Hs. apply G. auto.
  - apply (proj1 IH'); auto.
  - injection Ex as <- <-. intro v. rewrite <- Hs. apply G. auto.
  - apply (proj2 IH'); auto.
Qed.

(** ** Null *)

Lemma null_num o : num_ok o JNull = true.
Proof. now destruct o. Qed.
Lemma null_str o : str_ok matches o JNull = true.
Proof. now destruct o. Qed.
Lemma null_arr o : arr_ok refs matches format_ok o JNull = true.
Proof. now destruct o as [[]|]. Qed.
Lemma null_obj o : obj_ok refs matches format_ok o JNull = true.
Proof. now destruct o as [[]|]. Qed.

Lemma nullable_typed m t fmt en num st arr obj ex m' ex' v :
  given en (fun l => listed l JNull) = true ->
  valid (JsObject (SchemaObject m (instance_type t true) fmt en None num st arr obj None ex)) v
  = is_null v
    || valid (JsObject (SchemaObject m' (instance_type t false) fmt en None num st arr obj None ex')) v.
Proof.
  intro He. rewrite !valid_object, !instance_type_ok. cbn [andb].
  rewrite <- !andb_assoc. rewrite orb_false_r. apply null_shortcut.
  intro E. apply is_null_eq in E. subst v.
  now rewrite He, null_given_format, null_num, null_str, null_arr, null_obj.
Qed.

Lemma enum_listed_null {A} (f : option A -> json) (l : list (option A)) : f None = JNull ->
  null_listed l -> given (convert_vec f l) (fun l => listed l JNull) = true.
Proof.
  intros Hf [->|H]; auto. destruct l as [|x l]; [easy|]. apply listed_null. rewrite <- Hf.
  now apply in_map.
Qed.

Lemma nullable_wrapper m subs ex m' ex' v :
  valid (JsObject (SchemaObject m' None None None subs None None None None None ex')) JNull = false ->
  valid (JsObject (oneof_nullable_wrapper
    (SchemaObject m None None None subs None None None None None ex) true)) v
  = is_null v || valid (JsObject (oneof_nullable_wrapper
    (SchemaObject m' None None None subs None None None None None ex') false)) v.
Proof.
  intro H. rewrite wrapper_valid. unfold oneof_nullable_wrapper. rewrite !valid_object in *.
  destruct (is_null v) eqn:E; [|apply xorb_false_l].
  apply is_null_eq in E. subst v. rewrite H. reflexivity.
Qed.

(** The general conversion of a schema without type, with and without null. *)
Lemma any_pair {d d' a j j'} :
  sd_nullable d = true -> sd_nullable d' = false -> an_typ a = None ->
  any_bare a && (is_nil (an_enumeration a) || only_null (an_enumeration a)) = false ->
  convert (Schema d (SkAny a)) = Ok j -> convert (Schema d' (SkAny a)) = Ok j' ->
  forall v, valid j v =
    (if value_keywords a || negb (combines a)
     then (object_keywords a && has_type IObject v
           || (array_keywords a || number_keywords a || string_keywords a) && has_type IArray v
           || is_null v) && valid j' v
     else xorb (is_null v) (valid j' v)).
Proof.
  intros Hn Hn' Et B H H' v. rewrite andb_orb_distrib_r, orb_false_iff in B. destruct B as [B1 B2].
  destruct (convert_any_general _ _ _ H B1 B2)
    as (number & props & add & items & ones & alls & anys & no & ty & Hparts & Hty & ->).
  destruct (convert_any_general _ _ _ H' B1 B2)
    as (number' & props' & add' & items' & ones' & alls' & anys' & no' & ty' & Hparts' & Hty' & ->).
  inversion Hparts as [? ? ? ? ? ? ? ? Q1 Q2 Q3 Q4 Q5 Q6 Q7 Q8]; subst.
  inversion Hparts' as [? ? ? ? ? ? ? ? R1 R2 R3 R4 R5 R6 R7 R8]; subst.
  assert (number' = number) by congruence. assert (props' = props) by congruence.
  assert (add' = add) by congruence. assert (items' = items) by congruence.
  assert (ones' = ones) by congruence. assert (alls' = alls) by congruence.
  assert (anys' = anys) by congruence. assert (no' = no) by congruence. subst.
  rewrite Hn, Hn', Et in *. unfold any_type in Hty, Hty'. injection Hty as <-. injection Hty' as <-.
  cbv zeta. rewrite (any_number_some a number) by auto.
  unfold value_keywords.
  destruct (object_keywords a) eqn:KO, (array_keywords a) eqn:KA, (number_keywords a) eqn:KN,
    (string_keywords a) eqn:KS; cbn [inferred app orb];
    try (rewrite !valid_object; cbn [type_ok given existsb];
         destruct v; cbn [has_type orb andb is_null]; try reflexivity;
         rewrite ?andb_true_l; reflexivity).
  destruct (combines a) eqn:KC; cbn [negb].
  - now rewrite wrapper_valid, !valid_object.
  - rewrite !valid_object. cbn [type_ok given existsb]. destruct v; reflexivity.
Qed.

Theorem untyped_nullable d d' a j j' :
  sd_nullable d = true -> sd_nullable d' = false -> an_typ a = None ->
  only_lists a = false \/ an_enumeration a <> [] /\ an_enumeration a <> [JNull] ->
  convert (Schema d (SkAny a)) = Ok j -> convert (Schema d' (SkAny a)) = Ok j' ->
  forall v, valid j v =
    (if value_keywords a || negb (combines a)
     then (object_keywords a && has_type IObject v
           || (array_keywords a || number_keywords a || string_keywords a) && has_type IArray v
           || is_null v) && valid j' v
     else xorb (is_null v) (valid j' v)).
Proof.
  intros Hn Hn' Et HB. apply any_pair; auto.
  destruct (any_bare a) eqn:B; [|reflexivity]. cbn [andb].
  apply bare_iff in B as (_ & E2 & E3 & E4 & E5 & E6).
  destruct HB as [HB|[H1 H2]].
  - exfalso. unfold only_lists in HB. now rewrite E2, E3, E4, E5, E6 in HB.
  - destruct (an_enumeration a) as [|x l]; [easy|]. cbn [is_nil orb].
    destruct (only_null (x :: l)) eqn:E; auto. apply only_null_iff in E. easy.
Qed.

Lemma any_valid d a j : convert (Schema d (SkAny a)) = Ok j ->
  any_bare a && (is_nil (an_enumeration a) || only_null (an_enumeration a)) = false ->
  exists number props add items ones alls anys no,
    any_parts a number props add items ones alls anys no
    /\ exists ty, any_type (an_typ a) (sd_nullable d) (object_keywords a) (array_keywords a)
         (is_some number) (string_keywords a) = Ok ty
    /\ (match ty with Some (Single INull) => False | _ => True end ->
    forall v, valid j v = type_ok ty v
      && (given (convert_vec id (an_enumeration a)) (fun l => listed l v)
          && given (an_format a) (fun f => of_format f v)
          && subs_ok refs matches format_ok (any_subs a alls anys ones no) v && num_ok number v
          && str_ok matches (any_string a) v && arr_ok refs matches format_ok (any_array a items) v
          && obj_ok refs matches format_ok (any_object a props add) v)).
Proof.
  intros H B. rewrite andb_orb_distrib_r, orb_false_iff in B. destruct B as [B1 B2].
  destruct (convert_any_general _ _ _ H B1 B2)
    as (number & props & add & items & ones & alls & anys & no & ty & Hparts & Hty & ->).
  exists number, props, add, items, ones, alls, anys, no. split; auto. exists ty. split; auto.
  intros Hm v. cbv zeta. rewrite !andb_assoc.
  destruct ty as [[[]|]|]; try easy; now rewrite valid_object.
Qed.

Lemma any_typed_pair d a j j' j'' tn : sd_nullable d = true -> an_typ a = Some tn ->
  convert (Schema d (SkAny a)) = Ok j -> convert (Schema (not_nullable d) (SkAny a)) = Ok j' ->
  convert (Schema plain_data (SkAny (untyped a))) = Ok j'' -> valid j'' JNull = true ->
  forall v, valid j v = is_null v || valid j' v.
Proof.
  intros Hn Et H H' H'' HA v.
  assert (B : any_bare a && (is_nil (an_enumeration a) || only_null (an_enumeration a)) = false).
  { unfold any_bare. now rewrite Et. }
  destruct (any_valid _ _ _ H B) as (number & props & add & items & ones & alls & anys & no & Hp & ty & Hty & Hv).
  destruct (any_valid _ _ _ H' B)
    as (number' & props' & add' & items' & ones' & alls' & anys' & no' & Hp' & ty' & Hty' & Hv').
  inversion Hp as [? ? ? ? ? ? ? ? Q1 Q2 Q3 Q4 Q5 Q6 Q7 Q8]; subst.
  inversion Hp' as [? ? ? ? ? ? ? ? R1 R2 R3 R4 R5 R6 R7 R8]; subst.
  assert (number' = number) by congruence. assert (props' = props) by congruence.
  assert (add' = add) by congruence. assert (items' = items) by congruence.
  assert (ones' = ones) by congruence. assert (alls' = alls) by congruence.
  assert (anys' = anys) by congruence. assert (no' = no) by congruence. subst.
  assert (HN : given (convert_vec id (an_enumeration a)) (fun l => listed l JNull) = true
               /\ subs_ok refs matches format_ok (any_subs a alls anys ones no) JNull = true).
  { destruct (any_bare (untyped a) && (is_nil (an_enumeration (untyped a))
               || only_null (an_enumeration (untyped a)))) eqn:B'.
    - apply andb_prop in B' as [B1 B2]. apply bare_iff in B1 as (_ & _ & C & _).
      change (combines a = false) in C. unfold any_subs. rewrite C. cbn [an_enumeration untyped] in B2.
      split; auto. apply orb_prop in B2 as [B2|B2].
      + now destruct (an_enumeration a).
      + apply only_null_iff in B2. now rewrite B2.
    - destruct (any_valid _ _ _ H'' B')
        as (n1 & p1 & a1 & i1 & o1 & l1 & y1 & no1 & Hp1 & ty1 & Hty1 & Hv1).
      inversion Hp1 as [? ? ? ? ? ? ? ? S1 S2 S3 S4 S5 S6 S7 S8]; subst.
      cbn in Hty1. injection Hty1 as <-. cbn [an_properties an_additional an_items an_one_of an_all_of
        an_any_of an_not untyped] in *.
      assert (o1 = ones) by congruence. assert (l1 = alls) by congruence.
      assert (y1 = anys) by congruence. assert (no1 = no) by congruence. subst.
      rewrite Hv1 in HA by exact I. cbn [type_ok given andb] in HA.
      do 4 (apply andb_prop in HA as [HA _]). apply andb_prop in HA as [HA HA2].
      apply andb_prop in HA as [HA _]. auto. }
  destruct HN as [HN1 HN2].
  unfold any_type in Hty, Hty'. rewrite Et in Hty, Hty'.
  destruct (type_named tn) as [i|] eqn:Ei; [|discriminate]. injection Hty as <-. injection Hty' as <-.
  assert (Hi : i <> INull).
  { unfold type_named in Ei.
    repeat match type of Ei with (if ?c then _ else _) = _ => destruct c; [congruence|] end.
    discriminate. }
  rewrite Hv by now rewrite Hn. rewrite Hv' by now destruct i.
  rewrite !instance_type_ok, Hn. change (sd_nullable (not_nullable d)) with false. cbn [andb].
  apply null_shortcut. intro E. apply is_null_eq in E. subst v.
  now rewrite HN1, HN2, null_given_format, null_num, null_str, null_arr, null_obj.
Qed.

Theorem nullable_adds_null d k j j' j'' : sd_nullable d = true ->
  convert (Schema d k) = Ok j -> convert (Schema (not_nullable d) k) = Ok j' ->
  convert (Schema plain_data (no_type k)) = Ok j'' ->
  null_addable k (valid j' JNull) (valid j'' JNull) ->
  forall v, valid j v = is_null v || valid j' v.
Proof.
  intros Hn H H' H'' HA v.
  destruct k as [t|t|t|t|t|e|l|l|l|r|a].
  - cbn [convert] in H, H'. injection H as <-. injection H' as <-. rewrite Hn.
    apply nullable_typed. now apply enum_listed_null.
  - cbn [convert] in H, H'. injection H as <-. injection H' as <-. rewrite Hn.
    apply nullable_typed. now apply enum_listed_null.
  - cbn [convert] in H, H'. injection H as <-. injection H' as <-. rewrite Hn.
    apply nullable_typed. now apply enum_listed_null.
  - cbn [convert] in H, H'. apply obind_ok in H as (ps & Hp & H). apply obind_ok in H as (ad & Ha & H).
    rewrite Hp in H'. cbn [obind] in H'. rewrite Ha in H'. cbn [obind] in H'.
    injection H as <-. injection H' as <-. rewrite Hn. now apply nullable_typed.
  - cbn [convert] in H, H'. apply obind_ok in H as (ps & Hp & H).
    rewrite Hp in H'. cbn [obind] in H'. injection H as <-. injection H' as <-. rewrite Hn.
    now apply nullable_typed.
  - cbn [convert] in H, H'. injection H as <-. injection H' as <-. rewrite Hn.
    apply nullable_typed. now apply enum_listed_null.
  - cbn [convert] in H, H'. apply obind_ok in H as (ps & Hp & H).
    rewrite Hp in H'. cbn [obind] in H'. injection H as <-. injection H' as <-. rewrite Hn.
    now apply nullable_wrapper.
  - cbn [convert] in H, H'. apply obind_ok in H as (ps & Hp & H).
    rewrite Hp in H'. cbn [obind] in H'. injection H as <-. injection H' as <-. rewrite Hn.
    now apply nullable_wrapper.
  - cbn [convert] in H, H'. apply obind_ok in H as (ps & Hp & H).
    rewrite Hp in H'. cbn [obind] in H'. injection H as <-. injection H' as <-. rewrite Hn.
    now apply nullable_wrapper.
  - cbn [convert] in H, H'. apply obind_ok in H as (ps & Hp & H).
    rewrite Hp in H'. cbn [obind] in H'. injection H as <-. injection H' as <-. rewrite Hn.
    now apply nullable_wrapper.
  - destruct (an_typ a) as [tn|] eqn:Et.
    + cbn [null_addable] in HA. rewrite Et in HA. eapply any_typed_pair; eauto.
    + cbn [null_addable] in HA. rewrite Et in HA. destruct HA as [Hv HA].
      destruct (any_bare a && (is_nil (an_enumeration a) || only_null (an_enumeration a))) eqn:B.
      * apply andb_prop in B as [B1 B2]. cbn [convert] in H, H'. rewrite B1 in H, H'. cbn [andb] in H, H'.
        destruct (is_nil (an_enumeration a)).
        -- injection H as <-. injection H' as <-. cbn. now rewrite orb_true_r.
        -- cbn [orb] in B2. rewrite B2 in H, H'. injection H as <-. injection H' as <-.
           now destruct v.
      * rewrite (any_pair (d := d) (d' := not_nullable d) (a := a) (j := j) (j' := j')) by auto.
        rewrite Hv. cbn [orb].
        unfold value_keywords in Hv. repeat rewrite orb_false_iff in Hv.
        destruct Hv as (((K1 & K2) & K3) & K4). rewrite K1, K2, K3, K4. cbn [orb andb].
        destruct HA as [(C & HA)|[(C & HA)|(C & HA)]]; rewrite C; cbn [negb].
        -- destruct (is_null v) eqn:E; cbn; [|now destruct (valid j' v)].
           apply is_null_eq in E. subst v. now rewrite HA.
        -- assert (valid j' v = is_null v) as ->; [|now destruct (is_null v)].
           destruct (any_valid _ _ _ H' B) as (n1 & p1 & a1 & i1 & o1 & l1 & y1 & no1 & Hp1 & ty1 & Hty1 & Hv1).
           rewrite Et in Hty1. cbn in Hty1. injection Hty1 as <-. rewrite Hv1 by exact I.
           assert (Hnum : n1 = None).
           { inversion Hp1. assert (is_some n1 = false) as Hs by (rewrite (any_number_some a) by auto; auto).
             now destruct n1. }
           assert (Hstr : any_string a = None).
           { unfold any_string. rewrite !none_present, <- !negb_orb, if_negb. fold (string_keywords a).
             now rewrite K1. }
           unfold any_subs, any_array, any_object. rewrite C, K3, K4, HA, Hnum, Hstr.
           cbn [convert_vec map id given type_ok subs_ok num_ok str_ok arr_ok obj_ok andb].
           rewrite listed_only_null, !andb_true_r. destruct (is_null v) eqn:E; auto.
           apply is_null_eq in E. subst v. apply null_given_format.
        -- exfalso. destruct HA as (E1 & E2 & E3 & E4).
           assert (any_bare a = true) as Hb.
           { apply bare_iff. unfold value_keywords. rewrite K1, K2, K3, K4. auto 7. }
           rewrite Hb, E1 in B. discriminate.
Qed.
End Meaning.

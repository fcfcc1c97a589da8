(** C45, C47: annotations and bounds. *)
From Coq Require Import QArith ZifyBool ZifyN.
From Verif Require Import Base OasModel TemplateModel MethodModel OpModel RefSpec RefProofs ParamSpec
  ParamProofs ToSchemaModel DoubleSpec DoubleProofs SchemaSpec SchemaProofs SchemaMain.
Local Open Scope N_scope.

(** ** Annotations *)

Lemma metadata_of_annotations d :
  match metadata_of d with
  | Some m => m
  | None => Metadata None None None false false false []
  end = Metadata (sd_title d) (sd_description d) (sd_default d) (sd_deprecated d)
          (sd_read_only d) (sd_write_only d) (optional (sd_example d)).
Proof.
  unfold metadata_of, reduce_metadata. cbn.
  destruct (sd_title d), (sd_description d), (sd_default d), (sd_deprecated d), (sd_read_only d),
    (sd_write_only d), (sd_example d); reflexivity.
Qed.

Local Ltac flat :=
  split; [reflexivity|split; [reflexivity|split; [reflexivity|split;
    [intros _; reflexivity|intro; discriminate]]]].

Lemma converted_fields d k j : convert (Schema d k) = Ok j ->
  exists o, j = JsObject o /\ so_reference o = None /\ so_metadata o = metadata_of d
    /\ so_extensions o = extensions_of d
    /\ (becomes_choice (Schema d k) = false -> so_format o = document_format k)
    /\ (becomes_choice (Schema d k) = true ->
        exists i, second_choice o = Some i /\ so_format i = document_format k).
Proof.
  intro H. unfold becomes_choice. cbn [s_kind s_data].
  destruct k as [t|t|t|t|t|e|l|l|l|r|a]; cbn [document_format].
  1-3,6: cbn [convert] in H; injection H as <-; eexists; split; [reflexivity|flat].
  - cbn [convert] in H. apply obind_ok in H as (ps & Hp & H). apply obind_ok in H as (ad & Ha & H).
    injection H as <-; eexists; split; [reflexivity|flat].
  - cbn [convert] in H. apply obind_ok in H as (ps & Hp & H).
    injection H as <-; eexists; split; [reflexivity|flat].
  - cbn [convert] in H. apply obind_ok in H as (ps & Hp & H). injection H as <-. eexists.
    split; [reflexivity|]. destruct (sd_nullable d); [|flat]. cbn. split; [reflexivity|split; [reflexivity|split; [reflexivity|split; [intro; discriminate|]]]]; intros _; eexists; split; reflexivity.
  - cbn [convert] in H. apply obind_ok in H as (ps & Hp & H). injection H as <-. eexists.
    split; [reflexivity|]. destruct (sd_nullable d); [|flat]. cbn. split; [reflexivity|split; [reflexivity|split; [reflexivity|split; [intro; discriminate|]]]]; intros _; eexists; split; reflexivity.
  - cbn [convert] in H. apply obind_ok in H as (ps & Hp & H). injection H as <-. eexists.
    split; [reflexivity|]. destruct (sd_nullable d); [|flat]. cbn. split; [reflexivity|split; [reflexivity|split; [reflexivity|split; [intro; discriminate|]]]]; intros _; eexists; split; reflexivity.
  - cbn [convert] in H. apply obind_ok in H as (ps & Hp & H). injection H as <-. eexists.
    split; [reflexivity|]. destruct (sd_nullable d); [|flat]. cbn. split; [reflexivity|split; [reflexivity|split; [reflexivity|split; [intro; discriminate|]]]]; intros _; eexists; split; reflexivity.
  - destruct (any_bare a && is_nil (an_enumeration a)) eqn:B1.
    { cbn [convert] in H. rewrite B1 in H. injection H as <-. eexists. split; [reflexivity|].
      apply andb_prop in B1 as [B1 _]. apply bare_iff in B1 as (_ & _ & E3 & E4 & _).
      rewrite E3, andb_false_r, E4. flat. }
    destruct (any_bare a && only_null (an_enumeration a)) eqn:B2.
    { cbn [convert] in H. rewrite B1, B2 in H. injection H as <-. eexists. split; [reflexivity|].
      apply andb_prop in B2 as [B2 _]. apply bare_iff in B2 as (_ & _ & E3 & E4 & _).
      rewrite E3, andb_false_r, E4. flat. }
    destruct (convert_any_general _ _ _ H B1 B2)
      as (number & props & add & items & ones & alls & anys & no & ty & Hparts & Hty & ->).
    cbv zeta. eexists. split; [reflexivity|].
    assert (Hn : is_some number = number_keywords a)
      by (inversion Hparts; rewrite (any_number_some a); auto).
    rewrite Hn in Hty. unfold any_type in Hty.
    destruct (an_typ a) as [tn|] eqn:Et.
    + destruct (type_named tn) as [i|] eqn:Ei; [|discriminate]. injection Hty as <-.
      assert (Hi : i <> INull).
      { unfold type_named in Ei.
        repeat match type of Ei with (if ?c then _ else _) = _ => destruct c; [congruence|] end.
        discriminate. }
      cbn [present negb andb]. rewrite andb_false_r. cbn [andb].
      unfold instance_type. destruct (sd_nullable d); [flat|].
      destruct i; first [flat|exfalso; apply Hi; reflexivity].
    + cbn [present negb]. injection Hty as <-. destruct (sd_nullable d); [|flat].
      unfold value_keywords.
      destruct (object_keywords a), (array_keywords a), (number_keywords a), (string_keywords a);
        cbn [inferred app orb andb negb]; try (flat).
      unfold any_subs. destruct (combines a); [|flat].
      cbn. split; [reflexivity|split; [reflexivity|split; [reflexivity|split; [intro; discriminate|]]]]; intros _; eexists; split; reflexivity.
Qed.

Theorem annotations_kept d k j : convert (Schema d k) = Ok j -> NoDup (map fst (sd_extensions d)) ->
  exists o, j = JsObject o
    /\ annotations o = Metadata (sd_title d) (sd_description d) (sd_default d) (sd_deprecated d)
                         (sd_read_only d) (sd_write_only d) (optional (sd_example d))
    /\ (forall n, assoc n (so_extensions o) = assoc n (sd_extensions d))
    /\ (becomes_choice (Schema d k) = false -> so_format o = document_format k)
    /\ (becomes_choice (Schema d k) = true ->
        exists i, second_choice o = Some i /\ so_format i = document_format k).
Proof.
  intros H Hn. destruct (converted_fields _ _ _ H) as (o & -> & _ & Hm & He & Hf & Hc).
  exists o. split; auto. split; [|split; auto].
  - unfold annotations. rewrite Hm. apply metadata_of_annotations.
  - intro n. rewrite He. unfold extensions_of. now apply assoc_convert_props.
Qed.

(** ** Bounds *)

Lemma as_u32_iff n : as_u32 n = n <-> n < 2 ^ 32.
Proof.
  split; [|apply as_u32_small]. unfold as_u32. intro H. rewrite <- H. now apply N.mod_lt.
Qed.

Lemma convert_usize_iff o : convert_usize o = o <-> (forall n, In n (optional o) -> n < 2 ^ 32).
Proof.
  destruct o as [n|]; cbn.
  - split.
    + intros H m [<-|[]]. injection H as H. now apply as_u32_iff.
    + intro H. f_equal. apply as_u32_iff. auto.
  - split; easy.
Qed.

Lemma two_bounds a b : (convert_usize a, convert_usize b) = (a, b)
  <-> (forall n, In n (optional a ++ optional b) -> n < 2 ^ 32).
Proof.
  split.
  - intro H. injection H as H1 H2. pose proof (proj1 (convert_usize_iff a) H1). pose proof (proj1 (convert_usize_iff b) H2).
    intros n Hn. apply in_app_or in Hn as [Hn|Hn]; auto.
  - intro H. f_equal; apply convert_usize_iff; intros n Hn; apply H; apply in_or_app; auto.
Qed.

Theorem string_lengths d t o : convert (Schema d (SkString t)) = Ok (JsObject o) ->
  (string_bounds o = (st_min_length t, st_max_length t)
   <-> forall n, In n (length_bounds (SkString t)) -> n < 2 ^ 32).
Proof.
  intro H. cbn [convert] in H. injection H as <-. cbn [length_bounds]. rewrite <- two_bounds.
  unfold string_bounds, reduce_string. cbn.
  destruct (st_max_length t), (st_min_length t), (st_pattern t); cbn; reflexivity.
Qed.

Theorem array_lengths d t o : convert (Schema d (SkArray t)) = Ok (JsObject o) ->
  (array_bounds o = (at_min_items t, at_max_items t)
   <-> forall n, In n (length_bounds (SkArray t)) -> n < 2 ^ 32).
Proof.
  intro H. cbn [convert] in H. apply obind_ok in H as (it & Hi & H). injection H as <-.
  cbn [length_bounds]. rewrite <- two_bounds. unfold array_bounds, reduce_array. cbn.
  destruct it, (at_max_items t), (at_min_items t), (at_unique_items t); cbn; reflexivity.
Qed.

Theorem object_lengths d t o : convert (Schema d (SkObject t)) = Ok (JsObject o) ->
  (object_bounds o = (ot_min_properties t, ot_max_properties t)
   <-> forall n, In n (length_bounds (SkObject t)) -> n < 2 ^ 32).
Proof.
  intro H. cbn [convert] in H. apply obind_ok in H as (ps & Hp & H). apply obind_ok in H as (ad & Ha & H).
  injection H as <-. cbn [length_bounds]. rewrite <- two_bounds. unfold object_bounds, reduce_object.
  cbn [so_object ov_max_properties ov_min_properties ov_required ov_properties ov_additional].
  destruct (ot_max_properties t), (ot_min_properties t), (convert_required (ot_required t)),
    (bt_inserts ps []), ad; reflexivity.
Qed.

Lemma not_present {A} (x : option A) : present x = false -> x = None.
Proof. now destruct x. Qed.

Theorem any_lengths d a o : convert (Schema d (SkAny a)) = Ok (JsObject o) ->
  (string_bounds o = (an_min_length a, an_max_length a)
   /\ object_bounds o = (an_min_properties a, an_max_properties a)
   /\ array_bounds o = (an_min_items a, an_max_items a)
   <-> forall n, In n (length_bounds (SkAny a)) -> n < 2 ^ 32).
Proof.
  intro H.
  assert (Hsplit : (forall n, In n (length_bounds (SkAny a)) -> n < 2 ^ 32) <->
    (convert_usize (an_min_length a), convert_usize (an_max_length a)) = (an_min_length a, an_max_length a)
    /\ (convert_usize (an_min_properties a), convert_usize (an_max_properties a))
       = (an_min_properties a, an_max_properties a)
    /\ (convert_usize (an_min_items a), convert_usize (an_max_items a)) = (an_min_items a, an_max_items a)).
  { rewrite !two_bounds. cbn [length_bounds]. split.
    - intro G. repeat split; intros n Hn; apply G; rewrite !in_app_iff in *; tauto.
    - intros (G1 & G2 & G3) n Hn. rewrite !in_app_iff in Hn.
      destruct Hn as [Hn|[Hn|[Hn|[Hn|[Hn|Hn]]]]];
        [apply G1|apply G1|apply G2|apply G2|apply G3|apply G3]; rewrite in_app_iff; auto. }
  rewrite Hsplit. clear Hsplit.
  assert (Hb : string_bounds o = (convert_usize (an_min_length a), convert_usize (an_max_length a))
    /\ object_bounds o = (convert_usize (an_min_properties a), convert_usize (an_max_properties a))
    /\ array_bounds o = (convert_usize (an_min_items a), convert_usize (an_max_items a))).
  2:{ destruct Hb as (-> & -> & ->). reflexivity. }
  assert (Habs : value_keywords a = false -> an_min_length a = None /\ an_max_length a = None
    /\ an_min_properties a = None /\ an_max_properties a = None /\ an_min_items a = None
    /\ an_max_items a = None).
  { intro B. unfold value_keywords, string_keywords, object_keywords, array_keywords in B.
    rewrite !orb_false_iff in B.
    repeat split; apply not_present; tauto. }
  destruct (any_bare a && is_nil (an_enumeration a)) eqn:B1.
  { cbn [convert] in H. rewrite B1 in H. injection H as <-. apply andb_prop in B1 as [B1 _].
    apply bare_iff in B1 as (_ & B1 & _). destruct (Habs B1) as (-> & -> & -> & -> & -> & ->). repeat split; reflexivity. }
  destruct (any_bare a && only_null (an_enumeration a)) eqn:B2.
  { cbn [convert] in H. rewrite B1, B2 in H. injection H as <-. apply andb_prop in B2 as [B2 _].
    apply bare_iff in B2 as (_ & B2 & _). destruct (Habs B2) as (-> & -> & -> & -> & -> & ->). repeat split; reflexivity. }
  destruct (convert_any_general _ _ _ H B1 B2)
    as (number & props & add & items & ones & alls & anys & no & ty & Hparts & Hty & Ho).
  cbv zeta in Ho. injection Ho as ->.
  assert (Hn : is_some number = number_keywords a)
    by (inversion Hparts; rewrite (any_number_some a); auto).
  rewrite Hn in Hty.
  assert (Hsame : forall ty, 
    let o := SchemaObject (metadata_of d) ty (an_format a) (convert_vec id (an_enumeration a))
        (any_subs a alls anys ones no) number (any_string a) (any_array a items)
        (any_object a props add) None (extensions_of d) in
    string_bounds o = (convert_usize (an_min_length a), convert_usize (an_max_length a))
    /\ object_bounds o = (convert_usize (an_min_properties a), convert_usize (an_max_properties a))
    /\ array_bounds o = (convert_usize (an_min_items a), convert_usize (an_max_items a))).
  { intros ty' o'. repeat split; cbn; unfold string_bounds, object_bounds, array_bounds; cbn.
    - unfold any_string. destruct (an_pattern a), (an_min_length a), (an_max_length a); reflexivity.
    - unfold any_object. destruct (object_keywords a) eqn:E; auto. unfold object_keywords in E.
      rewrite !orb_false_iff in E. destruct E as ((_ & E1) & E2).
      destruct (an_min_properties a), (an_max_properties a); easy.
    - unfold any_array. destruct (array_keywords a) eqn:E; auto. unfold array_keywords in E.
      rewrite !orb_false_iff in E. destruct E as (((_ & E1) & E2) & _).
      destruct (an_min_items a), (an_max_items a); easy. }
  destruct ty as [[[]|]|]; try apply Hsame.
  destruct (combines a) eqn:C; [|apply Hsame].
  unfold any_type in Hty. destruct (an_typ a) as [tn|] eqn:Et.
  - exfalso. destruct (type_named tn) as [i|] eqn:Ei; [|discriminate].
    injection Hty as Hty. unfold instance_type in Hty. destruct (sd_nullable d); [discriminate|].
    injection Hty as ->. unfold type_named in Ei.
    repeat match type of Ei with (if ?c then _ else _) = _ => destruct c; [discriminate|] end.
    discriminate.
  - injection Hty as Hty. destruct (sd_nullable d); [|discriminate].
    assert (Hv : value_keywords a = false).
    { unfold value_keywords.
      destruct (object_keywords a), (array_keywords a), (number_keywords a), (string_keywords a);
        cbn in Hty; try discriminate. reflexivity. }
    destruct (Habs Hv) as (-> & -> & -> & -> & -> & ->). repeat split; reflexivity.
Qed.

Theorem integer_bounds_iff d t o : convert (Schema d (SkInteger t)) = Ok (JsObject o) ->
  (number_bounds o =
    NumberValidation (option_map inject_Z (it_multiple_of t))
      (if it_exclusive_maximum t then None else option_map inject_Z (it_maximum t))
      (if it_exclusive_maximum t then option_map inject_Z (it_maximum t) else None)
      (if it_exclusive_minimum t then None else option_map inject_Z (it_minimum t))
      (if it_exclusive_minimum t then option_map inject_Z (it_minimum t) else None)
   <-> forall z, In z (integer_bounds (SkInteger t)) -> double z).
Proof.
  intro H. cbn [convert] in H. injection H as <-. unfold number_bounds.
  assert (E : forall nv, match reduce_number nv with Some v => v | None => NumberValidation None None None None None end = nv).
  { intros [[] [] [] [] []]; reflexivity. }
  cbn [so_number]. rewrite E. cbn [integer_bounds].
  assert (HI : (forall z, In z (optional (it_multiple_of t) ++ optional (it_minimum t) ++ optional (it_maximum t)) -> double z)
               <-> f64_of (it_multiple_of t) = option_map inject_Z (it_multiple_of t)
                   /\ f64_of (it_minimum t) = option_map inject_Z (it_minimum t)
                   /\ f64_of (it_maximum t) = option_map inject_Z (it_maximum t)).
  { rewrite !f64_of_iff. split.
    - intro H. repeat split; intros z Hz; apply H; rewrite !in_app_iff; auto.
    - intros (H1 & H2 & H3) z Hz. rewrite !in_app_iff in Hz. destruct Hz as [|[|]]; auto. }
  rewrite HI. split.
  - intro H. destruct (it_exclusive_maximum t), (it_exclusive_minimum t); injection H; auto.
  - intros (-> & -> & ->). reflexivity.
Qed.

Theorem number_bounds_kept d t o : convert (Schema d (SkNumber t)) = Ok (JsObject o) ->
  number_bounds o =
    NumberValidation (nt_multiple_of t)
      (if nt_exclusive_maximum t then None else nt_maximum t)
      (if nt_exclusive_maximum t then nt_maximum t else None)
      (if nt_exclusive_minimum t then None else nt_minimum t)
      (if nt_exclusive_minimum t then nt_minimum t else None).
Proof.
  intro H. cbn [convert] in H. injection H as <-. unfold number_bounds, reduce_number.
  cbn [so_number nv_multiple_of nv_maximum nv_exclusive_maximum nv_minimum nv_exclusive_minimum].
  destruct (nt_multiple_of t), (nt_exclusive_maximum t), (nt_exclusive_minimum t), (nt_maximum t),
    (nt_minimum t); reflexivity.
Qed.

(** Beyond 2^53 a bound is off by at most one part in 2^53. *)
Lemma as_f64_near z : (Z.abs (as_f64 z - z) * 2 ^ 53 <= Z.abs z)%Z.
Proof.
  unfold as_f64. cbv zeta. set (a := Z.abs z). set (e := (Z.log2 a - 52)%Z).
  destruct (e <=? 0)%Z eqn:E; [rewrite Z.sub_diag; cbn; lia|].
  assert (He : (0 < e)%Z) by lia. set (m := (2 ^ e)%Z). assert (Hm : (0 < m)%Z) by now apply Z.pow_pos_nonneg; lia.
  assert (Ha : (0 < a)%Z).
  { destruct (Z.eq_dec a 0) as [Ez|]; [|lia]. exfalso. unfold e in He. rewrite Ez in He. cbn in He. lia. }
  assert (Hlow : (2 ^ 52 * m <= a)%Z).
  { unfold m. rewrite <- Z.pow_add_r by lia. unfold e.
    replace (52 + (Z.log2 a - 52))%Z with (Z.log2 a) by lia. now apply Z.log2_spec. }
  pose proof (Z.div_mod a m ltac:(lia)) as Hdm. pose proof (Z.mod_pos_bound a m Hm) as Hr.
  set (q := (a / m)%Z) in *. set (r := (a mod m)%Z) in *.
  set (q' := if (2 * r <? m)%Z then q else if (m <? 2 * r)%Z then (q + 1)%Z
             else if Z.even q then q else (q + 1)%Z).
  assert (Hq : (2 * Z.abs (q' * m - a) <= m)%Z).
  { unfold q'. destruct (2 * r <? m)%Z eqn:E1; [nia|]. destruct (m <? 2 * r)%Z eqn:E2; [nia|].
    destruct (Z.even q); nia. }
  assert (Hs : (Z.abs (Z.sgn z * (q' * m) - z) = Z.abs (q' * m - a))%Z).
  { clearbody q'. unfold a in *. destruct z; cbn [Z.sgn Z.abs] in *; lia. }
  rewrite Hs. change (2 ^ 53)%Z with (2 * 2 ^ 52)%Z. lia.
Qed.

Theorem integer_bounds_nearest d t o : convert (Schema d (SkInteger t)) = Ok (JsObject o) ->
  forall z, In z (integer_bounds (SkInteger t)) ->
  exists f : Z, nearest_double z f /\ (Z.abs (f - z) * 2 ^ 53 <= Z.abs z)%Z
    /\ (it_multiple_of t = Some z -> nv_multiple_of (number_bounds o) = Some (inject_Z f))
    /\ (it_minimum t = Some z ->
        (if it_exclusive_minimum t then nv_exclusive_minimum (number_bounds o)
         else nv_minimum (number_bounds o)) = Some (inject_Z f))
    /\ (it_maximum t = Some z ->
        (if it_exclusive_maximum t then nv_exclusive_maximum (number_bounds o)
         else nv_maximum (number_bounds o)) = Some (inject_Z f)).
Proof.
  intros H z _. exists (as_f64 z). split; [apply as_f64_nearest|]. split; [apply as_f64_near|].
  cbn [convert] in H. injection H as <-. unfold number_bounds.
  assert (E : forall nv, match reduce_number nv with Some v => v | None => NumberValidation None None None None None end = nv).
  { intros [[] [] [] [] []]; reflexivity. }
  cbn [so_number]. rewrite E. cbn [nv_multiple_of nv_maximum nv_exclusive_maximum nv_minimum nv_exclusive_minimum].
  repeat split; intros ->; [reflexivity| |]; [destruct (it_exclusive_minimum t)|destruct (it_exclusive_maximum t)]; reflexivity.
Qed.

(** C47: what becomes of lengths that do not fit 32 bits. *)
From Coq Require Import QArith.
From Verif Require Import Base OasModel OpModel RefProofs ToSchemaModel SchemaSpec SchemaProofs SchemaMain SchemaCor SchemaAnn
  SchemaWrapSpec.
Local Open Scope N_scope.

Lemma usize_cut o : cut o (convert_usize o).
Proof.
  destruct o as [n|]; cbn; constructor. unfold as_u32. split; [now apply N.mod_lt|].
  exists (n / 2 ^ 32). rewrite N.mul_comm. now apply N.div_mod.
Qed.

Lemma any_bounds d a o : convert (Schema d (SkAny a)) = Ok (JsObject o) ->
  string_bounds o = (convert_usize (an_min_length a), convert_usize (an_max_length a))
  /\ object_bounds o = (convert_usize (an_min_properties a), convert_usize (an_max_properties a))
  /\ array_bounds o = (convert_usize (an_min_items a), convert_usize (an_max_items a)).
Proof.
  intro H.
  assert (Habs : value_keywords a = false -> an_min_length a = None /\ an_max_length a = None
    /\ an_min_properties a = None /\ an_max_properties a = None /\ an_min_items a = None
    /\ an_max_items a = None).
  { intro B. unfold value_keywords, string_keywords, object_keywords, array_keywords in B.
    rewrite !orb_false_iff in B.
    repeat split; apply not_present; tauto. }
  destruct (any_bare a && is_nil (an_enumeration a)) eqn:B1.
  { cbn [convert] in H. rewrite B1 in H. injection H as <-. apply andb_prop in B1 as [B1 _].
    apply bare_iff in B1 as (_ & B1 & _). destruct (Habs B1) as (-> & -> & -> & -> & -> & ->). repeat split; reflexivity. }
  destruct (any_bare a && only_null (an_enumeration a)) eqn:B2.
  { cbn [convert] in H. rewrite B1, B2 in H. injection H as <-. apply andb_prop in B2 as [B2 _].
    apply bare_iff in B2 as (_ & B2 & _). destruct (Habs B2) as (-> & -> & -> & -> & -> & ->). repeat split; reflexivity. }
  destruct (convert_any_general _ _ _ H B1 B2)
    as (number & props & add & items & ones & alls & anys & no & ty & Hparts & Hty & Ho).
  cbv zeta in Ho. injection Ho as ->.
  assert (Hn : is_some number = number_keywords a)
    by (inversion Hparts; rewrite (any_number_some a); auto).
  rewrite Hn in Hty.
  assert (Hsame : forall ty, 
    let o := SchemaObject (metadata_of d) ty (an_format a) (convert_vec id (an_enumeration a))
        (any_subs a alls anys ones no) number (any_string a) (any_array a items)
        (any_object a props add) None (extensions_of d) in
    string_bounds o = (convert_usize (an_min_length a), convert_usize (an_max_length a))
    /\ object_bounds o = (convert_usize (an_min_properties a), convert_usize (an_max_properties a))
    /\ array_bounds o = (convert_usize (an_min_items a), convert_usize (an_max_items a))).
  { intros ty' o'. repeat split; cbn; unfold string_bounds, object_bounds, array_bounds; cbn.
    - unfold any_string. destruct (an_pattern a), (an_min_length a), (an_max_length a); reflexivity.
    - unfold any_object. destruct (object_keywords a) eqn:E; auto. unfold object_keywords in E.
      rewrite !orb_false_iff in E. destruct E as ((_ & E1) & E2).
      destruct (an_min_properties a), (an_max_properties a); easy.
    - unfold any_array. destruct (array_keywords a) eqn:E; auto. unfold array_keywords in E.
      rewrite !orb_false_iff in E. destruct E as (((_ & E1) & E2) & _).
      destruct (an_min_items a), (an_max_items a); easy. }
  destruct ty as [[[]|]|]; try apply Hsame.
  destruct (combines a) eqn:C; [|apply Hsame].
  unfold any_type in Hty. destruct (an_typ a) as [tn|] eqn:Et.
  - exfalso. destruct (type_named tn) as [i|] eqn:Ei; [|discriminate].
    injection Hty as Hty. unfold instance_type in Hty. destruct (sd_nullable d); [discriminate|].
    injection Hty as ->. unfold type_named in Ei.
    repeat match type of Ei with (if ?c then _ else _) = _ => destruct c; [discriminate|] end.
    discriminate.
  - injection Hty as Hty. destruct (sd_nullable d); [|discriminate].
    assert (Hv : value_keywords a = false).
    { unfold value_keywords.
      destruct (object_keywords a), (array_keywords a), (number_keywords a), (string_keywords a);
        cbn in Hty; try discriminate. reflexivity. }
    destruct (Habs Hv) as (-> & -> & -> & -> & -> & ->). repeat split; reflexivity.
Qed.

Local Ltac lengths := repeat (constructor; try apply usize_cut).

Theorem lengths_cut d k o : convert (Schema d k) = Ok (JsObject o) ->
  Forall2 cut (given_lengths k) (kept_lengths o).
Proof.
  intro H. destruct k as [t|t|t|t|t|e|l|l|l|r|a]; cbn [given_lengths].
  - cbn [convert] in H. injection H as <-. unfold kept_lengths, string_bounds, reduce_string. cbn.
    destruct (st_max_length t), (st_min_length t), (st_pattern t); cbn;
      repeat (constructor; try apply (usize_cut (Some _))).
  - cbn [convert] in H. injection H as <-. cbn. lengths.
  - cbn [convert] in H. injection H as <-. cbn. lengths.
  - cbn [convert] in H. apply obind_ok in H as (ps & Hp & H). apply obind_ok in H as (ad & Ha & H).
    injection H as <-. unfold kept_lengths, object_bounds, reduce_object.
    cbn [so_object ov_max_properties ov_min_properties ov_required ov_properties ov_additional].
    destruct (ot_max_properties t), (ot_min_properties t), (convert_required (ot_required t)),
      (bt_inserts ps []), ad; cbn; repeat (constructor; try apply (usize_cut (Some _))).
  - cbn [convert] in H. apply obind_ok in H as (it & Hi & H). injection H as <-.
    unfold kept_lengths, array_bounds, reduce_array. cbn.
    destruct it, (at_max_items t), (at_min_items t), (at_unique_items t); cbn;
      repeat (constructor; try apply (usize_cut (Some _))).
  - cbn [convert] in H. injection H as <-. cbn. lengths.
  - cbn [convert] in H. apply obind_ok in H as (ps & Hp & H). injection H as <-.
    unfold oneof_nullable_wrapper. destruct (sd_nullable d); cbn; lengths.
  - cbn [convert] in H. apply obind_ok in H as (ps & Hp & H). injection H as <-.
    unfold oneof_nullable_wrapper. destruct (sd_nullable d); cbn; lengths.
  - cbn [convert] in H. apply obind_ok in H as (ps & Hp & H). injection H as <-.
    unfold oneof_nullable_wrapper. destruct (sd_nullable d); cbn; lengths.
  - cbn [convert] in H. apply obind_ok in H as (ps & Hp & H). injection H as <-.
    unfold oneof_nullable_wrapper. destruct (sd_nullable d); cbn; lengths.
  - destruct (any_bounds _ _ _ H) as (E1 & E2 & E3). unfold kept_lengths. rewrite E1, E2, E3. cbn. lengths.
Qed.

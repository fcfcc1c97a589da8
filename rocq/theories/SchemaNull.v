(** C46: where null is added, exactly. *)
From Coq Require Import QArith ZifyBool ZifyN.
From Verif Require Import Base OasModel TemplateModel MethodModel OpModel RefSpec RefProofs ParamSpec
  ParamProofs ToSchemaModel SchemaSpec SchemaProofs SchemaMain SchemaCor.
Local Open Scope N_scope.

Section Meaning.
Variable refs : str -> json -> bool.
Variable matches : str -> str -> bool.
Variable format_ok : str -> json -> bool.
Notation valid := (valid refs matches format_ok).

Lemma listed_null_in l : listed l JNull = true -> In JNull l.
Proof.
  intro H. apply existsb_exists in H as (x & Hx & H). destruct x; try discriminate. exact Hx.
Qed.

Lemma enum_listed_null_inv {A} (f : option A -> json) (l : list (option A)) :
  (forall x, f x = JNull -> x = None) ->
  given (convert_vec f l) (fun l => listed l JNull) = true -> null_listed l.
Proof.
  intros Hf H. destruct l as [|x l]; [now left|]. right. cbn [convert_vec given] in H.
  apply listed_null_in, in_map_iff in H as (y & E & Hy). apply Hf in E. now subst y.
Qed.

Lemma typed_listed m t fmt en num st arr obj ex :
  valid (JsObject (SchemaObject m t fmt en None num st arr obj None ex)) JNull = true ->
  given en (fun l => listed l JNull) = true.
Proof.
  rewrite valid_object. intro H. do 6 apply andb_prop in H as [H _]. now apply andb_prop in H as [_ H].
Qed.

Lemma wrapper_null m subs ex m' ex' :
  valid (JsObject (oneof_nullable_wrapper
    (SchemaObject m None None None subs None None None None None ex) true)) JNull = true ->
  valid (JsObject (oneof_nullable_wrapper
    (SchemaObject m' None None None subs None None None None None ex') false)) JNull = false.
Proof.
  rewrite wrapper_valid. unfold oneof_nullable_wrapper. rewrite !valid_object.
  cbn [is_null]. intro H. destruct (subs_ok refs matches format_ok subs JNull); [discriminate|auto].
Qed.

Lemma any_typed_null d a j j'' tn : sd_nullable d = true -> an_typ a = Some tn ->
  convert (Schema d (SkAny a)) = Ok j ->
  convert (Schema plain_data (SkAny (untyped a))) = Ok j'' -> valid j JNull = true ->
  valid j'' JNull = true.
Proof.
  intros Hn Et H H'' HA.
  assert (B : any_bare a && (is_nil (an_enumeration a) || only_null (an_enumeration a)) = false).
  { unfold any_bare. now rewrite Et. }
  destruct (any_valid refs matches format_ok _ _ _ H B)
    as (number & props & add & items & ones & alls & anys & no & Hp & ty & Hty & Hv).
  inversion Hp as [? ? ? ? ? ? ? ? Q1 Q2 Q3 Q4 Q5 Q6 Q7 Q8]; subst.
  unfold any_type in Hty. rewrite Et in Hty.
  destruct (type_named tn) as [i|] eqn:Ei; [|discriminate]. injection Hty as <-.
  rewrite Hv in HA by now rewrite Hn.
  repeat match goal with H : _ && _ = true |- _ => apply andb_prop in H as [? ?] end.
  destruct (any_bare (untyped a) && (is_nil (an_enumeration (untyped a))
               || only_null (an_enumeration (untyped a)))) eqn:B'.
  - apply andb_prop in B' as [B1 B2]. cbn [convert] in H''. rewrite B1 in H''. cbn [andb] in H''.
    destruct (is_nil (an_enumeration (untyped a))).
    + injection H'' as <-. reflexivity.
    + cbn [orb] in B2. rewrite B2 in H''. injection H'' as <-. reflexivity.
  - destruct (any_valid refs matches format_ok _ _ _ H'' B')
      as (n1 & p1 & a1 & i1 & o1 & l1 & y1 & no1 & Hp1 & ty1 & Hty1 & Hv1).
    inversion Hp1 as [? ? ? ? ? ? ? ? S1 S2 S3 S4 S5 S6 S7 S8]; subst.
    cbn in Hty1. injection Hty1 as <-. cbn [an_properties an_additional an_items an_one_of an_all_of
      an_any_of an_not untyped] in *.
    assert (o1 = ones) by congruence. assert (l1 = alls) by congruence.
    assert (y1 = anys) by congruence. assert (no1 = no) by congruence. subst.
    rewrite Hv1 by exact Logic.I. cbn [type_ok andb].
    rewrite null_given_format, null_num, null_str, null_arr, null_obj, !andb_true_r.
    cbn [type_ok andb an_enumeration untyped].
    change (any_subs (untyped a) alls anys ones no) with (any_subs a alls anys ones no).
    repeat (apply andb_true_intro; split); auto.
Qed.

Theorem adds_null_only d k j j' j'' : sd_nullable d = true ->
  (forall a, k = SkAny a -> an_typ a <> None) ->
  convert (Schema d k) = Ok j -> convert (Schema (not_nullable d) k) = Ok j' ->
  convert (Schema plain_data (no_type k)) = Ok j'' -> valid j JNull = true ->
  null_addable k (valid j' JNull) (valid j'' JNull).
Proof.
  intros Hn Hk H H' H'' HA.
  destruct k as [t|t|t|t|t|e|l|l|l|r|a]; cbn [null_addable].
  - cbn [convert] in H. injection H as <-. apply typed_listed in HA.
    eapply enum_listed_null_inv; [|exact HA]. now intros [x|].
  - cbn [convert] in H. injection H as <-. apply typed_listed in HA.
    eapply enum_listed_null_inv; [|exact HA]. now intros [x|].
  - cbn [convert] in H. injection H as <-. apply typed_listed in HA.
    eapply enum_listed_null_inv; [|exact HA]. now intros [x|].
  - exact Logic.I.
  - exact Logic.I.
  - cbn [convert] in H. injection H as <-. apply typed_listed in HA.
    eapply enum_listed_null_inv; [|exact HA]. now intros [x|].
  - cbn [convert] in H, H'. apply obind_ok in H as (ps & Hp & H).
    rewrite Hp in H'. cbn [obind] in H'. injection H as <-. injection H' as <-. rewrite Hn in HA.
    eapply wrapper_null, HA.
  - cbn [convert] in H, H'. apply obind_ok in H as (ps & Hp & H).
    rewrite Hp in H'. cbn [obind] in H'. injection H as <-. injection H' as <-. rewrite Hn in HA.
    eapply wrapper_null, HA.
  - cbn [convert] in H, H'. apply obind_ok in H as (ps & Hp & H).
    rewrite Hp in H'. cbn [obind] in H'. injection H as <-. injection H' as <-. rewrite Hn in HA.
    eapply wrapper_null, HA.
  - cbn [convert] in H, H'. apply obind_ok in H as (ps & Hp & H).
    rewrite Hp in H'. cbn [obind] in H'. injection H as <-. injection H' as <-. rewrite Hn in HA.
    eapply wrapper_null, HA.
  - destruct (an_typ a) as [tn|] eqn:Et; [|now destruct (Hk a eq_refl)].
    exact (any_typed_null _ _ _ _ _ Hn Et H H'' HA).
Qed.

Theorem adds_null_iff d k j j' j'' : sd_nullable d = true ->
  (forall a, k = SkAny a -> an_typ a <> None) ->
  convert (Schema d k) = Ok j -> convert (Schema (not_nullable d) k) = Ok j' ->
  convert (Schema plain_data (no_type k)) = Ok j'' ->
  (forall v, valid j v = is_null v || valid j' v)
  <-> null_addable k (valid j' JNull) (valid j'' JNull).
Proof.
  intros Hn Hk H H' H''. split.
  - intro HA. apply (adds_null_only d k j j' j''); auto. now rewrite HA.
  - intro HA. now apply (nullable_adds_null refs matches format_ok d k j j' j'').
Qed.
End Meaning.

(** Parameters required on the first page. *)
From Verif Require Import Base OasModel TemplateModel MethodModel OpModel PageSpec PageProofs ParamProofs PageFirstSpec.
Local Open Scope N_scope.

Lemma first_under_assoc {A} k (l : list (str * A)) v : assoc k l = Some v <-> first_under k l v.
Proof.
  split.
  - induction l as [|[k' v'] l IH]; cbn [assoc]; [discriminate|]. destruct (str_eqb k k') eqn:E.
    + intros [= ->]. apply str_eqb_spec in E as <-. exists [], l. split; [reflexivity|easy].
    + intro H. destruct (IH H) as (pre & post & -> & Hn). exists ((k', v') :: pre), post. split; [reflexivity|].
      intros [H'|H']; [|now apply Hn]. cbn in H'. subst. rewrite str_eqb_refl in E. discriminate.
  - intros (pre & post & -> & Hn). induction pre as [|[k' v'] pre IH]; cbn [app assoc]; [now rewrite str_eqb_refl|].
    destruct (str_eqb k k') eqn:E; [apply str_eqb_spec in E; elim Hn; left; now rewrite E|]. apply IH. intro H. apply Hn. now right.
Qed.
Lemma json_strings_iff j l : json_strings j = Some l <-> j = JArr (map JStr l).
Proof.
  unfold json_strings. destruct j as [| | | |js|]; try (split; discriminate). split.
  - revert l. induction js as [|x js IH]; cbn [fold_right]; intro l; [now intros [= <-]|].
    destruct x; try discriminate. destruct (fold_right _ _ js) as [r|]; [|discriminate]. intros [= <-]. specialize (IH r eq_refl).
    injection IH as ->. reflexivity.
  - intros [= ->]. induction l as [|x l IH]; [reflexivity|]. cbn [map fold_right]. now rewrite IH.
Qed.
Lemma first_page_params_iff v : (forall l, requires_first v l -> first_page_params_of v = l)
  /\ ((forall l, ~ requires_first v l) -> first_page_params_of v = []).
Proof.
  assert (H : forall l, requires_first v l -> first_page_params_of v = l).
  { intros l [fs l' Hf|l']; unfold first_page_params_of; cbv zeta.
    - apply first_under_assoc in Hf. rewrite Hf. now rewrite (proj2 (json_strings_iff _ l') eq_refl).
    - now rewrite (proj2 (json_strings_iff _ l') eq_refl). }
  split; [exact H|]. intro Hn. unfold first_page_params_of. destruct v as [| | | |[|x [|]]|fs]; cbv zeta; try reflexivity.
  - destruct (json_strings x) as [l|] eqn:E; [|reflexivity]. apply json_strings_iff in E as ->. elim (Hn l). constructor.
  - destruct (assoc (lit "required") fs) as [x|] eqn:Ea; [|reflexivity]. destruct (json_strings x) as [l|] eqn:E; [|reflexivity].
    apply json_strings_iff in E as ->. elim (Hn l). constructor. now apply first_under_assoc.
Qed.

Theorem first_page {snake pascal ts comps op path method pp m} :
  process_operation snake pascal ts op comps path method pp = Ok m -> forall pg, m_paginated m = Some pg ->
  exists v, first_under (lit "x-dropshot-pagination") (op_extensions op) v
    /\ (forall l, requires_first v l -> pg_first_page_params pg = l)
    /\ ((forall l, ~ requires_first v l) -> pg_first_page_params pg = []).
Proof.
  intros Hp pg Hm. destruct (process_operation_params _ _ _ _ _ _ _ _ _ Hp) as (oid & pi & ops & qs & body & _ & _ & _ & _ & _ & _ & _ & _ & _ & _ & Hpg & _).
  rewrite Hpg in Hm. apply pagination_data in Hm as (_ & v & Hv & ->); [|exact (page_names Hp)].
  exists v. split; [now apply first_under_assoc|]. apply first_page_params_iff.
Qed.

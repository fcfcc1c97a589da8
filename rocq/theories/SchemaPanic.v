(** The texts of the panics of the conversion of schemas. *)
From Verif Require Import Base OasModel TemplateModel MethodModel OpModel RefSpec RefProofs ParamSpec
  ParamProofs ToSchemaModel SchemaSpec SchemaProofs SchemaMain SchemaCor SchemaPanicSpec.

Lemma bind_panic {A B} (x : outcome A) (f : A -> outcome B) m : obind x f = Panic m -> x = Panic m \/ exists a, x = Ok a /\ f a = Panic m.
Proof. destruct x as [a|e|p]; cbn; intro H; [right; eauto|discriminate|left; congruence]. Qed.
Lemma mapM_panic {A B} (f : A -> outcome B) m : forall l, mapM f l = Panic m -> exists a, In a l /\ f a = Panic m.
Proof.
  induction l as [|a l IH]; cbn; intro H; [discriminate|]. apply bind_panic in H as [H|(b & _ & H)]; [eauto|].
  apply bind_panic in H as [H|(bs & _ & H)]; [|discriminate]. destruct (IH H) as (c & Hc & E). eauto.
Qed.
Lemma oconvert_panic {A B} (f : A -> outcome B) m o : oconvert f o = Panic m -> exists a, o = Some a /\ f a = Panic m.
Proof. destruct o as [a|]; cbn; intro H; [|discriminate]. apply bind_panic in H as [H|(b & _ & H)]; [eauto|discriminate]. Qed.

Definition gives_up (l : list schema) (m : str) : Prop := exists s, In s l /\ convert s = Panic m.
Lemma ref_panic r m : convert_ref_with convert r = Panic m -> gives_up (ref_schemas r) m.
Proof. destruct r as [n|s]; cbn; intro H; [discriminate|]. exists s. split; [now left|exact H]. Qed.
Lemma refs_panic l m : mapM (convert_ref_with convert) l = Panic m -> gives_up (flat_map ref_schemas l) m.
Proof.
  intro H. apply mapM_panic in H as (r & Hr & H). apply ref_panic in H as (s & Hs & H). exists s. split; auto. apply in_flat_map. eauto.
Qed.
Lemma opt_panic o m : oconvert (convert_ref_with convert) o = Panic m -> gives_up (flat_map ref_schemas (optional o)) m.
Proof.
  intro H. apply oconvert_panic in H as (r & -> & H). apply ref_panic in H as (s & Hs & H). exists s. split; auto. cbn. now rewrite app_nil_r.
Qed.
Lemma props_panic l m : mapM (fun kv => do j <- convert_ref_with convert (snd kv); Ok (fst kv, j)) l = Panic m -> gives_up (property_schemas l) m.
Proof.
  intro H. apply mapM_panic in H as ((n & r) & Hr & H). cbn in H. apply bind_panic in H as [H|(j & _ & H)]; [|discriminate].
  apply ref_panic in H as (s & Hs & H). exists s. split; auto. unfold property_schemas. apply in_flat_map. eauto.
Qed.
Lemma additional_panic o m :
  oconvert (fun ap => match ap with ApAny b => Ok (JsBool b) | ApSchema r => convert_ref_with convert r end) o = Panic m ->
  gives_up (additional_schemas o) m.
Proof. intro H. apply oconvert_panic in H as ([b|r] & -> & H); [discriminate|]. cbn. now apply ref_panic in H. Qed.

Lemma gives_up_in l l' m : gives_up l m -> incl l l' -> gives_up l' m.
Proof. intros (s & Hs & H) Hi. exists s. auto. Qed.

Lemma panic_one d k m : convert (Schema d k) = Panic m -> gives_up (children k) m \/ refusal k m.
Proof.
  destruct k as [t|t|t|t|t|e|l|l|l|r|a]; cbn [children convert]; cbv zeta; intro H; try discriminate H.
  - left. apply bind_panic in H as [H|(ps & _ & H)].
    + apply props_panic in H. eapply gives_up_in; eauto. apply incl_appl, incl_refl.
    + apply bind_panic in H as [H|(ad & _ & H)]; [|discriminate]. apply additional_panic in H. eapply gives_up_in; eauto. apply incl_appr, incl_refl.
  - left. apply bind_panic in H as [H|(ps & _ & H)]; [now apply opt_panic in H|discriminate].
  - left. apply bind_panic in H as [H|(ps & _ & H)]; [now apply refs_panic in H|discriminate].
  - left. apply bind_panic in H as [H|(ps & _ & H)]; [now apply refs_panic in H|discriminate].
  - left. apply bind_panic in H as [H|(ps & _ & H)]; [now apply refs_panic in H|discriminate].
  - left. apply bind_panic in H as [H|(ps & _ & H)]; [now apply ref_panic in H|discriminate].
  - destruct (any_bare a && is_nil (an_enumeration a)); [discriminate|]. destruct (any_bare a && only_null (an_enumeration a)); [discriminate|].
    apply bind_panic in H as [H|(? & _ & H)].
    { right. unfold any_number in H. apply bind_panic in H as [H|(? & _ & H)].
      - unfold any_bound in H. destruct (an_minimum a) eqn:E1, (an_exclusive_minimum a) as [[]|] eqn:E2; try discriminate. injection H as <-.
        now apply Refuse_minimum.
      - apply bind_panic in H as [H|(? & _ & H)]; [|discriminate].
        unfold any_bound in H. destruct (an_maximum a) eqn:E1, (an_exclusive_maximum a) as [[]|] eqn:E2; try discriminate. injection H as <-.
        now apply Refuse_maximum. }
    apply bind_panic in H as [H|(? & _ & H)].
    { left. apply props_panic in H. eapply gives_up_in; eauto. apply incl_appl, incl_refl. }
    apply bind_panic in H as [H|(? & _ & H)].
    { left. apply additional_panic in H. eapply gives_up_in; eauto. intros s Hs. repeat rewrite in_app_iff. auto. }
    apply bind_panic in H as [H|(? & _ & H)].
    { left. apply opt_panic in H. eapply gives_up_in; eauto. intros s Hs. repeat rewrite in_app_iff. auto. }
    apply bind_panic in H as [H|(? & _ & H)].
    { left. apply refs_panic in H. eapply gives_up_in; eauto. intros s Hs. repeat rewrite in_app_iff. auto. }
    apply bind_panic in H as [H|(? & _ & H)].
    { left. apply refs_panic in H. eapply gives_up_in; eauto. intros s Hs. repeat rewrite in_app_iff. auto 10. }
    apply bind_panic in H as [H|(? & _ & H)].
    { left. apply refs_panic in H. eapply gives_up_in; eauto. intros s Hs. repeat rewrite in_app_iff. auto 10. }
    apply bind_panic in H as [H|(? & _ & H)].
    { left. apply opt_panic in H. eapply gives_up_in; eauto. intros s Hs. repeat rewrite in_app_iff. auto 10. }
    apply bind_panic in H as [H|(ty & _ & H)].
    { right. unfold any_type in H. destruct (an_typ a) as [t|] eqn:E; [|discriminate]. destruct (type_named t) as [i|] eqn:Et; [discriminate|].
      injection H as <-. apply (Refuse_type a t E). intro Hi. apply type_named_total in Hi as (i & Hi). congruence. }
    exfalso. destruct ty as [[[]|]|]; try discriminate H. destruct (is_some _); discriminate H.
Qed.

Lemma convert_panic s : forall m, convert s = Panic m -> exists t, nested t s /\ refusal (s_kind t) m.
Proof.
  induction s as [d k IH] using schema_children_ind. rewrite Forall_forall in IH. intros m H.
  apply panic_one in H as [(u & Hu & H)|H].
  - destruct (IH u Hu m H) as (t & Ht & Hr). exists t. split; auto. exact (Nested_in t (Schema d k) u Hu Ht).
  - exists (Schema d k). split; [constructor|exact H].
Qed.

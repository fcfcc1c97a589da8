(** The types of a client are made from the schemas of the document. *)
From Verif Require Import Base OasModel TemplateModel TemplateSpec MethodModel OpModel ToSchemaModel SchemaSpec SchemaProofs SchemaMain SchemaCor TypesModel TypesSpec
  RefSpec RefProofs ResponseSpec ResponseProofs ParamSpec ParamProofs DocSpec DocProofs OpCor SanitizeModel GenerateModel GenerateSpec
  GenerateProofs SupportSpec SupportProofs ValidateProofs.
Local Open Scope N_scope.

(** ** Conversion never returns an error: it returns a schema or panics *)

Definition no_error {A} (x : outcome A) : Prop := forall e, x <> Err e.

Lemma no_error_ok {A} (a : A) : no_error (Ok a).
Proof. intros e H. discriminate H. Qed.

Lemma no_error_panic {A} m : no_error (@Panic A m).
Proof. intros e H. discriminate H. Qed.

Lemma no_error_bind {A B} (x : outcome A) (f : A -> outcome B) : no_error x -> (forall a, no_error (f a)) -> no_error (obind x f).
Proof. destruct x as [a|e|m]; cbn; [auto|intros H _; now elim (H e)|intros _ _; apply no_error_panic]. Qed.

Lemma no_error_map {A B} (f : A -> outcome B) l : (forall a, In a l -> no_error (f a)) -> no_error (mapM f l).
Proof.
  induction l as [|a l IH]; cbn; intro H; [apply no_error_ok|]. apply no_error_bind; [auto|]. intro b. apply no_error_bind; [auto|intro; apply no_error_ok].
Qed.

Lemma no_error_option {A B} (f : A -> outcome B) o : (forall a, o = Some a -> no_error (f a)) -> no_error (oconvert f o).
Proof. destruct o as [a|]; cbn; [|intros; apply no_error_ok]. intro H. apply no_error_bind; [now apply H|intro; apply no_error_ok]. Qed.

Section Parts.
Variable conv : ref_or schema -> outcome jschema.
Variable l0 : list schema.
Hypothesis Hr : forall r, incl (ref_schemas r) l0 -> no_error (conv r).

Lemma no_error_refs l : incl (flat_map ref_schemas l) l0 -> no_error (mapM conv l).
Proof. intro H. apply no_error_map. intros r Hin. apply Hr. intros t Ht. apply H, in_flat_map. eauto. Qed.

Lemma no_error_props l : incl (property_schemas l) l0 ->
  no_error (mapM (fun kv : str * ref_or schema => do j <- conv (snd kv); Ok (fst kv, j)) l).
Proof.
  intro H. apply no_error_map. intros kv Hin. apply no_error_bind; [|intro; apply no_error_ok]. apply Hr.
  intros t Ht. apply H, in_flat_map. eauto.
Qed.

Lemma no_error_opt o : incl (flat_map ref_schemas (optional o)) l0 -> no_error (oconvert conv o).
Proof. intro H. apply no_error_option. intros r ->. apply Hr. intros t Ht. apply H. cbn. rewrite app_nil_r. exact Ht. Qed.

Lemma no_error_additional o : incl (additional_schemas o) l0 ->
  no_error (oconvert (fun ap => match ap with ApAny b => Ok (JsBool b) | ApSchema r => conv r end) o).
Proof. intro H. apply no_error_option. intros [b|r] ->; [apply no_error_ok|]. apply Hr, H. Qed.
End Parts.
Ltac sub := let t := fresh in let H := fresh in intros t H; repeat rewrite in_app_iff; tauto.

Lemma convert_no_error s : no_error (convert s).
Proof.
  induction s as [d k IH] using schema_children_ind. rewrite Forall_forall in IH.
  assert (Hr : forall r, incl (ref_schemas r) (children k) -> no_error (convert_ref_with convert r)).
  { intros [n|t] H; [apply no_error_ok|]. apply IH, H. cbn. auto. }
  clear IH.
  destruct k as [t|t|t|t|t|e|l|l|l|r|a]; cbn [convert children] in *; try apply no_error_ok.
  - apply no_error_bind; [apply (no_error_props _ _ Hr); sub|]. intro. apply no_error_bind; [apply (no_error_additional _ _ Hr); sub|]. intro. apply no_error_ok.
  - apply no_error_bind; [apply (no_error_opt _ _ Hr); sub|]. intro. apply no_error_ok.
  - apply no_error_bind; [apply (no_error_refs _ _ Hr); sub|]. intro. apply no_error_ok.
  - apply no_error_bind; [apply (no_error_refs _ _ Hr); sub|]. intro. apply no_error_ok.
  - apply no_error_bind; [apply (no_error_refs _ _ Hr); sub|]. intro. apply no_error_ok.
  - apply no_error_bind; [apply Hr; sub|]. intro. apply no_error_ok.
  - destruct (any_bare a && is_nil (an_enumeration a)); [apply no_error_ok|].
    destruct (any_bare a && only_null (an_enumeration a)); [apply no_error_ok|].
    apply no_error_bind.
    { unfold any_number, any_bound. apply no_error_bind; [|intro; apply no_error_bind; [|intro; apply no_error_ok]].
      - destruct (an_minimum a), (an_exclusive_minimum a) as [[|]|]; apply no_error_ok || apply no_error_panic.
      - destruct (an_maximum a), (an_exclusive_maximum a) as [[|]|]; apply no_error_ok || apply no_error_panic. }
    intro. apply no_error_bind; [apply (no_error_props _ _ Hr); sub|].
    intro. apply no_error_bind; [apply (no_error_additional _ _ Hr); sub|].
    intro. apply no_error_bind; [apply (no_error_opt _ _ Hr); sub|].
    intro. apply no_error_bind; [apply (no_error_refs _ _ Hr); sub|].
    intro. apply no_error_bind; [apply (no_error_refs _ _ Hr); sub|].
    intro. apply no_error_bind; [apply (no_error_refs _ _ Hr); sub|].
    intro. apply no_error_bind; [apply (no_error_opt _ _ Hr); sub|].
    intro. cbv zeta. apply no_error_bind.
    + unfold any_type. destruct (an_typ a) as [t|]; [|apply no_error_ok]. destruct (type_named t); [apply no_error_ok|apply no_error_panic].
    + intros [[[]|]|]; try apply no_error_ok. destruct (is_some _); apply no_error_ok.
Qed.

Lemma to_schema_translated sch j : to_schema sch = Ok j -> translated sch j.
Proof. intros H refs matches format_ok Hk v. now apply to_schema_kept. Qed.

Lemma to_schema_convertible sch : convertible sch <-> exists j, to_schema sch = Ok j.
Proof.
  destruct sch as [n|s]; [split; [intros _; now eexists|now intros _ ? ?]|]. cbn. split.
  - intro H. apply convert_total. intros t Ht. now apply (H s t).
  - intros (j & Hj) s' t [= <-] Ht. apply (proj1 (convert_total s)); [now exists j|exact Ht].
Qed.

Lemma space_made ty sch tn t : ts_add (space_of ty) sch tn = Ok t -> made_from ty tn sch t.
Proof. 
  cbn. intro H. apply obind_ok in H as (j & Hj & H). split; [apply to_schema_convertible; now exists j|].
  exists j. split; [now apply to_schema_translated|exact H].
Qed.

Lemma typed_argument snake ty tn p t r : typed_param (space_of ty) tn p t r -> argument_type ty tn p (made snake p t r).
Proof.
  intros [d sch t' Hr Hs Ha|d sch t' k Hs Ha Hd Hk|d sch t' i Hs Ha Hd|d sch t' Hs Ha]; apply space_made in Ha.
  - apply (at_same _ _ _ _ sch t'); auto; easy.
  - apply (at_same _ _ _ _ sch t'); auto. intros _ i E. cbn in Hd. apply (Hk i). congruence.
  - apply (at_option _ _ _ _ sch t' i); auto.
  - apply (at_same _ _ _ _ sch t'); auto; easy.
Qed.

Lemma operation_typed U ty d e m : processed U (space_of ty) d e m -> typed_operation U ty d e m.
Proof.
  intro H. unfold processed in H. destruct (process_operation_params _ _ _ _ _ _ _ _ _ H)
    as (oid & others & own & qs & body & Hid & Hoth & Hown & Hqs & Hbody & _ & Hsort & Hpres & Hws & Hresp & _).
  destruct (sort_params_sorted _ _ _ Hpres Hsort) as (Hperm & _).
  assert (Hin : forall q, In q (m_params m) -> In q qs \/ body = Some q).
  { intros q Hq. apply (Permutation_in q Hperm) in Hq. apply in_app_iff in Hq as [Hq|Hq]; [now left|right].
    destruct body as [b|]; [|easy]. destruct Hq as [->|[]]. reflexivity. }
  split.
  - intros q Hq Hb. destruct (Hin q Hq) as [Hi|Hi].
    + destruct (forall2_In_r _ _ _ _ Hqs Hi) as (p & Hp & E). pose proof (process_param_stands _ _ _ _ _ _ E) as Hst.
      apply process_param_iff in E as (t & r & Ht & E). exists oid, others, own, p. apply combined_effective in Hp.
      repeat (split; [assumption|]). subst q. now apply typed_argument.
    + subst body. apply get_body_param_ok in Hbody as (ct & Hk & _). unfold is_body in Hb. rewrite Hk in Hb. discriminate.
  - intros q t Hq Hb Ht. destruct (Hin q Hq) as [Hi|Hi].
    { destruct (proj2 (params_made _ _ _ _ _ _ Hqs) q Hi) as (p & t' & r & Hp & Ht' & ->). inversion Ht'; subst; discriminate. }
    subst body. pose proof Hbody as Hget. unfold get_body_param in Hget. destruct (op_request_body (do_op e)) as [r|] eqn:Er; [|discriminate].
    apply obind_ok in Hget as (b & Hit & Hget). apply item_ok_iff in Hit.
    assert (Hc : rb_content b <> []) by (intro Ec; rewrite Ec in Hget; discriminate). clear Hget.
    destruct (body_parameter _ _ _ _ _ _ _ _ _ _ _ _ H Hid Er Hit Hc) as (cs & mt & ct & p & Ec & _ & Hp & Hk & _ & Hty).
    assert (p = q).
    { destruct (Hin p Hp) as [Hi|Hi]; [|congruence].
      destruct (proj2 (params_made _ _ _ _ _ _ Hqs) p Hi) as (p' & t' & r' & Hp' & Ht' & ->). inversion Ht'; subst; discriminate. }
    subst p. rewrite Ht in Hty. inversion Hty; subst; exists oid, r, b, cs, mt, sch; repeat (split; [assumption || reflexivity|]); now apply space_made.
  - intros o t Ho Ht. destruct (table_exists _ _ _ _ _ _ _ Hresp) as (table & Htab).
    pose proof (process_responses_lists _ _ _ _ _ _ _ Hresp _ Htab) as Hl. destruct o as [key k]. cbn [o_typ o_status] in *. subst k.
    destruct (proj1 (Hl key (RType t)) Ho) as [Hi|[(_ & _ & Hi)|(_ & _ & Hi)]]; [|discriminate|discriminate].
    destruct (proj1 (Htab key (RType t)) Hi) as (r & doc & He & Hr & Hk). inversion Hk; subst.
    exists oid, r, doc, pre, n, mt, post, sch. repeat (split; [assumption|]). now apply space_made.
Qed.

Lemma components_converted (l : list (str * ref_or schema)) js :
  mapM (fun nr : str * ref_or schema => do j <- to_schema (snd nr); Ok (fst nr, j)) l = Ok js <->
  Forall2 (fun nr nj => fst nr = fst nj /\ to_schema (snd nr) = Ok (snd nj)) l js.
Proof.
  rewrite mapM_ok_iff. split; intro H; induction H as [|nr nj l js H _ IH]; constructor; auto.
  - apply obind_ok in H as (j & Hj & H). injection H as <-. auto.
  - destruct nr, nj, H as (E & Hj). cbn in *. subst. now rewrite Hj.
Qed.

Lemma types_made U typify_refs types s d g l :
  generate_tokens U (add_converted typify_refs) types s d = Ok g -> operations_in_order d l ->
  exists js ty ms, typify_refs js = Ok ty
    /\ Forall2 (fun nr nj => fst nr = fst nj /\ convertible (snd nr) /\ translated (snd nr) (snd nj)) (schemas_of d) js
    /\ (forall refs matches format_ok prefix,
         (forall n sch, In (n, Item sch) (schemas_of d) -> all_kept refs matches format_ok sch) ->
         (meant_by_document refs matches format_ok prefix (schemas_of d) <-> meant_by_converted refs matches format_ok prefix js))
    /\ Forall2 (fun e m => processed U (space_of ty) d e m /\ typed_operation U ty d e m) l ms.
Proof.
  intros H Hl. unfold generate_tokens in H. apply obind_ok in H as ([] & _ & H). apply obind_ok in H as (ts & Ha & H).
  unfold add_converted in Ha. apply obind_ok in Ha as (js & Hj & Ha). apply obind_ok in Ha as (ty & Ht & Ha). injection Ha as <-.
  apply components_converted in Hj. fold (schemas_of d) in Hj.
  apply obind_ok in H as (groups & Hg & _). apply (process_paths _ _ _ _ 0%nat) in Hg.
  exists js, ty, (concat groups). split; [exact Ht|]. split; [|split].
  - clear -Hj. induction Hj as [|nr nj a b (E & Hc) _ IH]; constructor; auto. split; [exact E|split; [apply to_schema_convertible; now exists (snd nj)|now apply to_schema_translated]].
  - intros refs matches format_ok prefix Hk. now apply documents_agree.
  - rewrite (in_order_unique d l Hl). clear -Hg. induction Hg as [|e m a b Hp _ IH]; constructor; auto. split; [exact Hp|now apply operation_typed].
Qed.

Lemma panics_or {A} (x : outcome A) : (forall e, x <> Err e) -> ~ (exists a, x = Ok a) -> exists m, x = Panic m.
Proof. destruct x as [a|e|m]; intros H1 H2; [elim H2; eauto|now elim (H1 e)|eauto]. Qed.

Lemma unconvertible U typify_refs types s d n sch :
  validate_openapi U d = Ok tt -> In (n, sch) (schemas_of d) -> ~ convertible sch ->
  exists msg, generate_tokens U (add_converted typify_refs) types s d = Panic msg.
Proof.
  intros Hv Hin Hc. unfold generate_tokens. rewrite Hv. cbn [obind]. fold (schemas_of d).
  destruct (panics_or (mapM (fun nr : str * ref_or schema => do j <- to_schema (snd nr); Ok (fst nr, j)) (schemas_of d))) as (msg & Hm).
  - apply no_error_map. intros [n' [r|s']] _; [apply no_error_ok|]. apply no_error_bind; [apply convert_no_error|intro; apply no_error_ok].
  - intros (js & Hj). apply Hc. apply to_schema_convertible. apply mapM_ok in Hj.
    clear -Hj Hin. induction Hj as [|nr nj l l' H _ IH]; [easy|]. destruct Hin as [->|Hin]; [|auto].
    apply obind_ok in H as (j & H & _). now exists j.
  - exists msg. unfold add_converted. now rewrite Hm.
Qed.

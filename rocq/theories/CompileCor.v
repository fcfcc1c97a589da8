(** The conditions under which generated code compiles, for whole operations and documents. *)
From Verif Require Import Base OasModel ClientModel TemplateModel TemplateSpec SanitizeModel MethodModel OpModel RunModel BuilderModel
  StreamModel GenerateModel RequestSpec BuilderSpec GenerateSpec GenerateProofs
  CompileSpec CompileItemSpec CompileProofs CompileItemProofs CompileRunProofs CompileClientProofs.
Local Open Scope N_scope.

Section Method.
Context {has : type_id -> rust_trait -> Prop} {snake pascal : str -> str} {ts : type_space} {op : operation}
  {comps : option components} {ps : list piece} {method : str} {pp : list (ref_or parameter)} {h : hooks} {m : op_method} {sb : sig_body}.
Hypothesis Hp : process_operation snake pascal ts op comps (show ps) method pp = Ok m.
Hypothesis Hlax : lax ps.
Hypothesis Hsb : method_sig_body h m = Ok sb.

Lemma cor_method : method_ok has (scope m) sb <-> sound_operation has ps m sb.
Proof. exact (method_ok_iff has Hp Hlax Hsb). Qed.

Lemma cor_runs (V : Type) ctx fs (W : Type) (ops : world_ops W) args w : sound_operation has ps m sb ->
  (forall q w r w', w_execute ops q w = (ROk r, w') -> r_status r < 65536) ->
  arguments_for (m_params m) args ->
  fst (fst (run V ctx fs W ops sb (variables args) w)) <> DoesNotCompile.
Proof.
  intros Hs Hops (Ea & Hr). unfold run. apply (body_runs has V ctx fs W ops Hops _ _ (scope m)).
  - exact (proj2 (proj2 cor_method Hs)).
  - apply fits_zip. pose proof (so_params _ _ _ _ Hs) as Hu. unfold scope, variables. rewrite <- Ea in *. clear Ea.
    induction Hr as [|[p v] args Hv Hr IH]; cbn [map]; [constructor|]. cbn [map] in Hu. apply Forall_cons_iff in Hu as (Hu1 & Hu2).
    constructor; [|exact (IH Hu2)]. cbn [fst snd] in *. split; [reflexivity|]. clear -Hv Hu1.
    unfold variable_type, usable, required_param, is_optional in *.
    destruct (p_kind p) as [|r|r|ct] eqn:Ek, (p_typ p) as [t|] eqn:Et; cbn [is_required negb] in *; try easy.
    2,3: destruct r.
    all: destruct v as [v|]; try (now destruct (Hv I)); try (now destruct (Hv eq_refl)); cbn; (split; [|exact I]).
    all: first [apply ft_arg|apply ft_option|apply ft_body].
Qed.

Hypothesis Hsnake : snake (lit "page_token") = lit "page_token".

Lemma cor_positional types items all structs : positional_method types h m = Ok items -> incl items all ->
  (forall n doc params generic code, In (ImMethod n doc params generic code) all -> n = m_operation_id m ->
     In (ImMethod n doc params generic code) items) ->
  Forall (item_ok has ts all structs) items <-> sound_positional has ts ps m sb.
Proof. intro Hi. exact (positional_ok_iff has Hp Hlax Hsnake Hsb Hi all structs). Qed.

Lemma cor_builder types c : builder_struct types h m = Ok c -> builder_code_ok has ts c <-> sound_builder has ts types ps m sb.
Proof. intro Hc. exact (builder_ok_iff has Hp Hlax Hsnake Hsb Hc). Qed.

Lemma cor_builder_runs types c (B V : Type) b_default b_from b_try_from ctx fs (W : Type) (ops : world_ops W) cs :
  builder_struct types h m = Ok c -> sound_builder has ts types ps m sb ->
  (forall q w r w', w_execute ops q w = (ROk r, w') -> r_status r < 65536) ->
  Forall (offered c) cs ->
  exists st, build B b_default b_from (bc_fields c) cs = Some st
    /\ forall w, fst (fst (send B b_try_from V ctx fs W ops c st w)) <> DoesNotCompile.
Proof.
  intros Hc Hs Hops Hcs. pose proof (proj2 (cor_builder types c Hc) Hs) as Hok.
  destruct (build_fits has ts B b_default b_from c Hok cs Hcs) as (st & E & _). exists st. split; [exact E|]. intro w.
  exact (builder_runs has ts B b_default b_from b_try_from c Hok V ctx fs W ops Hops cs st w Hcs E).
Qed.
End Method.

Lemma token_unicode15 : snake unicode15 (lit "page_token") = lit "page_token".
Proof. vm_compute. reflexivity. Qed.

Lemma processed_unique U ts d l : forall ms ms', Forall2 (processed U ts d) l ms -> Forall2 (processed U ts d) l ms' -> ms = ms'.
Proof.
  induction l as [|e l IH]; intros ms ms' F F'; inversion F; inversion F'; subst; auto. f_equal; auto.
  unfold processed in *. congruence.
Qed.

Lemma cor_client has add_ref_types types s d g ts l ms :
  generate_tokens unicode15 add_ref_types types s d = Ok g -> operations_in_order d l ->
  add_ref_types (match oa_components d with Some c => co_schemas c | None => [] end) = Ok ts ->
  Forall2 (processed unicode15 ts d) l ms ->
  file_ok has ts g <-> sound_client has ts types unicode15 s l ms.
Proof.
  intros Hg Hl Ht F. destruct (types_run _ _ _ _ _ _ _ Hg Ht) as (ms' & R). pose proof (ro_ops _ _ _ _ _ _ _ R l Hl) as F'.
  rewrite (processed_unique _ _ _ _ _ _ F F') in *. unfold sound_client. destruct (se_interface s) eqn:Ei.
  - exact (positional_client has unicode15 token_unicode15 types s d g ts ms' l R F' Ei).
  - exact (builder_client has unicode15 token_unicode15 types s d g ts ms' l R F' Ei).
Qed.

(** ** The names of a positional client *)

Lemma stream_names (fixed : list str) ms : (forall x, In x fixed -> forall n, x <> n ++ lit "_stream") -> NoDup fixed ->
  NoDup (fixed ++ flat_map positional_names ms) <->
  NoDup (map m_operation_id ms) /\ (forall m, In m ms -> ~ In (m_operation_id m) fixed)
  /\ (forall m n, In m ms -> In n ms -> m_paginated m <> None -> m_operation_id n <> m_operation_id m ++ lit "_stream").
Proof.
  intros Hfs Hfd.
  assert (Hself : forall n : str, n <> n ++ lit "_stream").
  { intros n E. apply (f_equal (@length N)) in E. rewrite app_length in E. change (length (lit "_stream")) with 7%nat in E. lia. }
  assert (Hin : forall x xs, In x (flat_map positional_names xs) <->
    exists m, In m xs /\ (x = m_operation_id m \/ m_paginated m <> None /\ x = m_operation_id m ++ lit "_stream")).
  { intros x xs. rewrite in_flat_map. split; intros (m & Hm & Hx); exists m; (split; [exact Hm|]); unfold positional_names in *.
    - destruct (m_paginated m); [destruct Hx as [<-|[<-|[]]]; [now left|right; split; [discriminate|reflexivity]]|destruct Hx as [<-|[]]; now left].
    - destruct (m_paginated m); [destruct Hx as [->|(_ & ->)]; [now left|right; now left]|destruct Hx as [->|(H & _)]; [now left|easy]]. }
  assert (Hnd : NoDup (flat_map positional_names ms) <-> NoDup (map m_operation_id ms)
    /\ (forall m n, In m ms -> In n ms -> m_paginated m <> None -> m_operation_id n <> m_operation_id m ++ lit "_stream")).
  { induction ms as [|m ms IH]; [cbn; split; [split; [constructor|easy]|constructor]|]. cbn [flat_map map]. rewrite nodup_app_iff, IH, NoDup_cons_iff.
    clear IH. split.
    - intros (Hm & (Hd & Hs) & Hx).
      assert (Hm1 : forall x, In x ms -> m_operation_id m <> m_operation_id x).
      { intros x Hi E. apply (Hx (m_operation_id m)); [unfold positional_names; destruct (m_paginated m); now left|]. apply Hin. exists x. auto. }
      split; [split; [|exact Hd]|].
      + intro Hi. apply in_map_iff in Hi as (x & E & Hi). now apply (Hm1 x Hi).
      + intros a b [<-|Ha] [<-|Hb] Hp; [apply Hself| | |now apply Hs].
        * intro E. apply (Hx (m_operation_id b)); [unfold positional_names; destruct (m_paginated m); [right; left; now symmetry|easy]|]. apply Hin. exists b. auto.
        * intro E. apply (Hx (m_operation_id m)); [unfold positional_names; destruct (m_paginated m); now left|]. apply Hin. exists a. auto.
    - intros ((Hn & Hd) & Hs). split; [|split; [split; [exact Hd|intros a b Ha Hb; apply Hs; now right]|]].
      + unfold positional_names. destruct (m_paginated m); repeat constructor; cbn; try easy. intros [E|[]]. now apply (Hself (m_operation_id m)).
      + intros x Hx Hi. apply Hin in Hi as (y & Hy & Hi).
        assert (Hcase : x = m_operation_id m \/ m_paginated m <> None /\ x = m_operation_id m ++ lit "_stream").
        { assert (H : In x (flat_map positional_names [m])) by (cbn; now rewrite app_nil_r). apply Hin in H as (z & [<-|[]] & H). exact H. }
        destruct Hcase as [->|(Hp & ->)], Hi as [E|(Hp' & E)].
        * apply Hn. rewrite E. now apply in_map.
        * apply (Hs y m (or_intror Hy) (or_introl eq_refl) Hp' E).
        * apply (Hs m y (or_introl eq_refl) (or_intror Hy) Hp). now symmetry.
        * apply app_inv_tail in E. apply Hn. rewrite E. now apply in_map. }
  rewrite nodup_app_iff, Hnd. split.
  - intros (_ & (H1 & H2) & H3). split; [exact H1|]. split; [|exact H2]. intros m Hm Hf. apply (H3 _ Hf). apply Hin. exists m. auto.
  - intros (H1 & H2 & H3). split; [exact Hfd|]. split; [auto|]. intros x Hx Hi. apply Hin in Hi as (m & Hm & [->|(_ & E)]).
    + now apply (H2 m Hm).
    + now apply (Hfs x Hx (m_operation_id m)).
Qed.

Lemma cor_names U add_ref_types types s d g ts l ms :
  generate_tokens U add_ref_types types s d = Ok g -> operations_in_order d l ->
  add_ref_types (match oa_components d with Some c => co_schemas c | None => [] end) = Ok ts ->
  Forall2 (processed U ts d) l ms -> se_interface s = Positional ->
  NoDup (ge_fixed g ++ map im_name (oc_impl (ge_code g))) <->
  NoDup (map (method_name U) l)
  /\ (forall e, In e l -> ~ In (method_name U e) (fixed_methods s))
  /\ (forall e m f, In e l -> processed U ts d e m -> m_paginated m <> None -> In f l -> method_name U f <> method_name U e ++ lit "_stream").
Proof.
  intros Hg Hl Ht F Hi. destruct (types_run _ _ _ _ _ _ _ Hg Ht) as (ms' & R).
  pose proof (processed_unique _ _ _ _ _ _ F (ro_ops _ _ _ _ _ _ _ R l Hl)) as E. subst ms'.
  pose proof (ro_code _ _ _ _ _ _ _ R) as Hc. unfold code_for in Hc. rewrite Hi in Hc.
  destruct (se_tag s); [|discriminate]. unfold generate_tokens_positional_merged in Hc. apply obind_ok in Hc as (items & Hm & Hc).
  apply mapM_ok in Hm. assert (E : ge_code g = OperationCode (concat items) [] [] [lit "Client"]) by congruence.
  assert (Hnames : map im_name (concat items) = flat_map positional_names ms).
  { clear -Hm. induction Hm as [|m its ms items H _ IH]; [reflexivity|]. cbn [concat flat_map]. rewrite map_app, IH. f_equal.
    apply positional_items in H as (tys & sb & rest & _ & _ & -> & [(E & ->)|(E & ->)]); unfold positional_names.
    - now rewrite E.
    - destruct (m_paginated m); [reflexivity|easy]. }
  rewrite (ro_fixed _ _ _ _ _ _ _ R), E. cbn [oc_impl]. rewrite Hnames, stream_names.
  - rewrite (method_names _ _ _ _ _ F). split; intros (H1 & H2 & H3); (split; [exact H1|split]).
    + intros e He. destruct (forall2_left _ _ _ _ F He) as (m & Hm' & Hp). rewrite <- (fa_name _ _ _ _ (processed_facts _ _ _ _ _ Hp)). now apply H2.
    + intros e m f He Hp Hpg Hf. destruct (forall2_left _ _ _ _ F He) as (m' & Hm' & Hp'). assert (m' = m) by (unfold processed in *; congruence). subst m'.
      destruct (forall2_left _ _ _ _ F Hf) as (n & Hn & Hpn).
      rewrite <- (fa_name _ _ _ _ (processed_facts _ _ _ _ _ Hp)), <- (fa_name _ _ _ _ (processed_facts _ _ _ _ _ Hpn)). now apply H3.
    + intros m Hm'. destruct (forall2_right _ _ _ _ F Hm') as (e & He & Hp). rewrite (fa_name _ _ _ _ (processed_facts _ _ _ _ _ Hp)). now apply H2.
    + intros m n Hm' Hn Hpg. destruct (forall2_right _ _ _ _ F Hm') as (e & He & Hp). destruct (forall2_right _ _ _ _ F Hn) as (f & Hf & Hpf).
      rewrite (fa_name _ _ _ _ (processed_facts _ _ _ _ _ Hp)), (fa_name _ _ _ _ (processed_facts _ _ _ _ _ Hpf)). now apply (H3 e m f).
  - intros x Hx n En. apply (f_equal (@rev N)) in En. rewrite rev_app_distr in En. unfold fixed_methods in Hx. apply in_app_iff in Hx as [Hx|Hx].
    + repeat (destruct Hx as [<-|Hx]; [vm_compute in En; discriminate En|]). easy.
    + destruct (se_inner s); [|easy]. destruct Hx as [<-|[]]. vm_compute in En. discriminate En.
  - unfold fixed_methods. destruct (se_inner s); repeat (constructor; [cbn; intuition discriminate|]); constructor.
Qed.

Lemma cor_builder_names U add_ref_types types s d g l :
  generate_tokens U add_ref_types types s d = Ok g -> operations_in_order d l -> se_interface s = Builder ->
  NoDup (ge_fixed g ++ map im_name (oc_impl (ge_code g))) <->
  (let own := match se_tag s with Merged => l | Separate => filter untagged l end in
  NoDup (map (method_name U) own) /\ (forall e, In e own -> ~ In (method_name U e) (fixed_methods s))).
Proof.
  intros Hg Hl Hi. cbv zeta. set (own := match se_tag s with Merged => l | Separate => filter untagged l end). destruct (generate_run _ _ _ _ _ _ Hg) as (ts & ms & R).
  pose proof (ro_ops _ _ _ _ _ _ _ R l Hl) as F.
  assert (E : map im_name (oc_impl (ge_code g)) = map (method_name U) own).
  { subst own. pose proof (ro_code _ _ _ _ _ _ _ R) as Hc. unfold code_for in Hc. rewrite Hi in Hc. destruct (se_tag s).
    - unfold generate_tokens_builder_merged in Hc. apply obind_ok in Hc as (st & _ & Hc).
      assert (E : ge_code g = OperationCode (map (builder_helper U) ms) [] st [lit "Client"]) by congruence. rewrite E. cbn [oc_impl].
      rewrite helper_names. apply (method_names _ _ _ _ _ F).
    - unfold generate_tokens_builder_separate in Hc. apply obind_ok in Hc as (st & _ & Hc).
      destruct (builder_tags U ms _) as (base & traits) eqn:Et.
      assert (E : ge_code g = OperationCode base traits st (lit "Client" :: map tc_name traits)) by congruence. rewrite E. cbn [oc_impl].
      apply (builder_tags_spec _ _ _ _ _ _ _ F Et). }
  rewrite (ro_fixed _ _ _ _ _ _ _ R), E, nodup_app_iff. split.
  - intros (_ & H1 & H2). split; [exact H1|]. intros e He Hf. apply (H2 _ Hf). now apply in_map.
  - intros (H1 & H2). split; [|split; [exact H1|]].
    + unfold fixed_methods. destruct (se_inner s); repeat (constructor; [cbn; intuition discriminate|]); constructor.
    + intros x Hx Hin. apply in_map_iff in Hin as (e & <- & He). now apply (H2 e He).
Qed.

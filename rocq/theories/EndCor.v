(** A client that compiles does what the document says. *)
From Verif Require Import Base OasModel ClientModel TemplateModel TemplateSpec TemplateProofs SanitizeModel MethodModel OpModel RunModel
  BuilderModel FutureModel StreamModel GenerateModel RequestSpec BuilderSpec DocSpec DocProofs BuilderProofs BuilderCor StreamSpec PageProofs PageCor
  GenerateSpec ParamProofs GenerateProofs GenerateCor CompileSpec CompileItemSpec CompileProofs CompileItemProofs CompileClientProofs CompileCor EndSpec.
Local Open Scope N_scope.

(** ** Single operations *)

Lemma sound_generated has snake pascal ts op comps ps method pp h m sb :
  process_operation snake pascal ts op comps (show ps) method pp = Ok m -> lax ps -> method_sig_body h m = Ok sb ->
  sound_operation has ps m sb -> generated snake pascal ts comps op ps method pp h m sb.
Proof.
  intros Hp Hlax Hsb [S1 S2 S3 S4 S5 _ _].
  pose proof (operation_well_named Hp S1) as (_ & _ & Hw). split; auto.
  - apply strict_lax. auto.
  - unfold no_header_map. rewrite Forall_forall in *. intros p Hi. specialize (S5 p Hi). specialize (Hw p Hi). unfold usable in S5.
    destruct (p_kind p) as [|r|r|ct]; [easy| | |].
    1,2: destruct (p_typ p) as [t|]; [exact (proj2 S5)|easy].
    rewrite (proj1 Hw). discriminate.
  - destruct S3 as [H|H]; [now left|right]. apply Forall_forall. intros p Hi E. apply H. rewrite <- E. now apply in_map.
Qed.

Lemma gives_arguments {B} types (b_default : type_id -> B) b_from b_try_from cs ps args : map fst args = ps ->
  Forall (fun pv => gives types b_default b_from b_try_from cs (fst pv) (ROk (snd pv))) args -> arguments_for ps args.
Proof.
  intros E F. split; [exact E|]. rewrite Forall_forall in *. intros (p & v) Hi Hr. specialize (F _ Hi). cbn [fst snd] in *.
  inversion F as [H1 H2 H3 H4| |v' H1 H2 H4| |t b v' H1 H2 H3 H4| |]; try discriminate.
  intros _. unfold is_optional, required_param in *. destruct (p_kind p) as [|[]|[]|]; cbn in *; congruence.
Qed.

Lemma documented_doc {V W} U ts d h e m ps sb ctx fs (ops : world_ops W) args w :
  code_of U ts d h e m ps sb -> callable ctx m args ->
  documented_call U ts d h e m ps sb ctx fs ops args w (run V ctx fs W ops sb (variables args) w).
Proof.
  intros [_ G] C. destruct (generated_table G) as (t & Ht).
  destruct (doc_run G C (fs := fs) (ops := ops) t w Ht) as (out & tr & w' & -> & [(err & Hr & -> & -> & ->)|(He & q & Hq & Hc)]).
  - now apply dl_refused.
  - now apply (dl_call U ts d h e m ps sb ctx fs ops args w t q out tr w').
Qed.

Lemma offered_legal {B} types h m c (call : setter_call B) : builder_struct types h m = Ok c -> builder_ok types m ->
  offered c call -> legal_call types m call.
Proof.
  intros Hc Hok. pose proof (cases Hc Hok) as F. destruct call as [n v|f]; cbn [offered legal_call].
  - intro H. apply in_map_iff in H as (f & <- & Hf). destruct (forall2_right _ _ _ _ F Hf) as (p & Hp & _ & -> & _). now apply in_map.
  - intros (fl & t & msg & Hf & Hs). destruct (forall2_right _ _ _ _ F Hf) as (p & Hp & Hcase & _).
    exists p. destruct Hcase as [t' ty H1 _ _ _ _ _ H2|ty _ _ _ _ _ _ H2|ty _ _ _ _ _ _ [H2|H2]]; try congruence. eauto.
Qed.

(** ** Whole clients *)

Section Client.
Context {has : type_id -> rust_trait -> Prop} {add_ref_types : list (str * ref_or schema) -> outcome type_space}
  {types : type_id -> option type_info} {s : settings} {d : openapi} {g : generated_code} {ts : type_space} {l : list doc_op}.
Hypothesis Hg : generate_tokens unicode15 add_ref_types types s d = Ok g.
Hypothesis Hl : operations_in_order d l.
Hypothesis Ht : add_ref_types (match oa_components d with Some c => co_schemas c | None => [] end) = Ok ts.
Hypothesis Hok : file_ok has ts g.
Notation code := (code_of unicode15 ts d (se_hooks s)).
Notation documented := (documented_call unicode15 ts d (se_hooks s)).

Lemma client_run : exists ms, run_of unicode15 types s d g ts ms /\ Forall2 (processed unicode15 ts d) l ms
  /\ sound_client has ts types unicode15 s l ms.
Proof.
  destruct (types_run _ _ _ _ _ _ _ Hg Ht) as (ms & R). pose proof (ro_ops _ _ _ _ _ _ _ R l Hl) as F.
  exists ms. split; [exact R|]. split; [exact F|]. exact (proj1 (cor_client _ _ _ _ _ _ _ _ _ Hg Hl Ht F) Hok).
Qed.

Lemma sound_code e m ps sb : processed unicode15 ts d e m -> do_path e = show ps -> lax ps ->
  method_sig_body (se_hooks s) m = Ok sb -> sound_operation has ps m sb -> code e m ps sb.
Proof.
  intros Hp E Hlax Hsb Hs. split; [exact E|]. unfold processed in Hp. rewrite E in Hp. exact (sound_generated _ _ _ _ _ _ _ _ _ _ _ _ Hp Hlax Hsb Hs).
Qed.

Lemma forall2_and {A B} (R S : A -> B -> Prop) a b : Forall2 R a b -> Forall2 S a b -> Forall2 (fun x y => R x y /\ S x y) a b.
Proof. intro F. induction F; intro G; inversion G; subst; constructor; auto. Qed.

(** *** The positional style *)

Section Positional.
Hypothesis Hi : se_interface s = Positional.

Lemma end_positional : Forall2 (fun e i => exists m ps sb doc tys generic,
    i = ImMethod (method_name unicode15 e) doc (combine (map p_name (m_params m)) tys) generic sb
    /\ length tys = length (m_params m) /\ code e m ps sb
    /\ forall V ctx fs W (ops : world_ops W) args w, callable ctx m args ->
       documented e m ps sb ctx fs ops args w (run V ctx fs W ops sb (variables args) w))
  l (own_methods (ge_code g)).
Proof.
  destruct client_run as (ms & R & F & Hs). unfold sound_client in Hs. rewrite Hi in Hs. destruct Hs as (_ & Hs).
  pose proof (ro_code _ _ _ _ _ _ _ R) as Hc. unfold code_for in Hc. rewrite Hi in Hc.
  destruct (se_tag s); [|discriminate]. apply positional_own in Hc.
  eapply Forall2_trans; [|exact (forall2_and _ _ _ _ F Hs)|exact Hc]. cbn.
  intros e m i (Hp & ps & sb' & E & Hlax & Hsb' & So & _) (tys & sb & H1 & H2 & ->).
  rewrite H2 in Hsb'. injection Hsb' as <-. pose proof (sound_code e m ps sb Hp E Hlax H2 So) as Hcode.
  exists m, ps, sb, (make_doc_comment m), tys, (existsb raw_body_param (m_params m)).
  split; [now rewrite (fa_name _ _ _ _ (processed_facts _ _ _ _ _ Hp))|]. split; [apply mapM_ok, Forall2_len in H1; auto|].
  split; [exact Hcode|]. intros V ctx fs W ops args w C. now apply documented_doc.
Qed.

Lemma end_positional_streams e m ps sb : In e l -> code e m ps sb -> m_paginated m <> None ->
  (exists doc params generic, In (ImStream (method_name unicode15 e ++ lit "_stream") doc params generic (method_name unicode15 e)
     (first_params (m_params m)) (step_params (m_params m))) (oc_impl (ge_code g)))
  /\ forall V page_items page_next ctx fs W (ops : world_ops W) args, map fst args = m_params m ->
     (forall p o, In (p, o) args -> p_api_name p = lit "page_token" -> o = None) ->
     StreamSpec.streams page_items page_next (page_request ctx fs ops sb args)
       (positional_stream V page_items page_next ctx fs W ops sb (m_params m) (variables (without_token args))) FlatFirst.
Proof.
  intros He [E G] Hpg. destruct client_run as (ms & R & F & Hs). unfold sound_client in Hs. rewrite Hi in Hs. destruct Hs as (_ & Hs).
  destruct (forall2_left _ _ _ _ (forall2_and _ _ _ _ F Hs) He) as (m' & Hm & Hp & ps' & sb' & E' & Hlax & Hsb' & _ & Hst).
  assert (m' = m). { pose proof (g_process _ _ _ _ _ _ _ _ _ _ _ G). unfold processed in Hp. rewrite E in Hp. congruence. } subst m'.
  specialize (Hst Hpg). split.
  - pose proof (ro_code _ _ _ _ _ _ _ R) as Hc. unfold code_for in Hc. rewrite Hi in Hc.
    destruct (se_tag s); [|discriminate]. unfold generate_tokens_positional_merged in Hc. apply obind_ok in Hc as (items & Hits & Hc).
    injection Hc as <-. apply mapM_ok in Hits. destruct (forall2_left _ _ _ _ Hits Hm) as (its & Hin & Hits').
    apply positional_items in Hits' as (tys & sb0 & rest & _ & _ & -> & [(E1 & ->)|(E1 & ->)]); [easy|].
    rewrite <- (fa_name _ _ _ _ (processed_facts _ _ _ _ _ Hp)). eexists _, _, _. cbn [oc_impl]. apply in_concat.
    eexists. split; [exact Hin|]. right. left. reflexivity.
  - intros V page_items page_next ctx fs W ops args Ha Htok. apply cor_positional_streams. split; auto.
    + destruct (m_paginated m) as [pg|] eqn:Ep; [|easy].
      refine (recognised_params _ pg token_unicode15 (g_names _ _ _ _ _ _ _ _ _ _ _ G) Ep). exact (g_process _ _ _ _ _ _ _ _ _ _ _ G).
    + intros p Hin Hr [H|[H|[H|[]]]]; destruct (ss_names _ _ Hst p Hin Hr) as (H1 & H2 & H3); auto.
Qed.
End Positional.

(** *** The builder style *)

Section Builder.
Hypothesis Hi : se_interface s = Builder.

Lemma end_builder : Forall2 (fun e sc => exists m ps, sc_name sc = builder_name unicode15 e
    /\ code e m ps (bc_send (sc_code sc)) /\ builder_struct types (se_hooks s) m = Ok (sc_code sc)
    /\ forall B (b_default : type_id -> B) b_from cs, Forall (offered (sc_code sc)) cs ->
       exists st, build B b_default b_from (bc_fields (sc_code sc)) cs = Some st
       /\ forall b_try_from,
       (exists pre p post msg, m_params m = pre ++ p :: post
          /\ Forall (fun q => exists o, gives types b_default b_from b_try_from cs q (ROk o)) pre
          /\ gives types b_default b_from b_try_from cs p (RErr msg)
          /\ forall V ctx fs W (ops : world_ops W) w,
             send B b_try_from V ctx fs W ops (sc_code sc) st w = (Returned (RErr (InvalidRequest msg)), [], w))
       \/ (exists args, map fst args = m_params m
          /\ Forall (fun pv => gives types b_default b_from b_try_from cs (fst pv) (ROk (snd pv))) args
          /\ forall V ctx fs W (ops : world_ops W) w, legal_names ctx (m_params m) -> url_headers_ok ctx ->
             documented e m ps (bc_send (sc_code sc)) ctx fs ops args w (send B b_try_from V ctx fs W ops (sc_code sc) st w)))
  l (oc_builders (ge_code g)).
Proof.
  destruct client_run as (ms & R & F & Hs). unfold sound_client in Hs. rewrite Hi in Hs. destruct Hs as (_ & _ & _ & _ & Hs).
  pose proof (builder_structs _ _ _ _ _ _ Hi (ro_code _ _ _ _ _ _ _ R)) as Hst.
  eapply Forall2_trans; [|exact (forall2_and _ _ _ _ F Hs)|exact Hst]. cbn.
  intros e m sc (Hp & ps & sb & E & Hlax & Hsb & So) (Hn & Hc).
  destruct (builder_struct_ok _ _ _ _ Hc) as (_ & Hsb' & _). rewrite Hsb in Hsb'. injection Hsb' as ->.
  pose proof (sound_code e m ps _ Hp E Hlax Hsb (sd_operation _ _ _ _ _ _ So)) as Hcode. exists m, ps.
  assert (Hbok : builder_ok types m).
  { destruct So as [S1 S2 _ _ _ _ _ _]. split; [exact (so_names _ _ _ _ S1)|exact S2]. }
  split. { rewrite Hn. unfold builder_name. now rewrite (fa_name _ _ _ _ (processed_facts _ _ _ _ _ Hp)). }
  split; [exact Hcode|]. split; [exact Hc|]. intros B b_default b_from cs Hcs.
  assert (Hlegal : Forall (legal_call types m) cs).
  { rewrite Forall_forall in *. intros call Hin. exact (offered_legal _ _ _ _ _ Hc Hbok (Hcs call Hin)). }
  destruct (cor_total types b_default b_from (se_hooks s) m (sc_code sc) cs Hc Hbok Hlegal) as (st & Hb).
  exists st. split; [exact (bu_built _ _ _ _ _ _ _ _ Hb)|]. intro b_try_from.
  destruct (cor_decided b_try_from Hb) as [(args & Ha & Hgives)|(pre & p & post & msg & H1 & H2 & H3)]; [right|left].
  - exists args. split; [exact Ha|]. split; [exact Hgives|]. intros V ctx fs W ops w Hleg Huh.
    destruct (BuilderCor.cor_runs (fs := fs) (ctx := ctx) (ops := ops) b_try_from Hb args w Ha Hgives) as (sb & Esb & ->).
    rewrite Hsb in Esb. injection Esb as <-. apply documented_doc; [exact Hcode|].
    split; auto. eapply gives_arguments; eauto.
  - exists pre, p, post, msg. split; [exact H1|]. split; [exact H2|]. split; [exact H3|]. intros V ctx fs W ops w.
    exact (cor_refused b_try_from Hb pre p post msg w H1 H2 H3).
Qed.

Lemma end_builder_streams sc e m ps : In sc (oc_builders (ge_code g)) -> In e l -> sc_name sc = builder_name unicode15 e ->
  code e m ps (bc_send (sc_code sc)) -> m_paginated m <> None ->
  exists resets, bc_stream (sc_code sc) = Some resets
  /\ forall B (b_default : type_id -> B) b_from b_try_from cs st args,
     Forall (offered (sc_code sc)) cs -> build B b_default b_from (bc_fields (sc_code sc)) cs = Some st ->
     map fst args = m_params m -> Forall (fun pv => gives types b_default b_from b_try_from cs (fst pv) (ROk (snd pv))) args ->
     forall V page_items page_next ctx fs W (ops : world_ops W),
     StreamSpec.streams page_items page_next (page_request ctx fs ops (bc_send (sc_code sc)) args)
       (builder_stream V page_items page_next ctx fs W ops B b_try_from (sc_code sc) resets st) FlatFirst.
Proof.
  intros Hsc He Hn [E G] Hpg.
  destruct client_run as (ms & R & F & Hs). unfold sound_client in Hs. rewrite Hi in Hs. destruct Hs as (_ & _ & Hnd & _ & Hs).
  pose proof (builder_structs _ _ _ _ _ _ Hi (ro_code _ _ _ _ _ _ _ R)) as Hst.
  destruct (forall2_left _ _ _ _ (forall2_and _ _ _ _ F Hs) He) as (m' & Hm & Hp & ps' & sb' & E' & Hlax & Hsb & So).
  assert (m' = m). { pose proof (g_process _ _ _ _ _ _ _ _ _ _ _ G). unfold processed in Hp. rewrite E in Hp. congruence. } subst m'.
  assert (Hc : builder_struct types (se_hooks s) m = Ok (sc_code sc)).
  { destruct (forall2_right _ _ _ _ Hst Hsc) as (m' & Hm' & Hn' & Hc').
    assert (m' = m); [|now subst].
    apply (same_name (fun m => pascal unicode15 (m_operation_id m)) ms); auto. cbn. unfold pascal. rewrite <- Hn', Hn.
    unfold builder_name. now rewrite (fa_name _ _ _ _ (processed_facts _ _ _ _ _ Hp)). }
  assert (Hbok : builder_ok types m).
  { destruct So as [S1 S2 _ _ _ _ _ _]. split; [exact (so_names _ _ _ _ S1)|exact S2]. }
  pose proof (proj2 (cor_stream_generated _ _ _ _ Hc) Hpg) as Hs'. destruct (bc_stream (sc_code sc)) as [resets|] eqn:Er; [|easy].
  exists resets. split; [reflexivity|]. intros B b_default b_from b_try_from cs st args Hcs Hb Ha Hgives V page_items page_next ctx fs W ops.
  assert (Hbuilt : built types b_default b_from (se_hooks s) m (sc_code sc) cs st).
  { split; auto. rewrite Forall_forall in *. intros call Hin. exact (offered_legal _ _ _ _ _ Hc Hbok (Hcs call Hin)). }
  apply (cor_builder_streams b_try_from Hbuilt); auto.
  destruct (m_paginated m) as [pg|] eqn:Ep; [|easy].
  refine (recognised_params _ pg token_unicode15 (g_names _ _ _ _ _ _ _ _ _ _ _ G) Ep). exact (g_process _ _ _ _ _ _ _ _ _ _ _ G).
Qed.
End Builder.
End Client.

(** Calls on a client. *)
From Verif Require Import Base OasModel HeaderModel ClientModel TemplateModel TemplateSpec TemplateProofs SanitizeModel MethodModel OpModel RunModel
  BuilderModel FutureModel StreamModel GenerateModel RequestSpec BuilderSpec DocSpec DocProofs BuilderProofs BuilderCor StreamSpec PageProofs PageCor
  GenerateSpec ParamProofs GenerateProofs GenerateCor CompileSpec CompileItemSpec CompileProofs CompileItemProofs CompileClientProofs CompileCor
  EndSpec EndCor ConstructModel PanicSpec PanicProofs.
Local Open Scope N_scope.

Lemma decided_doc {V W} U ts d h e m ps sb ctx fs (ops : world_ops W) args w :
  code_of U ts d h e m ps sb -> c_api_version ctx = oa_version d -> arguments_for (m_params m) args ->
  decided_call U ts d h e m ps sb ctx fs ops args w (run V ctx fs W ops sb (variables args) w).
Proof.
  intros [_ G] Ev Ha. destruct (generated_table G) as (t & Ht). destruct (generated_lists G t Ht) as (H1 & H2 & H3).
  pose proof G as [Hst Hpr Hme Hna Hhm Hep Hsm].
  destruct (process_operation_params _ _ _ _ _ _ _ _ _ Hpr) as (oid & pi & ops' & qs & body & _ & _ & _ & _ & _ & Hpa & _).
  destruct (run_total ctx V fs W ops h m sb ps args (m_websocket m) t w) as [(msg & Hp & ->)|(Hn & out & tr & w' & -> & H)]; auto.
  - now apply (operation_well_named Hpr).
  - apply dd_panics. now rewrite <- Ev.
  - apply dd_call; [now rewrite <- Ev|]. destruct H as [(err & Hr & -> & -> & ->)|(He & q & Hq & Hc)].
    + now apply dl_refused.
    + now apply (dl_call U ts d h e m ps sb ctx fs ops args w t q out tr w').
Qed.

Lemma decided_version {V W} U ts d h e m ps sb ctx fs (ops : world_ops W) args w r : ~ printable (oa_version d) ->
  decided_call (V := V) U ts d h e m ps sb ctx fs ops args w r -> r = (Panicked (lit "invalid header value"), [], w).
Proof.
  intros Hn [msg [H|pre n t post H _ _ _ _]|r' H _]; [reflexivity|contradiction|]. elim (H (lit "invalid header value")). now constructor.
Qed.

Section Client.
Context {has : type_id -> rust_trait -> Prop} {add_ref_types : list (str * ref_or schema) -> outcome type_space}
  {types : type_id -> option type_info} {s : settings} {d : openapi} {g : generated_code} {ts : type_space} {l : list doc_op}.
Hypothesis Hg : generate_tokens unicode15 add_ref_types types s d = Ok g.
Hypothesis Hl : operations_in_order d l.
Hypothesis Ht : add_ref_types (match oa_components d with Some c => co_schemas c | None => [] end) = Ok ts.
Hypothesis Hok : file_ok has ts g.
Notation code := (code_of unicode15 ts d (se_hooks s)).
Notation decided := (decided_call unicode15 ts d (se_hooks s)).

Lemma version_is : ge_version g = oa_version d.
Proof.
  pose proof Hg as H. unfold generate_tokens in H. repeat (apply obind_ok in H as (? & _ & H)). now injection H as <-.
Qed.

Lemma panic_positional : se_interface s = Positional -> Forall2 (fun e i => exists m ps sb doc tys generic,
    i = ImMethod (method_name unicode15 e) doc (combine (map p_name (m_params m)) tys) generic sb
    /\ length tys = length (m_params m) /\ code e m ps sb
    /\ forall C I (c : client_value C I) parse_url query_error json_error key V fs W (ops : world_ops W) args w,
       arguments_for (m_params m) args ->
       let ctx := context_of g c parse_url query_error json_error key in
       decided e m ps sb ctx fs ops args w (run V ctx fs W ops sb (variables args) w))
  l (own_methods (ge_code g)).
Proof.
  intro Hi. eapply forall2_impl; [|exact (end_positional Hg Hl Ht Hok Hi)]. cbn beta.
  intros e i (m & ps & sb & doc & tys & generic & H1 & H2 & H3 & _). exists m, ps, sb, doc, tys, generic.
  split; [exact H1|]. split; [exact H2|]. split; [exact H3|]. intros. apply decided_doc; auto. exact version_is.
Qed.

Lemma panic_builder : se_interface s = Builder -> Forall2 (fun e sc => exists m ps, sc_name sc = builder_name unicode15 e
    /\ code e m ps (bc_send (sc_code sc)) /\ builder_struct types (se_hooks s) m = Ok (sc_code sc)
    /\ forall B (b_default : type_id -> B) b_from b_try_from cs st args, Forall (offered (sc_code sc)) cs ->
       build B b_default b_from (bc_fields (sc_code sc)) cs = Some st -> map fst args = m_params m ->
       Forall (fun pv => gives types b_default b_from b_try_from cs (fst pv) (ROk (snd pv))) args ->
       forall C I (c : client_value C I) parse_url query_error json_error key V fs W (ops : world_ops W) w,
       let ctx := context_of g c parse_url query_error json_error key in
       decided e m ps (bc_send (sc_code sc)) ctx fs ops args w (send B b_try_from V ctx fs W ops (sc_code sc) st w))
  l (oc_builders (ge_code g)).
Proof.
  intro Hi. destruct (client_run Hg Hl Ht Hok) as (ms & R & F & Hs). unfold sound_client in Hs. rewrite Hi in Hs. destruct Hs as (_ & _ & _ & _ & Hs).
  pose proof (builder_structs _ _ _ _ _ _ Hi (ro_code _ _ _ _ _ _ _ R)) as Hst.
  eapply Forall2_trans; [|exact (forall2_and _ _ _ _ F Hs)|exact Hst]. cbn.
  intros e m sc (Hp & ps & sb & E & Hlax & Hsb & So) (Hn & Hc).
  destruct (builder_struct_ok _ _ _ _ Hc) as (_ & Hsb' & _). rewrite Hsb in Hsb'. injection Hsb' as ->.
  pose proof (sound_code e m ps _ Hp E Hlax Hsb (sd_operation _ _ _ _ _ _ So)) as Hcode. exists m, ps.
  assert (Hbok : builder_ok types m).
  { destruct So as [S1 S2 _ _ _ _ _ _]. split; [exact (so_names _ _ _ _ S1)|exact S2]. }
  split. { rewrite Hn. unfold builder_name. now rewrite (fa_name _ _ _ _ (processed_facts _ _ _ _ _ Hp)). }
  split; [exact Hcode|]. split; [exact Hc|]. intros B b_default b_from b_try_from cs st args Hcs Hbuild Ha Hgives C I c pu qe je key V fs W ops w.
  assert (Hb : built types b_default b_from (se_hooks s) m (sc_code sc) cs st).
  { split; auto. rewrite Forall_forall in *. intros call Hin. exact (offered_legal _ _ _ _ _ Hc Hbok (Hcs call Hin)). }
  destruct (BuilderCor.cor_runs (fs := fs) (ctx := context_of g c pu qe je key) (ops := ops) b_try_from Hb args w Ha Hgives) as (sb & Esb & ->).
  rewrite Hsb in Esb. injection Esb as <-. apply decided_doc; [exact Hcode|exact version_is|]. eapply gives_arguments; eauto.
Qed.

(** *** A version that cannot be sent *)

Hypothesis Hv : ~ printable (oa_version d).

Lemma version_positional : se_interface s = Positional ->
  Forall (fun i => exists m sb doc tys generic name,
    i = ImMethod name doc (combine (map p_name (m_params m)) tys) generic sb /\ length tys = length (m_params m)
    /\ forall C I (c : client_value C I) parse_url query_error json_error key V fs W (ops : world_ops W) args w,
       arguments_for (m_params m) args ->
       run V (context_of g c parse_url query_error json_error key) fs W ops sb (variables args) w
       = (Panicked (lit "invalid header value"), [], w))
  (own_methods (ge_code g)).
Proof.
  intro Hi. apply Forall_forall. intros i Hin. destruct (forall2_right _ _ _ _ (panic_positional Hi) Hin)
    as (e & _ & m & ps & sb & doc & tys & generic & H1 & H2 & H3 & H4).
  exists m, sb, doc, tys, generic, (method_name unicode15 e). split; [exact H1|]. split; [exact H2|].
  intros. exact (decided_version _ _ _ _ _ _ _ _ _ _ _ _ _ _ Hv (H4 C I c parse_url query_error json_error key V fs W ops args w H)).
Qed.

Lemma version_builder : se_interface s = Builder ->
  Forall (fun sc => exists m, builder_struct types (se_hooks s) m = Ok (sc_code sc)
    /\ forall B (b_default : type_id -> B) b_from b_try_from cs st args, Forall (offered (sc_code sc)) cs ->
       build B b_default b_from (bc_fields (sc_code sc)) cs = Some st -> map fst args = m_params m ->
       Forall (fun pv => gives types b_default b_from b_try_from cs (fst pv) (ROk (snd pv))) args ->
       forall C I (c : client_value C I) parse_url query_error json_error key V fs W (ops : world_ops W) w,
       send B b_try_from V (context_of g c parse_url query_error json_error key) fs W ops (sc_code sc) st w
       = (Panicked (lit "invalid header value"), [], w))
  (oc_builders (ge_code g)).
Proof.
  intro Hi. apply Forall_forall. intros sc Hin. destruct (forall2_right _ _ _ _ (panic_builder Hi) Hin)
    as (e & _ & m & ps & _ & _ & H3 & H4).
  exists m. split; [exact H3|]. intros B b_default b_from b_try_from cs st args G1 G2 G3 G4 C I c pu qe je key V fs W ops w.
  exact (decided_version _ _ _ _ _ _ _ _ _ _ _ _ _ _ Hv (H4 B b_default b_from b_try_from cs st args G1 G2 G3 G4 C I c pu qe je key V fs W ops w)).
Qed.
End Client.

(** ** Making clients *)

Lemma new_cases {C I} (build : list client_option -> result C str) (wasm : bool) (base : str) (inner : option I) :
  (forall k, build (if wasm then [] else [ConnectTimeout 15; Timeout 15]) = ROk k ->
     exists c, new_client build wasm base inner = Ok c /\ c = new_with_client base k inner
       /\ get_baseurl c = base /\ get_client c = k /\ get_inner c = inner)
  /\ (forall e, build (if wasm then [] else [ConnectTimeout 15; Timeout 15]) = RErr e ->
     new_client build wasm base inner = Panic (lit "called `Result::unwrap()` on an `Err` value: " ++ e)).
Proof. unfold new_client. split; intros x ->; eauto 10. Qed.

(** The functions of a generator with a state, and several calls of them. *)
From Coq Require Import Sorted.
From Verif Require Import Base OasModel TemplateModel MethodModel OpModel BuilderModel ToSchemaModel TypesModel TypesSpec TypesProofs
  RefSpec RefProofs ResponseSpec ResponseProofs ParamSpec ParamProofs DocSpec DocProofs OpCor SanitizeModel
  GenerateModel GenerateSpec GenerateProofs GenerateCor SupportSpec SupportProofs ValidateProofs CliModel MockModel GeneratorModel GeneratorSpec GeneratorProofs.
Local Open Scope N_scope.

Section Machine.
Context {S : Type}.
Variable U : unicode.
Variable tm : typify_machine S.
Local Notation run := (@run S).
Local Notation later := (later tm).
Local Notation asked := (asked tm).
Local Notation final s := (space_of (frozen tm s)).

Lemma paths_no_refs d paths : forall g groups g', mapR (path_r U tm (oa_components d)) paths g = (Ok groups, g') ->
  forall path r, ~ In (path, Ref r) paths.
Proof.
  induction paths as [|[path x] l IH]; intros g groups g' E p r; [easy|].
  apply mapR_cons in E as (m & ms' & g1 & _ & E1 & E2). intros [[= <- ->]|Hin]; [discriminate E1|exact (IH _ _ _ E2 p r Hin)].
Qed.

Lemma processed_fun ts d l : forall ms ms', Forall2 (processed U ts d) l ms -> Forall2 (processed U ts d) l ms' -> ms = ms'.
Proof.
  induction l as [|e l IH]; intros ms ms' H H'; inversion H as [|? m ? ms1 P F]; inversion H' as [|? m' ? ms1' P' F']; subst; auto.
  f_equal; [|now apply IH]. unfold processed in P, P'. congruence.
Qed.

Record began (d : openapi) (ms : list op_method) (g g' : generator S) : Prop := Began {
  bn_valid : validate_openapi U d = Ok tt;
  bn_refs : exists js s1,
    mapM (fun nr : str * ref_or schema => do j <- to_schema (snd nr); Ok (fst nr, j)) (schemas_of d) = Ok js
    /\ tm_refs tm (gr_space g) js = (Ok tt, s1)
    /\ exists wss ts, Forall2 (needs U d) (doc_ops 0 (oa_paths d)) wss /\ asked s1 (concat wss) ts (gr_space g');
  bn_methods : remembers tm -> exists groups, ms = concat groups
    /\ mapM (process_path U (final (gr_space g')) (oa_components d)) (oa_paths d) = Ok groups;
  bn_futures : gr_futures g' = gr_futures g;
  bn_websockets : gr_websockets g' = gr_websockets g || existsb m_websocket ms;
  bn_extensions : existsb m_websocket ms = true <->
    exists e, in_document d e /\ assoc (lit "x-dropshot-websocket") (op_extensions (do_op e)) <> None }.

Lemma methods_began d g ms g' : methods_r U tm d g = (Ok ms, g') -> began d ms g g'.
Proof.
  unfold methods_r. intro E. apply rbind_ok in E as ([] & g1 & Ev & E). injection Ev as Ev <-.
  apply rbind_ok in E as ([] & g1 & Er & E). apply rbind_ok in E as (groups & g2 & Eg & E). injection E as <- <-.
  unfold refs_r in Er. apply rbind_ok in Er as (js & g3 & Ej & Er). injection Ej as Ej <-.
  destruct (tm_refs tm (gr_space g) js) as [x s1] eqn:Es. injection Er as -> <-.
  pose proof (paths_run U tm d _ 0 _ _ _ Eg) as ((wss & ts & Hn & Ha) & Hp & Hf & Hw & Hx).
  split; auto.
  - exists js, s1. split; [exact Ej|]. split; [exact Es|]. exists wss, ts. auto.
  - intro R. destruct (process_paths_total U (final (gr_space g2)) d (oa_paths d) 0%nat) as (gs & Hgs).
    + exact (paths_no_refs _ _ _ _ _ Eg).
    + intros e He. specialize (Hp R _ (later_same _ _)). destruct (forall2_In_l _ _ _ _ Hp He) as (m & _ & Hm). eauto.
    + exists gs. split; [|exact Hgs]. apply (process_paths _ _ _ _ 0%nat) in Hgs.
      eapply processed_fun; [exact (Hp R _ (later_same _ _))|exact Hgs].
  - pose proof (proj1 (doc_ops_in_order d)) as Hin. rewrite existsb_exists. split.
    + intros (m & Hm & Hw'). destruct (forall2_In_r _ _ _ _ Hx Hm) as (e & He & Hi). exists e. split; [now apply Hin|now apply Hi].
    + intros (e & He & Hext). apply Hin in He. destruct (forall2_In_l _ _ _ _ Hx He) as (m & Hm & Hi). exists m. split; [exact Hm|now apply Hi].
Qed.

(** ** Rendering *)

Definition paginated (m : op_method) : bool := match m_paginated m with Some _ => true | None => false end.

Lemma render_run {A} (code : (type_id -> option type_info) -> op_method -> outcome A) ms : forall g cs g',
  mapR (render_r tm code) ms g = (Ok cs, g') ->
  mapM (code (tm_types tm (gr_space g))) ms = Ok cs /\ gr_space g' = gr_space g
  /\ gr_futures g' = gr_futures g || existsb paginated ms /\ gr_websockets g' = gr_websockets g.
Proof.
  induction ms as [|m ms IH]; intros g cs g' E.
  - injection E as <- <-. cbn. now rewrite orb_false_r.
  - apply mapR_cons in E as (c & cs' & g1 & -> & E1 & E2). apply IH in E2 as (Hm & Hs & Hf & Hw). unfold render_r in E1.
    destruct (code (tm_types tm (gr_space g)) m) as [c'| |] eqn:Ec; [|discriminate|discriminate]. injection E1 as -> <-.
    cbn [mapM existsb]. rewrite Ec. cbn [obind]. unfold paginated at 1. destruct (m_paginated m); cbn [gr_space gr_futures gr_websockets] in *.
    + rewrite Hm. cbn. repeat split; auto. now rewrite Hf, orb_true_r.
    + rewrite Hm. cbn. auto.
Qed.

Lemma code_run s d ms g c g' : code_r U tm s d ms g = (Ok c, g') ->
  code_for U (tm_types tm (gr_space g)) s d ms = Ok c /\ gr_space g' = gr_space g
  /\ gr_futures g' = gr_futures g || existsb paginated ms /\ gr_websockets g' = gr_websockets g.
Proof.
  unfold code_r, code_for. intro E. destruct (se_interface s), (se_tag s).
  - apply rbind_ok in E as (cs & g1 & E1 & E). injection E as <- <-. apply render_run in E1 as (H & ?).
    split; auto. unfold generate_tokens_positional_merged. cbv beta in H. now rewrite H.
  - discriminate E.
  - apply rbind_ok in E as (cs & g1 & E1 & E). injection E as <- <-. apply render_run in E1 as (H & ?).
    split; auto. unfold generate_tokens_builder_merged. cbv beta in H. now rewrite H.
  - apply rbind_ok in E as (cs & g1 & E1 & E). apply render_run in E1 as (H & Hr).
    destruct (builder_tags U ms _) as [base traits] eqn:Eb. injection E as <- <-.
    split; auto. unfold generate_tokens_builder_separate. cbv beta in H. rewrite H. cbn [obind]. now rewrite Eb.
Qed.

(** ** The three functions *)

(** The same code, but for the flags. *)
Definition with_flags (f w : bool) (c : generated_code) : generated_code :=
  GeneratedCode (ge_doc c) (ge_fixed c) (ge_version c) (ge_code c) f w.

Lemma generate_run_r s d g c g' : generate_tokens_r U tm s d g = (Ok c, g') ->
  (exists ms g1, began d ms g g1 /\ gr_space g' = gr_space g1)
  /\ ge_futures c = gr_futures g' /\ ge_websockets c = gr_websockets g'
  /\ (remembers tm -> exists c0,
       generate_tokens U (add_converted (fun _ => Ok (frozen tm (gr_space g')))) (tm_types tm (gr_space g')) s d = Ok c0
       /\ c = with_flags (gr_futures g || ge_futures c0) (gr_websockets g || ge_websockets c0) c0).
Proof.
  unfold generate_tokens_r. intro E. apply rbind_ok in E as (ms & g1 & E1 & E). apply rbind_ok in E as (code & g2 & E2 & E).
  injection E as <- <-. apply methods_began in E1 as B. apply code_run in E2 as (Hc & Hs & Hf & Hw).
  split; [now exists ms, g1|]. split; [reflexivity|]. split; [reflexivity|].
  intro R. destruct B as [Bv (js & s1 & Bj & Br & _) Bm Bf Bw Bx]. destruct (Bm R) as (groups & -> & Hg).
  exists (GeneratedCode (client_docstring d) (fixed_methods s) (oa_version d) code
            (existsb paginated (concat groups)) (existsb m_websocket (concat groups))).
  split.
  - unfold generate_tokens. rewrite Bv. cbn [obind]. fold (schemas_of d). unfold add_converted. rewrite Bj. cbn [obind]. rewrite Hs, Hg. cbn [obind]. cbv zeta.
    fold (code_for U (tm_types tm (gr_space g1)) s d (concat groups)). rewrite Hc. reflexivity.
  - unfold with_flags. cbn. rewrite Hf, Hw, Bf, Bw. reflexivity.
Qed.

Lemma cli_run_r is_path d n g c g' : cli_r U tm is_path d n g = (Ok c, g') ->
  (exists ms, began d ms g g')
  /\ (remembers tm ->
       cli U (tm_cli_types tm (gr_space g')) is_path (add_converted (fun _ => Ok (frozen tm (gr_space g')))) d n = Ok c).
Proof.
  unfold cli_r. intro E. apply rbind_ok in E as (ms & g1 & E1 & E). apply methods_began in E1 as B.
  injection E as E <-. split; [eauto|].
  intro R. destruct B as [Bv (js & s1 & Bj & Br & _) Bm Bf Bw Bx]. destruct (Bm R) as (groups & -> & Hg).
  unfold cli. rewrite Bv. cbn [obind]. fold (schemas_of d). unfold add_converted. rewrite Bj. cbn [obind]. rewrite Hg. cbn [obind]. exact E.
Qed.

Lemma mock_run_r is_path d n g c g' : httpmock_r U tm is_path d n g = (Ok c, g') ->
  (exists ms, began d ms g g')
  /\ (remembers tm ->
       httpmock U (add_converted (fun _ => Ok (frozen tm (gr_space g')))) (tm_types tm (gr_space g')) is_path d n = Ok c).
Proof.
  unfold httpmock_r. intro E. apply rbind_ok in E as (ms & g1 & E1 & E). apply methods_began in E1 as B.
  injection E as E <-. split; [eauto|].
  intro R. destruct B as [Bv (js & s1 & Bj & Br & _) Bm Bf Bw Bx]. destruct (Bm R) as (groups & -> & Hg).
  unfold httpmock. rewrite Bv. cbn [obind]. fold (schemas_of d). unfold add_converted. rewrite Bj. cbn [obind]. rewrite Hg. cbn [obind]. exact E.
Qed.

(** ** What is asked *)

Lemma began_asked d ms g g' l : began d ms g g' -> operations_in_order d l ->
  validate_openapi U d = Ok tt
  /\ exists js s1 wss ts,
    Forall2 (fun nr nj => fst nr = fst nj /\ convertible (snd nr) /\ translated (snd nr) (snd nj)) (schemas_of d) js
    /\ tm_refs tm (gr_space g) js = (Ok tt, s1)
    /\ Forall2 (needs U d) l wss /\ asked s1 (concat wss) ts (gr_space g').
Proof.
  intros [Bv (js & s1 & Bj & Br & wss & ts & Hn & Ha) _ _ _ _] Hl. rewrite (in_order_unique d l Hl). split; [exact Bv|].
  exists js, s1, wss, ts. split; [|auto]. apply components_converted in Bj. clear -Bj.
  induction Bj as [|nr nj a b (E & Hc) _ IH]; constructor; auto.
  split; [exact E|split; [apply to_schema_convertible; now exists (snd nj)|now apply to_schema_translated]].
Qed.

Lemma call_asked is_path s c g a g' l : call_r U tm is_path s c g = (Ok a, g') -> operations_in_order (document_of c) l ->
  validate_openapi U (document_of c) = Ok tt
  /\ exists js s1 wss ts,
    Forall2 (fun nr nj => fst nr = fst nj /\ convertible (snd nr) /\ translated (snd nr) (snd nj)) (schemas_of (document_of c)) js
    /\ tm_refs tm (gr_space g) js = (Ok tt, s1)
    /\ Forall2 (needs U (document_of c)) l wss /\ asked s1 (concat wss) ts (gr_space g').
Proof.
  unfold call_r. intros E Hl. destruct c as [d|d n|d n]; cbn [document_of] in *; apply rbind_ok in E as (x & g1 & E1 & E); injection E as _ <-.
  - apply generate_run_r in E1 as ((ms & g2 & B & Hs) & _). rewrite Hs. exact (began_asked _ _ _ _ _ B Hl).
  - apply cli_run_r in E1 as ((ms & B) & _). exact (began_asked _ _ _ _ _ B Hl).
  - apply mock_run_r in E1 as ((ms & B) & _). exact (began_asked _ _ _ _ _ B Hl).
Qed.

Lemma client_run s d g c g' : remembers tm -> generate_tokens_r U tm s d g = (Ok c, g') ->
  exists c0, generate_tokens U (add_converted (fun _ => Ok (frozen tm (gr_space g')))) (tm_types tm (gr_space g')) s d = Ok c0
    /\ ge_doc c = ge_doc c0 /\ ge_fixed c = ge_fixed c0 /\ ge_version c = ge_version c0 /\ ge_code c = ge_code c0
    /\ ge_futures c = (gr_futures g || ge_futures c0)%bool /\ ge_websockets c = (gr_websockets g || ge_websockets c0)%bool
    /\ gr_futures g' = ge_futures c /\ gr_websockets g' = ge_websockets c.
Proof.
  intros R E. apply generate_run_r in E as (_ & Hf & Hw & Hp). destruct (Hp R) as (c0 & Hc & ->).
  exists c0. cbn in *. split; [exact Hc|]. rewrite Hf, Hw. auto 10.
Qed.

Lemma cli_same is_path d n g c g' : remembers tm -> cli_r U tm is_path d n g = (Ok c, g') ->
  cli U (tm_cli_types tm (gr_space g')) is_path (add_converted (fun _ => Ok (frozen tm (gr_space g')))) d n = Ok c
  /\ gr_futures g' = gr_futures g.
Proof. intros R E. apply cli_run_r in E as ((ms & B) & Hp). split; [exact (Hp R)|exact (bn_futures _ _ _ _ B)]. Qed.

Lemma mock_same is_path d n g c g' : remembers tm -> httpmock_r U tm is_path d n g = (Ok c, g') ->
  httpmock U (add_converted (fun _ => Ok (frozen tm (gr_space g')))) (tm_types tm (gr_space g')) is_path d n = Ok c
  /\ gr_futures g' = gr_futures g.
Proof. intros R E. apply mock_run_r in E as ((ms & B) & Hp). split; [exact (Hp R)|exact (bn_futures _ _ _ _ B)]. Qed.

(** ** Several calls *)

Lemma answered c is_path s g a g' : remembers tm -> call_r U tm is_path s c g = (Ok a, g') ->
  (gr_futures g' = true <-> gr_futures g = true \/ exists x, a = AnsClient x /\ streams (ge_code x))
  /\ (gr_websockets g' = true <-> gr_websockets g = true \/ has_websockets (document_of c)).
Proof.
  intros R E. unfold call_r in E. destruct c as [d|d n|d n]; cbn [document_of]; apply rbind_ok in E as (x & g1 & E1 & E); injection E as <- <-.
  - apply generate_run_r in E1 as (_ & Hf & Hw & Hp). destruct (Hp R) as (c0 & Hc & Ex). 
    assert (Ef : ge_futures x = (gr_futures g || ge_futures c0)%bool) by (rewrite Ex; reflexivity).
    assert (Ew : ge_websockets x = (gr_websockets g || ge_websockets c0)%bool) by (rewrite Ex; reflexivity).
    rewrite <- Hf, <- Hw, Ef, Ew. clear Ef Ew Hf Hw.
    rewrite !orb_true_iff, (futures_iff _ _ _ _ _ _ _ Hc (doc_ops_in_order d)), (websockets_iff _ _ _ _ _ _ _ Hc (doc_ops_in_order d)).
    split; [|reflexivity]. assert (Ec : ge_code x = ge_code c0) by (rewrite Ex; reflexivity). split.
    + intros [H|H]; [now left|right]. exists x. split; [reflexivity|]. now rewrite Ec.
    + intros [H|(y & [= <-] & H)]; [now left|right]. now rewrite <- Ec.
  - apply cli_run_r in E1 as ((ms & B) & _). rewrite (bn_futures _ _ _ _ B), (bn_websockets _ _ _ _ B), orb_true_iff, (bn_extensions _ _ _ _ B).
    split; [|reflexivity]. split; [now left|]. intros [H|(y & H & _)]; [exact H|discriminate H].
  - apply mock_run_r in E1 as ((ms & B) & _). rewrite (bn_futures _ _ _ _ B), (bn_websockets _ _ _ _ B), orb_true_iff, (bn_extensions _ _ _ _ B).
    split; [|reflexivity]. split; [now left|]. intros [H|(y & H & _)]; [exact H|discriminate H].
Qed.

Lemma calls_flags is_path s cs : remembers tm -> forall answers g g', calls_r U tm is_path s cs g = (map Ok answers, g') ->
  (gr_futures g' = true <-> gr_futures g = true \/ exists x, In (AnsClient x) answers /\ streams (ge_code x))
  /\ (gr_websockets g' = true <-> gr_websockets g = true \/ exists c, In c cs /\ has_websockets (document_of c)).
Proof.
  intro R. induction cs as [|c cs IH]; intros answers g g' E; cbn [calls_r] in E.
  - injection E as E <-. destruct answers; [|discriminate]. split; split; auto; intros [H|(x & [] & _)]; exact H.
  - destruct (call_r U tm is_path s c g) as [o g1] eqn:Ec.
    assert (exists a, o = Ok a) as (a & ->).
    { destruct o as [a|e|p]; [eauto|destruct (calls_r U tm is_path s cs g1)|]; destruct answers; discriminate E. }
    destruct (calls_r U tm is_path s cs g1) as [xs g2] eqn:Er. destruct answers as [|a' answers]; [discriminate|]. injection E as <- -> <-.
    destruct (answered _ _ _ _ _ _ R Ec) as (Hf & Hw). destruct (IH _ _ _ Er) as (If & Iw). rewrite If, Hf, Iw, Hw. split; split.
    + intros [[H|(x & -> & H)]|(x & Hi & H)]; [now left|right; exists x; cbn; auto|right; exists x; cbn; auto].
    + intros [H|(x & [->|Hi] & H)]; [now do 2 left|left; right; eauto|right; eauto].
    + intros [[H|H]|(x & Hi & H)]; [now left|right; exists c; cbn; auto|right; exists x; cbn; auto].
    + intros [H|(x & [->|Hi] & H)]; [now do 2 left|left; now right|right; eauto].
Qed.

(** ** Flags are never taken back, whatever a call returns *)

Definition above (g g' : generator S) : Prop :=
  (gr_futures g = true -> gr_futures g' = true) /\ (gr_websockets g = true -> gr_websockets g' = true).
Definition climbs {A} (x : run A) : Prop := forall g, above g (snd (x g)).

Lemma above_refl g : above g g.
Proof. split; auto. Qed.

Lemma above_trans g1 g2 g3 : above g1 g2 -> above g2 g3 -> above g1 g3.
Proof. intros (F1 & W1) (F2 & W2). split; auto. Qed.

Lemma climbs_pure {A} (x : outcome A) : climbs (pure x).
Proof. intro g. apply above_refl. Qed.

Lemma climbs_bind {A B} (x : run A) (f : A -> run B) : climbs x -> (forall a, climbs (f a)) -> climbs (rbind x f).
Proof.
  intros Hx Hf g. specialize (Hx g). unfold rbind. destruct (x g) as [[a|e|m] g1]; [|exact Hx|exact Hx]. cbn [snd] in Hx.
  eapply above_trans; [exact Hx|]. apply Hf.
Qed.

Lemma climbs_map {A B} (f : A -> run B) l : (forall a, climbs (f a)) -> climbs (mapR f l).
Proof.
  intro H. induction l as [|a l IH]; cbn [mapR]; [apply climbs_pure|]. apply climbs_bind; [apply H|]. intro b.
  apply climbs_bind; [apply IH|]. intro. apply climbs_pure.
Qed.

Lemma climbs_ask sch n : climbs (ask tm sch n).
Proof.
  apply climbs_bind; [apply climbs_pure|]. intros j g. destruct (tm_add tm (gr_space g) j n). split; auto.
Qed.

Local Ltac climb := repeat first [apply climbs_pure | apply climbs_ask | apply climbs_bind; [|intro]].

Lemma climbs_param oid p : climbs (param_r U tm oid p).
Proof.
  destruct p as [pd []|pd|pd []|pd]; cbn [param_r]; try (destruct (negb (pd_required pd))); climb.
  all: intro g; destruct (tm_details tm (gr_space g) _) as [[]|]; apply above_refl.
Qed.

Lemma climbs_body oid b comps : climbs (body_r U tm oid b comps).
Proof.
  destruct b as [r|]; cbn [body_r]; climb. destruct (rb_content _) as [|[cs mt] [|]]; climb.
  destruct (mt_schema mt); climb. destruct a0; try (destruct (negb (mt_encoding_empty mt))); climb.
Qed.

Lemma climbs_response oid w comps v : climbs (response_r U tm oid w comps v).
Proof.
  unfold response_r. climb. all: repeat match goal with |- climbs (match ?x with _ => _ end) => destruct x; climb end.
Qed.

Lemma climbs_operation op comps path method pp : climbs (operation_r U tm op comps path method pp).
Proof.
  unfold operation_r. destruct (op_id op) as [oid|]; [|apply climbs_pure]. cbv zeta.
  apply climbs_bind; [apply climbs_pure|intro]. apply climbs_bind; [apply climbs_pure|intro].
  apply climbs_bind; [apply climbs_map; intro; apply climbs_param|intro].
  apply climbs_bind; [intro g; unfold note_websocket; destruct (assoc _ _); [split; auto|apply above_refl]|intro].
  apply climbs_bind; [apply climbs_body|intro]. apply climbs_bind; [apply climbs_pure|intro].
  apply climbs_bind; [apply climbs_pure|intro]. apply climbs_bind.
  - unfold responses_r. climb. all: apply climbs_map; intro; apply climbs_response.
  - intros rs g. destruct (_ && _); apply above_refl.
Qed.

Lemma climbs_methods d : climbs (methods_r U tm d).
Proof.
  unfold methods_r. apply climbs_bind; [apply climbs_pure|intro]. apply climbs_bind; [|intro].
  - unfold refs_r. apply climbs_bind; [apply climbs_pure|]. intros js g. destruct (tm_refs tm (gr_space g) js). split; auto.
  - apply climbs_bind; [|intro; apply climbs_pure]. apply climbs_map. intros [path [r|i]]; [apply climbs_pure|].
    apply climbs_map. intro. apply climbs_operation.
Qed.

Lemma climbs_render {A} (code : (type_id -> option type_info) -> op_method -> outcome A) m : climbs (render_r tm code m).
Proof. intro g. unfold render_r. destruct (code _ m); [destruct (m_paginated m); split; auto|apply above_refl|apply above_refl]. Qed.

Lemma climbs_call is_path s c : climbs (call_r U tm is_path s c).
Proof.
  destruct c as [d|d n|d n]; cbn [call_r]; (apply climbs_bind; [|intro; apply climbs_pure]).
  - unfold generate_tokens_r. apply climbs_bind; [apply climbs_methods|]. intro ms. apply climbs_bind; [|intros c g; apply above_refl].
    unfold code_r. destruct (se_interface s), (se_tag s); climb; try (apply climbs_map; intro; apply climbs_render).
    destruct (builder_tags _ _ _). apply climbs_pure.
  - unfold cli_r. apply climbs_bind; [apply climbs_methods|]. intros ms g. apply above_refl.
  - unfold httpmock_r. apply climbs_bind; [apply climbs_methods|]. intros ms g. apply above_refl.
Qed.

Lemma flags_stay is_path s cs : forall g, above g (snd (calls_r U tm is_path s cs g)).
Proof.
  induction cs as [|c cs IH]; intro g; cbn [calls_r]; [apply above_refl|].
  pose proof (climbs_call is_path s c g) as H. destruct (call_r U tm is_path s c g) as [[a|e|p] g1]; cbn [snd] in H.
  - specialize (IH g1). destruct (calls_r U tm is_path s cs g1). eapply above_trans; eauto.
  - specialize (IH g1). destruct (calls_r U tm is_path s cs g1). eapply above_trans; eauto.
  - exact H.
Qed.
End Machine.

Lemma calls_flagged S U (tm : typify_machine S) is_path s cs answers g g' :
  remembers tm -> calls_r U tm is_path s cs g = (map Ok answers, g') ->
  (gr_futures g' = true <-> gr_futures g = true \/ exists x, In (AnsClient x) answers /\ streams (ge_code x))
  /\ (gr_websockets g' = true <-> gr_websockets g = true \/ exists c, In c cs /\ has_websockets (document_of c)).
Proof. intros R E. exact (calls_flags U tm is_path s cs R answers g g' E). Qed.

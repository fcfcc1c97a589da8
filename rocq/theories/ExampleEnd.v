(** Clients that compile. *)
From Verif Require Import Base OasModel ClientModel TemplateModel TemplateSpec SanitizeModel MethodModel OpModel RunModel BuilderModel
  StreamModel GenerateModel RequestSpec BuilderSpec DocSpec StreamSpec GenerateSpec ValidateProofs CompileSpec CompileItemSpec CompileCor EndSpec EndCor
  ExampleData ExampleBuilder ExamplePages ExampleGenerate ExampleCompile.
Local Open Scope N_scope.

Lemma u_positional : file_ok v_has x_ts (y_gen Positional Merged (lit "ping")).
Proof.
  apply (cor_client v_has (fun _ => Ok x_ts) y_types _ _ _ x_ts _ _ y_positional (doc_ops_in_order _) eq_refl w_processed).
  exact w_positional.
Qed.
Lemma u_separate : file_ok v_has x_ts (y_gen Builder Separate (lit "ping")).
Proof.
  apply (cor_client v_has (fun _ => Ok x_ts) y_types _ _ _ x_ts _ _ y_separate (doc_ops_in_order _) eq_refl w_processed).
  exact w_separate.
Qed.

(** The document with the paginated operation. *)
Definition u_ops : list doc_op := doc_ops 0 (oa_paths z_doc).
Definition u_e : doc_op := DocOp 0 (show g_pieces) Get g_op [].
Lemma u_in : In u_e u_ops.
Proof. left. reflexivity. Qed.
Lemma u_processed : Forall2 (processed unicode15 g_ts z_doc) u_ops [g_m].
Proof. unfold u_ops. cbn [doc_ops oa_paths z_doc]. constructor; [vm_compute; reflexivity|constructor]. Qed.

Lemma u_all (P : list piece -> op_method -> sig_body -> Prop) i : P g_pieces g_m g_sb -> all_sound P (y_set i Merged) u_ops [g_m].
Proof.
  intro H. unfold all_sound, u_ops. cbn [doc_ops oa_paths z_doc]. constructor; [|constructor].
  exists g_pieces, g_sb. split; [reflexivity|]. split; [is_lax|]. split; [vm_compute; reflexivity|exact H].
Qed.

Lemma u_names : flat_map positional_names [g_m] = [lit "list_things"; lit "list_things_stream"]
  /\ forall i, client_methods (y_set i Merged) [g_m] = [lit "list_things"].
Proof. split; [|intro i]; vm_compute; reflexivity. Qed.
Lemma u_positional_stream : file_ok v_has g_ts (z_gen Positional).
Proof.
  apply (cor_client v_has (fun _ => Ok g_ts) y_types _ _ _ g_ts _ _ (proj1 z_ok) (doc_ops_in_order _) eq_refl u_processed).
  unfold sound_client. cbn [se_interface y_set]. split; [rewrite (proj1 u_names); names|]. exact (u_all _ Positional v_g_sound).
Qed.

Lemma u_struct : map (fun m => pascal unicode15 (m_operation_id m)) [g_m] = [lit "ListThings"].
Proof. vm_compute. reflexivity. Qed.
Lemma u_no n : mem n [lit "id"; lit "filter"; lit "limit"; lit "page_token"] = false -> no_parameter n g_m.
Proof.
  intros Hn Hx. rewrite g_params in Hx. apply Base.mem_spec in Hx.
  change (mem n [lit "id"; lit "filter"; lit "limit"; lit "page_token"] = true) in Hx. congruence.
Qed.
Lemma u_sound : sound_builder v_has g_ts y_types g_pieces g_m g_sb.
Proof.
  destruct v_g_sound as (H & Hs). constructor; try (apply u_no; reflexivity).
  - exact H.
  - intros p t i _ _ [= <-]. discriminate.
  - intros _. apply u_no. reflexivity.
  - intros p t _ _ _ _. discriminate.
  - intros _ p t _ _ _ _. discriminate.
  - intro Hp. split; [exact (ss_token _ _ (Hs Hp))|]. split; apply u_no; reflexivity.
Qed.
Lemma u_builder_stream : file_ok v_has g_ts (z_gen Builder).
Proof.
  apply (cor_client v_has (fun _ => Ok g_ts) y_types _ _ _ g_ts _ _ (proj2 z_ok) (doc_ops_in_order _) eq_refl u_processed).
  unfold sound_client. cbn [se_interface y_set]. split; [rewrite (proj2 u_names); names|]. split; [discriminate|]. split; [rewrite u_struct; names|].
  split; [|exact (u_all _ Builder u_sound)].
  intros m [<-|[]] Hr. change (pascal unicode15 (m_operation_id g_m)) with (hd [] (map (fun m => pascal unicode15 (m_operation_id m)) [g_m])) in Hr.
  rewrite u_struct in Hr. cbn [hd] in Hr. unfold reserved in Hr.
  assert (Hc : In (lit "ListThings") (imports ++ [lit "Result"; lit "String"; lit "Option"; lit "From"; lit "Unpin"]))
    by (apply in_app_iff; cbn [In]; intuition auto).
  apply Base.mem_spec in Hc. vm_compute in Hc. discriminate.
Qed.

Lemma u_code : code_of unicode15 g_ts z_doc x_no_hooks u_e g_m g_pieces g_sb.
Proof.
  apply (sound_code (has := v_has) (s := y_set Positional Merged)).
  - pose proof u_processed as H. inversion H; subst. assumption.
  - reflexivity.
  - is_lax.
  - exact g_sb_ok.
  - exact (proj1 v_g_sound).
Qed.
Lemma u_token p o : In (p, o) g_args -> p_api_name p = lit "page_token" -> o = None.
Proof. exact (pc_token _ _ g_call p o). Qed.

Definition u_bc : builder_code :=
  match oc_builders (ge_code (z_gen Builder)) with [sc] => sc_code sc | _ => g_bc end.
Lemma u_builders : map (fun sc => (sc_name sc, sc_code sc)) (oc_builders (ge_code (z_gen Builder))) = [(lit "ListThings", u_bc)].
Proof. vm_compute. reflexivity. Qed.
Lemma u_builder_name : builder_name unicode15 u_e = lit "ListThings".
Proof. vm_compute. reflexivity. Qed.
Lemma u_fields : map bf_name (bc_fields u_bc) = [lit "id"; lit "filter"; lit "limit"; lit "page_token"] /\ bc_stream u_bc <> None.
Proof. split; [|intro H; apply (f_equal (fun x => match x with None => true | _ => false end)) in H]; vm_compute in *; [reflexivity|discriminate]. Qed.
Lemma u_offered : Forall (offered u_bc) g_calls.
Proof.
  unfold g_calls, set. repeat constructor; cbn [offered]; rewrite (proj1 u_fields); cbn [In]; tauto.
Qed.
Lemma u_sent : exists st, build (option value) x_default x_from (bc_fields u_bc) g_calls = Some st
  /\ match send (option value) x_try_from thing x_ctx g_fs (list N * list (option str)) g_ops u_bc st ([1], []) with
     | (Returned (ROk _), [ESend q _], (_, [qu])) => qu = g_first /\ q_query q = g_first
     | _ => False
     end.
Proof. eexists. split; [vm_compute; reflexivity|]. vm_compute. auto. Qed.

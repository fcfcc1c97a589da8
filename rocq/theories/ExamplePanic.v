(** Clients whose calls panic. *)
From Verif Require Import Base OasModel HeaderModel ClientModel TemplateModel TemplateSpec SanitizeModel MethodModel OpModel RunModel BuilderModel
  StreamModel GenerateModel RequestSpec BuilderSpec DocSpec StreamSpec GenerateSpec ValidateProofs CompileSpec CompileItemSpec CompileCor EndSpec EndCor
  ConstructModel PanicSpec PanicProofs PanicCor ExampleData ExampleBuilder ExamplePages ExampleGenerate ExampleCompile ExampleEnd.
Local Open Scope N_scope.

(** GET /ping with one header parameter, in a document of some version. *)
Definition p_op (n : str) : operation :=
  Operation (Some (lit "ping")) [] None None [Item (ParHeader (x_param n false))] None None
    [(ScCode 200, Item (x_json (Ref (lit "#/components/schemas/Error"))))] [].
Definition p_doc (v n : str) : openapi :=
  OpenApi (lit "3.0.1") (lit "T") None None v [(lit "/ping", Item (y_no_ops [] (Some (p_op n)) None))] x_comps [].
Definition p_par (n : str) : op_param := OpParam (lit "x_trace") n None (PType 2) (KHeader false).
Definition p_m (n : str) : op_method :=
  OpMethod (lit "ping") [] Get [CConst (lit "/ping")] None None [p_par n] [OpResponse (SCode 200) (RType 1)] None false.
Definition p_ops (v n : str) : list doc_op := doc_ops 0 (oa_paths (p_doc v n)).

(** A header name with a space; a version with a letter outside of ASCII. *)
Definition p_space : str := lit "x trace".
Definition p_dash : str := lit "X-Trace".
Definition p_accent : str := lit "1.0-b" ++ [234] ++ lit "ta".

Definition p_gen (i : interface_style) (v n : str) : generated_code :=
  match generate_tokens unicode15 (fun _ => Ok x_ts) y_types (y_set i Merged) (p_doc v n) with Ok g => g | _ => y_empty end.

Lemma p_generates i : generate_tokens unicode15 (fun _ => Ok x_ts) y_types (y_set i Merged) (p_doc (lit "1.0") p_space) = Ok (p_gen i (lit "1.0") p_space)
  /\ generate_tokens unicode15 (fun _ => Ok x_ts) y_types (y_set i Merged) (p_doc p_accent p_dash) = Ok (p_gen i p_accent p_dash).
Proof. destruct i; split; vm_compute; reflexivity. Qed.

Lemma p_processed v n : n = p_space \/ n = p_dash -> Forall2 (processed unicode15 x_ts (p_doc v n)) (p_ops v n) [p_m n].
Proof. intro H. unfold p_ops. cbn [doc_ops oa_paths p_doc]. constructor; [destruct H as [->| ->]; vm_compute; reflexivity|constructor]. Qed.

Lemma p_operation n :
  exists sb, method_sig_body x_no_hooks (p_m n) = Ok sb /\ sound_operation v_has w_ping_pieces (p_m n) sb.
Proof.
  eexists. split; [vm_compute; reflexivity|]. constructor.
  - names.
  - intro H. vm_compute in H. repeat (destruct H as [H|H]; [discriminate|]). easy.
  - left. reflexivity.
  - split; discriminate.
  - repeat constructor; cbn; unfold v_has; try discriminate; intros; discriminate.
  - intros t [= <-]. discriminate.
  - discriminate.
Qed.
Lemma p_no n x : str_eqb x (lit "x_trace") = false -> no_parameter x (p_m n).
Proof. intros Hn [H|[]]. cbn in H. subst. discriminate. Qed.

Lemma p_names n : flat_map positional_names [p_m n] = [lit "ping"] /\ forall i, client_methods (y_set i Merged) [p_m n] = [lit "ping"].
Proof. split; [|intro i]; reflexivity. Qed.
Lemma p_struct n : map (fun m => pascal unicode15 (m_operation_id m)) [p_m n] = [lit "Ping"].
Proof. cbn [map m_operation_id p_m]. vm_compute. reflexivity. Qed.

Lemma p_sound i v n : sound_client v_has x_ts y_types unicode15 (y_set i Merged) (p_ops v n) [p_m n].
Proof.
  assert (H : forall P : list piece -> op_method -> sig_body -> Prop,
    (forall sb, sound_operation v_has w_ping_pieces (p_m n) sb -> P w_ping_pieces (p_m n) sb) ->
    all_sound P (y_set i Merged) (p_ops v n) [p_m n]).
  { intros P HP. unfold all_sound, p_ops. cbn [doc_ops oa_paths p_doc]. constructor; [|constructor].
    destruct (p_operation n) as (sb & E & So). exists w_ping_pieces, sb. split; [reflexivity|]. split; [is_lax|]. split; [exact E|auto]. }
  unfold sound_client. cbn [se_interface y_set]. destruct i.
  - split; [rewrite (proj1 (p_names n)); names|]. apply H. intros sb So. split; [exact So|]. easy.
  - split; [rewrite (proj2 (p_names n)); names|]. split; [discriminate|]. split; [rewrite p_struct; names|]. split.
    + intros m [<-|[]] Hr. change (pascal unicode15 (m_operation_id (p_m n))) with (hd [] (map (fun m => pascal unicode15 (m_operation_id m)) [p_m n])) in Hr.
      rewrite p_struct in Hr. cbn [hd] in Hr. unfold reserved in Hr.
      assert (Hc : In (lit "Ping") (imports ++ [lit "Result"; lit "String"; lit "Option"; lit "From"; lit "Unpin"]))
        by (apply in_app_iff; cbn [In]; intuition auto).
      apply Base.mem_spec in Hc. vm_compute in Hc. discriminate.
    + apply H. intros sb So. constructor; try (apply p_no; reflexivity).
      * exact So.
      * intros p t x _ _ [= <-]. discriminate.
      * intros _. apply p_no. reflexivity.
      * intros p t _ _ _ _. discriminate.
      * intros _ p t _ _ _ _. discriminate.
      * easy.
Qed.
Lemma p_file i : file_ok v_has x_ts (p_gen i (lit "1.0") p_space) /\ file_ok v_has x_ts (p_gen i p_accent p_dash).
Proof.
  split.
  - apply (cor_client v_has (fun _ => Ok x_ts) y_types _ _ _ x_ts _ _ (proj1 (p_generates i)) (doc_ops_in_order _) eq_refl (p_processed (lit "1.0") p_space (or_introl eq_refl))).
    exact (p_sound i (lit "1.0") p_space).
  - apply (cor_client v_has (fun _ => Ok x_ts) y_types _ _ _ x_ts _ _ (proj2 (p_generates i)) (doc_ops_in_order _) eq_refl (p_processed p_accent p_dash (or_intror eq_refl))).
    exact (p_sound i p_accent p_dash).
Qed.

(** With the header, without it, and with a value that cannot be sent either. *)
Definition p_args (n : str) (v : option str) : arguments := [(p_par n, option_map x_value v)].
Lemma p_arguments n v : arguments_for (m_params (p_m n)) (p_args n v).
Proof. split; [reflexivity|]. repeat constructor. cbn. easy. Qed.

Lemma p_space_token : ~ token p_space.
Proof. intro H. apply token_iff in H. apply H. reflexivity. Qed.
Lemma p_printable : printable (lit "1.0") /\ ~ printable p_accent.
Proof. split; [apply printable_iff; discriminate|]. intro H. apply printable_iff in H. apply H. reflexivity. Qed.
Lemma p_text : header_text (lit "t1") /\ ~ header_text [10].
Proof. split; [apply header_text_iff; discriminate|]. intro H. apply header_text_iff in H. apply H. reflexivity. Qed.

Lemma p_panics : panics (lit "1.0") (p_args p_space (Some (lit "t1"))) (lit "static str is invalid name")
  /\ (forall msg, ~ panics (lit "1.0") (p_args p_space None) msg) /\ (forall msg, ~ panics (lit "1.0") (p_args p_space (Some [10])) msg)
  /\ panics p_accent (p_args p_dash None) (lit "invalid header value").
Proof.
  split; [|split; [|split]].
  - apply (pn_name _ _ [] p_space (lit "t1") []); [exact (proj1 p_printable)|reflexivity|constructor|exact (proj1 p_text)|exact p_space_token].
  - intros msg [H|pre n t post _ H _ _ _]; [exact (H (proj1 p_printable))|]. destruct pre; discriminate.
  - intros msg [H|pre n t post _ H Hp Ht _]; [exact (H (proj1 p_printable))|].
    assert (E : pre = [] /\ t = [10]) by (destruct pre as [|? [|]]; cbn in H; now injection H).
    destruct E as [_ ->]. exact (proj2 p_text Ht).
  - exact (pn_version _ _ (proj2 p_printable)).
Qed.

(** A client, and its calls. *)
Definition p_build (l : list client_option) : result nat str :=
  match l with [] => RErr (lit "no") | _ => ROk (length l) end.
Definition p_client : client_value nat bool := ClientValue _ _ (lit "https://x") 2%nat None.
Lemma p_new : new_client p_build false (lit "https://x") None = Ok p_client
  /\ new_client (I := bool) p_build true (lit "https://x") None = Panic (lit "called `Result::unwrap()` on an `Err` value: no").
Proof. split; reflexivity. Qed.
Definition p_ctx (g : generated_code) : context :=
  context_of g p_client (c_parse_url x_ctx) (c_query_error x_ctx) (c_json_error x_ctx) (c_websocket_key x_ctx).
Definition p_sb (n : str) : sig_body := match method_sig_body x_no_hooks (p_m n) with Ok sb => sb | _ => SigBody RNone RNone [] end.
Definition p_run (i : interface_style) (v n : str) (t : option str) :=
  run N (p_ctx (p_gen i v n)) (fun t _ => ROk t) nat (x_ops false false (x_resp 200)) (p_sb n) (variables (p_args n t)) 0%nat.
(** The text in [Panicked], whether something was sent. *)
Definition p_seen {V W} (r : final V * list RunModel.event * W) : option str * bool :=
  match r with (Panicked msg, tr, _) => (Some msg, negb (length tr =? 0)%nat) | (_, tr, _) => (None, negb (length tr =? 0)%nat) end.
Lemma p_runs :
  p_seen (p_run Positional (lit "1.0") p_space (Some (lit "t1"))) = (Some (lit "static str is invalid name"), false)
  /\ p_seen (p_run Positional (lit "1.0") p_space None) = (None, true)
  /\ p_seen (p_run Positional (lit "1.0") p_space (Some [10])) = (None, false)
  /\ p_seen (p_run Positional p_accent p_dash None) = (Some (lit "invalid header value"), false).
Proof. repeat split; vm_compute; reflexivity. Qed.

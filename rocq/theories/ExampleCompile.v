(** Operations and documents whose code does, or does not, compile. *)
From Verif Require Import Base OasModel ClientModel TemplateModel TemplateSpec SanitizeModel MethodModel OpModel RunModel BuilderModel
  StreamModel GenerateModel RequestSpec BuilderSpec StreamSpec DocSpec GenerateSpec ValidateProofs CompileSpec CompileItemSpec CompileCor
  ExampleData ExampleBuilder ExamplePages ExampleGenerate.
Local Open Scope N_scope.

(** Objects (type 3) are not printable. *)
Definition v_has (t : type_id) (tr : rust_trait) : Prop := t = 3 -> tr <> TrDisplay.
Definition v_body (m : op_method) : sig_body := body_of x_no_hooks m.

Ltac names := repeat (constructor; [cbn; intuition discriminate|]); constructor.

(** ** Methods *)

Lemma v_sound h : sound_operation v_has x_pieces x_m (x_sb h).
Proof.
  assert (E : sb_success (x_sb h) = RType 1 /\ sb_error (x_sb h) = RType 1) by (destruct h as [[] [] [] []]; vm_compute; auto).
  destruct E as (Es & Ee). constructor.
  - names.
  - intro H. vm_compute in H. repeat (destruct H as [H|H]; [discriminate|]). easy.
  - right. intro H. vm_compute in H. repeat (destruct H as [H|H]; [discriminate|]). easy.
  - split; discriminate.
  - repeat constructor; cbn; unfold v_has; try discriminate; intros; discriminate.
  - rewrite Es. intros t [= <-]. discriminate.
  - rewrite Ee. intros t [= <-]. discriminate.
Qed.

Definition v_op (ps : list (ref_or parameter)) : operation := Operation (Some (lit "do_it")) [] None None ps None None [] [].
Definition v_path (n : str) (s : schema) : ref_or parameter := Item (ParPath (ParamData n None true (Some (Item s)) None) PsSimple).
Definition v_m (op : operation) (ps : list piece) (verb : str) : op_method :=
  match process_operation x_snake x_pascal x_ts op x_comps (show ps) verb [] with Ok m => m | _ => x_m end.

Lemma v_rejected op ps verb :
  process_operation x_snake x_pascal x_ts op x_comps (show ps) verb [] = Ok (v_m op ps verb) -> lax ps ->
  method_sig_body x_no_hooks (v_m op ps verb) = Ok (v_body (v_m op ps verb)) ->
  forall has, ~ sound_operation has ps (v_m op ps verb) (v_body (v_m op ps verb)) ->
  ~ method_ok has (scope (v_m op ps verb)) (v_body (v_m op ps verb)).
Proof. intros H1 H2 H3 has Hn Hm. apply Hn. now apply (cor_method H1 H2 H3). Qed.

Definition v_no : list piece := map PLit (lit "/x").
Definition v_var (n : str) : list piece := map PLit (lit "/x/") ++ [PVar n].
Ltac is_lax := split; [eexists; reflexivity|vm_compute; intuition discriminate].
Definition v_stray : list piece := v_var (lit "id") ++ [PLit (ch "}")].
Definition v_headers : list (ref_or parameter) :=
  [Item (ParQuery (x_param (lit "header_map") true) QsForm); Item (ParHeader (x_param (lit "X-Id") true))].

(** OPTIONS; a path with a closing brace; a parameter with the name of the function that encodes parameters; one
    with the name of the variable for headers; one that is an object. *)
Lemma v_verb has : ~ method_ok has (scope (v_m (v_op []) v_no (lit "options"))) (v_body (v_m (v_op []) v_no (lit "options"))).
Proof.
  apply v_rejected; [vm_compute; reflexivity|is_lax|vm_compute; reflexivity|]. intros [_ _ _ H _ _ _]. vm_compute in H. now destruct H.
Qed.
Lemma v_brace has : ~ method_ok has (scope (v_m (v_op [v_path (lit "id") x_string]) v_stray (lit "get"))) (v_body (v_m (v_op [v_path (lit "id") x_string]) v_stray (lit "get"))).
Proof.
  apply v_rejected; [vm_compute; reflexivity|is_lax|vm_compute; reflexivity|]. intros [_ H _ _ _ _ _]. apply H. vm_compute. auto 8.
Qed.
Lemma v_encode has : ~ method_ok has (scope (v_m (v_op [v_path (lit "encode_path") x_string]) (v_var (lit "encode_path")) (lit "get")))
    (v_body (v_m (v_op [v_path (lit "encode_path") x_string]) (v_var (lit "encode_path")) (lit "get"))).
Proof.
  apply v_rejected; [vm_compute; reflexivity|is_lax|vm_compute; reflexivity|]. intros [_ _ [H|H] _ _ _ _].
  - vm_compute in H. discriminate.
  - apply H. vm_compute. auto.
Qed.
Lemma v_map has : ~ method_ok has (scope (v_m (v_op v_headers) v_no (lit "get"))) (v_body (v_m (v_op v_headers) v_no (lit "get"))).
Proof.
  apply v_rejected; [vm_compute; reflexivity|is_lax|vm_compute; reflexivity|]. intros [_ _ _ _ H _ _].
  apply Forall_inv in H. vm_compute in H. now destruct H.
Qed.
Lemma v_display : ~ method_ok v_has (scope (v_m (v_op [v_path (lit "id") x_object]) (v_var (lit "id")) (lit "get")))
    (v_body (v_m (v_op [v_path (lit "id") x_object]) (v_var (lit "id")) (lit "get"))).
Proof.
  apply v_rejected; [vm_compute; reflexivity|is_lax|vm_compute; reflexivity|]. intros [_ _ _ _ H _ _].
  apply Forall_inv in H. vm_compute in H. now apply H; auto.
Qed.

(** ** Streams *)

Lemma v_g_sound : sound_positional v_has g_ts g_pieces g_m g_sb.
Proof.
  assert (E : sb_success g_sb = RType 1 /\ sb_error g_sb = RNone) by (vm_compute; auto). destruct E as (Es & Ee).
  split.
  - constructor.
    + rewrite g_params. names.
    + intro H. vm_compute in H. repeat (destruct H as [H|H]; [discriminate|]). easy.
    + right. rewrite g_params. intro H. vm_compute in H. repeat (destruct H as [H|H]; [discriminate|]). easy.
    + split; discriminate.
    + rewrite g_params. repeat constructor; cbn; unfold v_has; try discriminate; intros; discriminate.
    + rewrite Es. intros t [= <-]. discriminate.
    + rewrite Ee. discriminate.
  - intros _. constructor.
    + exists (g_query (lit "page_token")), 2. rewrite g_params. cbn. repeat split; auto 8.
    + rewrite g_params. intros p Hp _. repeat (destruct Hp as [<-|Hp]; [repeat split; discriminate|]). easy.
Qed.
Definition v_items (types : type_id -> option type_info) (m : op_method) : list impl_item :=
  match positional_method types x_no_hooks m with Ok l => l | _ => [] end.
Lemma v_g_items : positional_method x_types x_no_hooks g_m = Ok (v_items x_types g_m) /\ length (v_items x_types g_m) = 2%nat.
Proof. vm_compute. auto. Qed.

(** A token that is an object, a path parameter called [page]. *)
Definition v_page_op (id : str) (token : schema) : operation := Operation
  (Some (lit "list_things")) [] None None
  [Item (ParQuery (x_param (lit "limit") false) QsForm);
   Item (ParQuery (ParamData (lit "page_token") None false (Some (Item token)) None) QsForm);
   Item (ParPath (x_param id true) PsSimple)]
  None None
  [(ScCode 200, Item (x_json (Ref (lit "#/components/schemas/Page"))))]
  [(lit "x-dropshot-pagination", JObj [(lit "required", JArr [])])].
Definition v_page_m (id : str) (token : schema) : op_method :=
  match process_operation x_snake x_pascal g_ts (v_page_op id token) x_comps (show (v_var id)) (lit "get") [] with Ok m => m | _ => x_m end.

Lemma v_unsound_stream id token :
  process_operation x_snake x_pascal g_ts (v_page_op id token) x_comps (show (v_var id)) (lit "get") [] = Ok (v_page_m id token) ->
  lax (v_var id) -> method_sig_body x_no_hooks (v_page_m id token) = Ok (v_body (v_page_m id token)) ->
  positional_method x_types x_no_hooks (v_page_m id token) = Ok (v_items x_types (v_page_m id token)) ->
  forall has, ~ sound_positional has g_ts (v_var id) (v_page_m id token) (v_body (v_page_m id token)) ->
  ~ Forall (item_ok has g_ts (v_items x_types (v_page_m id token)) []) (v_items x_types (v_page_m id token)).
Proof.
  intros H1 H2 H3 H4 has Hn Ha. apply Hn.
  apply (cor_positional H1 H2 H3 eq_refl x_types _ (v_items x_types (v_page_m id token)) [] H4); auto. now intro.
Qed.

Lemma v_token has :
  ~ Forall (item_ok has g_ts (v_items x_types (v_page_m (lit "id") x_object)) []) (v_items x_types (v_page_m (lit "id") x_object)).
Proof.
  apply v_unsound_stream; [vm_compute; reflexivity|is_lax|vm_compute; reflexivity|vm_compute; reflexivity|].
  intros (_ & H). destruct H as [(p & t & Hp & En & Et & Hs) _]; [vm_compute; discriminate|].
  assert (E : m_params (v_page_m (lit "id") x_object)
    = [x_id; g_query (lit "limit"); OpParam (lit "page_token") (lit "page_token") None (PType 3) (KQuery false)])
    by (vm_compute; reflexivity).
  rewrite E in Hp. repeat (destruct Hp as [<-|Hp]; [try discriminate|]); [|easy]. injection Et as <-. discriminate.
Qed.
Lemma v_page has :
  ~ Forall (item_ok has g_ts (v_items x_types (v_page_m (lit "page") x_string)) []) (v_items x_types (v_page_m (lit "page") x_string)).
Proof.
  apply v_unsound_stream; [vm_compute; reflexivity|is_lax|vm_compute; reflexivity|vm_compute; reflexivity|].
  intros (_ & H). destruct H as [_ H]; [vm_compute; discriminate|].
  assert (Hi : In (OpParam (lit "page") (lit "page") None (PType 2) KPath) (m_params (v_page_m (lit "page") x_string))) by (vm_compute; auto).
  assert (Hr : repeated (OpParam (lit "page") (lit "page") None (PType 2) KPath)) by (split; [discriminate|right; discriminate]).
  exact (proj1 (H _ Hi Hr) eq_refl).
Qed.

(** ** Builders *)

Lemma v_builder_sound h : sound_builder v_has x_ts x_types x_pieces x_m (x_sb h).
Proof.
  constructor.
  - apply v_sound.
  - apply x_builder_ok.
  - intro H. vm_compute in H. repeat (destruct H as [H|H]; [discriminate|]). easy.
  - intro H. vm_compute in H. repeat (destruct H as [H|H]; [discriminate|]). easy.
  - intros _ H. vm_compute in H. repeat (destruct H as [H|H]; [discriminate|]). easy.
  - intros p t _ _ _ _. discriminate.
  - intros _ p t _ _ _ _. discriminate.
  - intros H. now destruct H.
Qed.
Lemma v_offered : Forall (offered (x_bc x_no_hooks)) x_calls.
Proof.
  repeat (apply Forall_cons; [|]); [..|apply Forall_nil]; try (vm_compute; auto 8; fail).
  all: eexists; eexists; eexists; split; [right; right; right; left; reflexivity|vm_compute; reflexivity].
Qed.
Lemma v_statuses q w r w' : w_execute (x_ops false false (x_resp 200)) q w = (ROk r, w') -> r_status r < 65536.
Proof. intros [= <- <-]. reflexivity. Qed.

(** A query parameter called [new]. *)
Definition v_new_op : operation := v_op [Item (ParQuery (x_param (lit "new") true) QsForm)].
Definition v_new : builder_code :=
  match builder_struct x_types x_no_hooks (v_m v_new_op v_no (lit "get")) with Ok c => c | _ => x_bc x_no_hooks end.
Lemma v_new_ok : builder_struct x_types x_no_hooks (v_m v_new_op v_no (lit "get")) = Ok v_new.
Proof. vm_compute. reflexivity. Qed.
Lemma v_new_rejected has : ~ builder_code_ok has x_ts v_new.
Proof.
  intro H.
  assert (H1 : process_operation x_snake x_pascal x_ts v_new_op x_comps (show v_no) (lit "get") [] = Ok (v_m v_new_op v_no (lit "get")))
    by (vm_compute; reflexivity).
  assert (H2 : lax v_no) by is_lax.
  assert (H3 : method_sig_body x_no_hooks (v_m v_new_op v_no (lit "get")) = Ok (v_body (v_m v_new_op v_no (lit "get")))) by (vm_compute; reflexivity).
  apply (cor_builder H1 H2 H3 eq_refl x_types _ v_new_ok) in H. apply (sd_new _ _ _ _ _ _ H). vm_compute. auto.
Qed.
(** A parameter called [clone] of a paginated operation. *)
Definition v_clone : builder_code :=
  match builder_struct x_types x_no_hooks (v_page_m (lit "clone") x_string) with Ok c => c | _ => x_bc x_no_hooks end.
Lemma v_clone_ok : builder_struct x_types x_no_hooks (v_page_m (lit "clone") x_string) = Ok v_clone.
Proof. vm_compute. reflexivity. Qed.
Lemma v_clone_rejected has : ~ builder_code_ok has g_ts v_clone.
Proof.
  intro H. set (m := v_page_m (lit "clone") x_string) in *.
  assert (H1 : process_operation x_snake x_pascal g_ts (v_page_op (lit "clone") x_string) x_comps (show (v_var (lit "clone"))) (lit "get") [] = Ok m)
    by (vm_compute; reflexivity).
  assert (H2 : lax (v_var (lit "clone"))) by is_lax.
  assert (H3 : method_sig_body x_no_hooks m = Ok (v_body m)) by (vm_compute; reflexivity).
  apply (cor_builder H1 H2 H3 eq_refl x_types _ v_clone_ok) in H.
  destruct (sd_stream _ _ _ _ _ _ H) as (_ & _ & Hc); [vm_compute; discriminate|]. apply Hc. vm_compute. auto.
Qed.

(** ** Clients *)

Definition w_q : op_param := OpParam (lit "q") (lit "q") (Some (lit "filter")) (PType 2) (KQuery false).
Definition w_x : op_param := OpParam (lit "x_id") (lit "X-Id") None (PType 2) (KHeader false).
Definition w_item (id : str) (tags : list str) (verb : http_method) (summary : option str) : op_method :=
  OpMethod id tags verb [CConst (lit "/items/"); CParam (lit "id")] summary None [x_id; w_q; w_x]
    [OpResponse (SCode 200) (RType 1)] None false.
Definition w_ping (id : str) : op_method :=
  OpMethod id [] Get [CConst (lit "/ping")] None None [w_q; w_x] [OpResponse SDefault RUpgrade; OpResponse (SCode 101) RUpgrade] None true.
Definition w_ms (id : str) : list op_method :=
  [w_item (lit "get_item") [lit "b"; lit "a"] Get (Some (lit "Get it.")); w_item (lit "put_item") [lit "a"] Put None; w_ping id].

Lemma w_processed : Forall2 (processed unicode15 x_ts (y_doc (lit "ping"))) (y_ops (lit "ping")) (w_ms (lit "ping")).
Proof.
  change (y_ops (lit "ping")) with (doc_ops 0 (oa_paths (y_doc (lit "ping")))). cbn [doc_ops oa_paths y_doc].
  repeat (constructor; [vm_compute; reflexivity|]). constructor.
Qed.
Definition w_pieces : list piece := map PLit (lit "/items//") ++ [PVar (lit "id")].
Definition w_ping_pieces : list piece := map PLit (lit "/ping").

Lemma w_item_sound id tags verb summary : startable verb ->
  exists sb, method_sig_body x_no_hooks (w_item id tags verb summary) = Ok sb
    /\ sound_operation v_has w_pieces (w_item id tags verb summary) sb.
Proof.
  intro Hv. eexists. split; [vm_compute; reflexivity|]. constructor.
  - names.
  - intro H. vm_compute in H. repeat (destruct H as [H|H]; [discriminate|]). easy.
  - right. intro H. vm_compute in H. repeat (destruct H as [H|H]; [discriminate|]). easy.
  - exact Hv.
  - repeat constructor; cbn; unfold v_has; try discriminate; intros; discriminate.
  - intros t [= <-]. discriminate.
  - discriminate.
Qed.
Lemma w_ping_sound id :
  exists sb, method_sig_body x_no_hooks (w_ping id) = Ok sb /\ sound_operation v_has w_ping_pieces (w_ping id) sb.
Proof.
  eexists. split; [vm_compute; reflexivity|]. constructor.
  - names.
  - intro H. vm_compute in H. repeat (destruct H as [H|H]; [discriminate|]). easy.
  - left. reflexivity.
  - split; discriminate.
  - repeat constructor; cbn; unfold v_has; try discriminate; intros; discriminate.
  - discriminate.
  - discriminate.
Qed.

Lemma w_builder ps m sb : sound_operation v_has ps m sb -> incl (m_params m) [x_id; w_q; w_x] -> m_paginated m = None ->
  sound_builder v_has x_ts y_types ps m sb.
Proof.
  intros H Hi Hp.
  assert (Hn : forall n, mem n [lit "id"; lit "q"; lit "x_id"] = false -> no_parameter n m).
  { intros n Hn Hx. apply in_map_iff in Hx as (p & <- & Hx). apply Hi in Hx.
    repeat (destruct Hx as [<-|Hx]; [discriminate|]). easy. }
  constructor; try (apply Hn; reflexivity).
  - exact H.
  - intros p t i _ _ [= <-]. discriminate.
  - intros _. apply Hn. reflexivity.
  - intros p t _ _ _ _. discriminate.
  - intros _ p t _ _ _ _. discriminate.
  - rewrite Hp. easy.
Qed.

Lemma w_sound s (P : list piece -> op_method -> sig_body -> Prop) : se_hooks s = x_no_hooks ->
  (forall ps m sb, sound_operation v_has ps m sb -> incl (m_params m) [x_id; w_q; w_x] -> m_paginated m = None -> P ps m sb) ->
  all_sound P s (y_ops (lit "ping")) (w_ms (lit "ping")).
Proof.
  intros Hh HP. unfold all_sound. rewrite Hh. change (y_ops (lit "ping")) with (doc_ops 0 (oa_paths (y_doc (lit "ping")))).
  cbn [doc_ops oa_paths y_doc]. constructor; [|constructor; [|constructor; [|constructor]]].
  - destruct (w_item_sound (lit "get_item") [lit "b"; lit "a"] Get (Some (lit "Get it."))) as (sb & E & H); [split; discriminate|].
    exists w_pieces, sb. split; [reflexivity|]. split; [is_lax|]. split; [exact E|]. apply HP; [exact H|now intro|reflexivity].
  - destruct (w_item_sound (lit "put_item") [lit "a"] Put None) as (sb & E & H); [split; discriminate|].
    exists w_pieces, sb. split; [reflexivity|]. split; [is_lax|]. split; [exact E|]. apply HP; [exact H|now intro|reflexivity].
  - destruct (w_ping_sound (lit "ping")) as (sb & E & H).
    exists w_ping_pieces, sb. split; [reflexivity|]. split; [is_lax|]. split; [exact E|]. apply HP; [exact H| |reflexivity].
    intros x Hx. now right.
Qed.

Lemma w_structs : map (fun m => pascal unicode15 (m_operation_id m)) (w_ms (lit "ping")) = [lit "GetItem"; lit "PutItem"; lit "Ping"].
Proof. vm_compute. reflexivity. Qed.
Lemma w_tags : pascal unicode15 (lit "a") = lit "A" /\ pascal unicode15 (lit "b") = lit "B".
Proof. vm_compute. auto. Qed.

Lemma w_positional : sound_client v_has x_ts y_types unicode15 (y_set Positional Merged) (y_ops (lit "ping")) (w_ms (lit "ping")).
Proof.
  unfold sound_client. cbn [se_interface y_set]. split; [names|]. apply w_sound; [reflexivity|].
  intros ps m sb H _ Hp. split; [exact H|]. rewrite Hp. easy.
Qed.
Lemma w_separate : sound_client v_has x_ts y_types unicode15 (y_set Builder Separate) (y_ops (lit "ping")) (w_ms (lit "ping")).
Proof.
  unfold sound_client. cbn [se_interface y_set]. split; [names|]. split; [|split; [|split; [|apply w_sound; [reflexivity|exact w_builder]]]].
  - intros _. destruct w_tags as (Ea & Eb). constructor.
    + assert (Ht : forall m t, In m (w_ms (lit "ping")) -> In t (m_tags m) -> t = lit "a" \/ t = lit "b").
      { intros m t Hm Ht. repeat (destruct Hm as [<-|Hm]; [cbn in Ht; intuition|]). easy. }
      intros m n t u Hm Hn Hi Hj E. destruct (Ht m t Hm Hi) as [->| ->], (Ht n u Hn Hj) as [->| ->]; auto; rewrite Ea, Eb in E; discriminate.
    + intros m Hm. repeat (destruct Hm as [<-|Hm]; [names|]). easy.
    + assert (Hd : NoDup (map m_operation_id (w_ms (lit "ping")))) by names.
      intros i j m n t Hi Hj _ _ E. apply (proj1 (NoDup_nth_error _) Hd).
      * rewrite map_length. apply nth_error_Some. rewrite Hi. discriminate.
      * rewrite !nth_error_map, Hi, Hj. cbn. now rewrite E.
  - rewrite w_structs. names.
  - assert (H : forall x, In x [lit "GetItem"; lit "PutItem"; lit "Ping"] -> ~ reserved y_types (w_ms (lit "ping")) x).
    { intros x Hx Hr. unfold reserved in Hr.
      assert (Hc : In x (imports ++ [lit "Result"; lit "String"; lit "Option"; lit "From"; lit "Unpin"]))
        by (apply in_app_iff; cbn [In]; intuition (subst; auto)).
      apply Base.mem_spec in Hc. repeat (destruct Hx as [<-|Hx]; [vm_compute in Hc; discriminate|]). easy. }
    intros m Hm. apply H. rewrite <- w_structs. apply in_map_iff. exists m. auto.
Qed.

(** An operation called [error]: the builder hides the imported type. *)
Lemma w_error : generate_tokens unicode15 (fun _ => Ok x_ts) y_types (y_set Builder Merged) (y_doc (lit "error"))
  = Ok (y_gen Builder Merged (lit "error")).
Proof. apply is_ok. vm_compute. reflexivity. Qed.
Lemma w_error_name : In (lit "Error") (map sc_name (oc_builders (ge_code (y_gen Builder Merged (lit "error"))))).
Proof. vm_compute. auto. Qed.
Lemma w_error_rejected has : ~ file_ok has x_ts (y_gen Builder Merged (lit "error")).
Proof.
  intros [_ _ _ _ H _ _]. apply (NoDup_remove_2 [lit "types"; lit "ByteStream"]) in H. apply H. apply in_app_iff. right.
  right. right. exact w_error_name.
Qed.

(** Tags that differ in punctuation only. *)
Definition w_tag_doc : openapi :=
  OpenApi (lit "3.0.1") (lit "T") None None (lit "1.0")
    [(lit "/items",
      Item (y_no_ops [] (Some (y_op (lit "get") [lit "a-b"] None [])) (Some (y_op (lit "put") [lit "a_b"] None []))))] x_comps [].
Definition w_tag_gen : generated_code :=
  match generate_tokens unicode15 (fun _ => Ok x_ts) y_types (y_set Builder Separate) w_tag_doc with Ok g => g | _ => y_empty end.
Lemma w_tag_ok : generate_tokens unicode15 (fun _ => Ok x_ts) y_types (y_set Builder Separate) w_tag_doc = Ok w_tag_gen.
Proof. apply is_ok. vm_compute. reflexivity. Qed.
Lemma w_tag_names : map tc_name (oc_traits (ge_code w_tag_gen)) = [lit "ClientABExt"; lit "ClientABExt"].
Proof. vm_compute. reflexivity. Qed.
Lemma w_tag_rejected has : ~ file_ok has x_ts w_tag_gen.
Proof. intros [_ _ H _ _ _ _]. rewrite w_tag_names in H. inversion H as [|? ? Hn _]. apply Hn. now left. Qed.

(** A paginated operation [list_things] next to one called [list_things_stream]. *)
Definition w_stream_doc : openapi :=
  OpenApi (lit "3.0.0") (lit "T") None None (lit "1.0")
    [(lit "/things/{id}", Item (y_no_ops [] (Some g_op) None));
     (lit "/x", Item (y_no_ops [] (Some (Operation (Some (lit "list_things_stream")) [] None None [] None None [] [])) None))] x_comps [].
Definition w_stream_ops : list doc_op := doc_ops 0 (oa_paths w_stream_doc).
Definition w_stream_m (e : doc_op) : op_method :=
  match process_operation (snake unicode15) (pascal unicode15) g_ts (do_op e) (oa_components w_stream_doc) (do_path e) (http_method_str (do_method e)) (do_params e) with Ok m => m | _ => g_m end.
Definition w_stream_gen : generated_code :=
  match generate_tokens unicode15 (fun _ => Ok g_ts) y_types (y_set Positional Merged) w_stream_doc with Ok g => g | _ => y_empty end.
Lemma w_stream_ok : generate_tokens unicode15 (fun _ => Ok g_ts) y_types (y_set Positional Merged) w_stream_doc = Ok w_stream_gen.
Proof. apply is_ok. vm_compute. reflexivity. Qed.
Lemma w_stream_processed : Forall2 (processed unicode15 g_ts w_stream_doc) w_stream_ops (map w_stream_m w_stream_ops).
Proof.
  change w_stream_ops with (doc_ops 0 (oa_paths w_stream_doc)). cbn [doc_ops oa_paths w_stream_doc map].
  repeat (constructor; [apply is_ok; vm_compute; reflexivity|]). constructor.
Qed.
Lemma w_stream_names : map im_name (oc_impl (ge_code w_stream_gen)) = [lit "list_things"; lit "list_things_stream"; lit "list_things_stream"]
  /\ map (method_name unicode15) w_stream_ops = [lit "list_things"; lit "list_things_stream"].
Proof. split; vm_compute; reflexivity. Qed.

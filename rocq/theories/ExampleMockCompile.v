(** Mocks that do, or do not, compile. *)
From Verif Require Import Base OasModel ClientModel TemplateModel TemplateSpec SanitizeModel MethodModel OpModel BuilderModel
  GenerateModel GenerateSpec ValidateProofs MockModel CompileSpec CompileCor MockCompileSpec MockCompileProofs
  ExampleData ExampleGenerate ExampleCompile ExampleMock.
Local Open Scope N_scope.

(** Strings (type 2) are passed as [&str]. *)
Definition m_ref (t : type_id) : Prop := t <> 2.

Lemma m_item id tags verb summary : sound_mock v_has m_ref w_pieces (w_item id tags verb summary).
Proof.
  constructor.
  - names.
  - intros p Hp. repeat (destruct Hp as [<-|Hp]; [split; discriminate|]). easy.
  - repeat constructor; cbn; unfold v_has; try discriminate.
    intro H. vm_compute in H. repeat (destruct H as [H|H]; [discriminate|]). easy.
  - names.
  - intros r t [<-|[]] [= <-]. split; [discriminate|]. intro; discriminate.
Qed.
Lemma m_ping id : sound_mock v_has m_ref w_ping_pieces (w_ping id).
Proof.
  constructor.
  - names.
  - intros p Hp. repeat (destruct Hp as [<-|Hp]; [split; discriminate|]). easy.
  - repeat constructor; cbn; unfold v_has; discriminate.
  - names.
  - intros r t [<-|[<-|[]]]; discriminate.
Qed.
Lemma m_wrappers : flat_map (fun e => [pascal unicode15 (method_name unicode15 e ++ lit "-when"); pascal unicode15 (method_name unicode15 e ++ lit "-then")])
    (y_ops (lit "ping"))
  = [lit "GetItemWhen"; lit "GetItemThen"; lit "PutItemWhen"; lit "PutItemThen"; lit "PingWhen"; lit "PingThen"].
Proof. vm_compute. reflexivity. Qed.
Lemma m_sound : sound_mocks v_has m_ref unicode15 (y_ops (lit "ping")) (w_ms (lit "ping")).
Proof.
  split.
  - rewrite m_wrappers. names.
  - change (y_ops (lit "ping")) with (doc_ops 0 (oa_paths (y_doc (lit "ping")))).
    cbn [doc_ops oa_paths y_doc]. constructor; [|constructor; [|constructor; [|constructor]]].
    + exists w_pieces. split; [reflexivity|]. split; [is_lax|apply m_item].
    + exists w_pieces. split; [reflexivity|]. split; [is_lax|apply m_item].
    + exists w_ping_pieces. split; [reflexivity|]. split; [is_lax|apply m_ping].
Qed.

(** Operations whose client compiles and whose mock does not. *)
Definition m_text : operation :=
  Operation (Some (lit "do_it")) [] None None [] None None [(ScCode 200, Item (x_json (Item x_string)))] [].
Definition m_body : operation :=
  Operation (Some (lit "do_it")) [] None None [] (Some (Item (RequestBody None
    [(lit "application/json", MediaType (Some (Item x_string)) true)]))) None [] [].
Definition m_filter : operation := v_op [Item (ParQuery (ParamData (lit "q") None true (Some (Item x_object)) None) QsForm)].
Definition m_id : operation := v_op [v_path (lit "id") x_string].
Definition m_twice : list piece := v_var (lit "id") ++ PLit (ch "/") :: [PVar (lit "id")].
Definition m_new : operation := v_op [v_path (lit "new") x_string].

(** The client's method compiles, the mock does not. *)
Definition only_mock_fails (op : operation) (ps : list piece) : Prop :=
  exists m sb o, process_operation x_snake x_pascal x_ts op x_comps (show ps) (lit "get") [] = Ok m /\ lax ps
    /\ method_sig_body x_no_hooks m = Ok sb /\ method_ok v_has (scope m) sb
    /\ httpmock_method unicode15 y_types m = Ok o /\ ~ mock_op_ok v_has m_ref o.

Lemma m_fails op ps :
  process_operation x_snake x_pascal x_ts op x_comps (show ps) (lit "get") [] = Ok (v_m op ps (lit "get")) -> lax ps ->
  method_sig_body x_no_hooks (v_m op ps (lit "get")) = Ok (v_body (v_m op ps (lit "get"))) ->
  httpmock_method unicode15 y_types (v_m op ps (lit "get")) = Ok (k_mock (v_m op ps (lit "get"))) ->
  sound_operation v_has ps (v_m op ps (lit "get")) (v_body (v_m op ps (lit "get"))) ->
  ~ sound_mock v_has m_ref ps (v_m op ps (lit "get")) -> only_mock_fails op ps.
Proof.
  intros H1 H2 H3 H4 H5 H6. exists (v_m op ps (lit "get")), (v_body (v_m op ps (lit "get"))), (k_mock (v_m op ps (lit "get"))).
  repeat (split; [assumption|]). split; [now apply (cor_method H1 H2 H3)|]. split; [assumption|].
  intro H. apply H6. apply (mock_op_sound v_has m_ref y_types ps _ (k_mock (v_m op ps (lit "get"))) H2); [|exact H4|exact H].
  destruct (ParamProofs.process_operation_params _ _ _ _ _ _ _ _ _ H1) as (oid & pi' & ops' & qs & body & _ & _ & _ & _ & _ & Hp & _). exact Hp.
Qed.
Ltac client_sound :=
  constructor;
  [names
  |let H := fresh in intro H; vm_compute in H; repeat (destruct H as [H|H]; [discriminate|]); easy
  |right; let H := fresh in intro H; vm_compute in H; repeat (destruct H as [H|H]; [discriminate|]); easy
  |split; discriminate
  |repeat constructor; cbn; unfold v_has; try discriminate; intros; discriminate
  |let H := fresh in intros ? H; vm_compute in H; inversion H; subst; intro; discriminate
  |let H := fresh in intros ? H; vm_compute in H; inversion H; subst; intro; discriminate].
Ltac fails := apply m_fails; [vm_compute; reflexivity|is_lax|vm_compute; reflexivity|apply is_ok; vm_compute; reflexivity|client_sound|].

Lemma m_text_fails : only_mock_fails m_text v_no.
Proof.
  fails. intros [_ _ _ _ H]. destruct (H (OpResponse (SCode 200) (RType 2)) 2) as (Hr & _); [vm_compute; auto|reflexivity|]. now apply Hr.
Qed.
Lemma m_body_fails : only_mock_fails m_body v_no.
Proof.
  fails. intros [_ _ H _ _]. apply Forall_inv in H. vm_compute in H. now destruct H as ((H & _) & _).
Qed.
Lemma m_filter_fails : only_mock_fails m_filter v_no.
Proof. fails. intros [_ _ H _ _]. apply Forall_inv in H. vm_compute in H. now apply H. Qed.
Lemma m_twice_fails : only_mock_fails m_id m_twice.
Proof. fails. intros [_ _ H _ _]. apply Forall_inv in H. vm_compute in H. now destruct H as (_ & H & _). Qed.
Lemma m_none_fails : only_mock_fails m_id v_no.
Proof. fails. intros [_ _ H _ _]. apply Forall_inv in H. vm_compute in H. now destruct H as (_ & H & _). Qed.
Lemma m_new_fails : only_mock_fails m_new (v_var (lit "new")).
Proof. fails. intros [_ H _ _ _]. destruct (H _ (or_introl eq_refl)) as (Hn & _). now apply Hn. Qed.

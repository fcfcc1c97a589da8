(** Command line interfaces that do, or do not, compile. *)
From Verif Require Import Base OasModel ClientModel TemplateModel TemplateSpec SanitizeModel MethodModel OpModel RunModel BuilderModel StreamModel
  GenerateModel BuilderSpec GenerateSpec ValidateProofs CliModel CliSpec CliCompileSpec CliRun CliCor CompileSpec CompileItemSpec CompileItemProofs
  CompileClientProofs CompileCor NameCor CliCompileProofs CliCompileCor ExampleData ExampleGenerate ExampleCompile ExampleCli.
Local Open Scope N_scope.

(** Lists and structures cannot be arguments. *)
Definition h_has (ty : str) (tr : cli_trait) : Prop :=
  In ty [lit "::std::vec::Vec<::std::string::String>"; lit "types::Thing"] -> tr <> TcParsed.
(** The setters of the builder of the body. *)
Definition h_sets (t : type_id) (n ty : str) : Prop :=
  t = 3 /\ In (n, ty) [(lit "name", lit "::std::string::String"); (lit "favourite_color", lit "types::Color"); (lit "nick", lit "::std::string::String")].

Lemma h_shown t ct : k_ctypes t = Some ct -> shown_type h_has k_ctypes t.
Proof. intro H. exists (ct_ident ct). split; [exists ct; auto|]. intros _. discriminate. Qed.
Lemma h_argument t ct : In t [2; 4] -> k_ctypes t = Some ct -> argument_type h_has ct.
Proof.
  intros Ht H.
  assert (~ In (ct_ident ct) [lit "::std::vec::Vec<::std::string::String>"; lit "types::Thing"]
    /\ forall vs, ct_details ct = CdEnum (map (fun v => (v, true)) vs) -> vs <> []) as (Hi & Hv).
  { repeat (destruct Ht as [<-|Ht]; [injection H as <-; cbn [ct_ident ct_details]; split;
      [cbn; intuition discriminate|intros [|] E; discriminate]|]). easy. }
  split; [now intro|]. split; [|intros _ ?; contradiction]. intros vs E. split; [now intro|exact (Hv vs E)].
Qed.

(** A command with a path parameter, query and header parameters, and a body whose properties are arguments. *)
Lemma h_processed : process_operation (snake unicode15) (pascal unicode15) x_ts x_op x_comps (show x_pieces) (lit "put") [] = Ok x_m.
Proof. vm_compute. reflexivity. Qed.
Lemma h_sb : method_sig_body x_no_hooks x_m = Ok (x_sb x_no_hooks).
Proof. vm_compute. reflexivity. Qed.
Lemma h_snakes : Forall (fun n => snake unicode15 n = n) [lit "id"; lit "q"; lit "x_trace"; lit "x_id"; lit "name"; lit "favourite_color"; lit "nick";
  lit "ping"; lit "get_item"; lit "put_item"].
Proof. repeat constructor; vm_compute; reflexivity. Qed.
Lemma h_snake n : In n [lit "id"; lit "q"; lit "x_trace"; lit "x_id"; lit "name"; lit "favourite_color"; lit "nick"; lit "ping"; lit "get_item"; lit "put_item"] ->
  snake unicode15 n = n.
Proof. intro H. exact (proj1 (Forall_forall _ _) h_snakes n H). Qed.
Lemma h_sound : sound_command h_has h_sets k_ctypes unicode15 k_types x_m (x_sb x_no_hooks).
Proof.
  constructor.
  - intros p t ct Hp (Hb & _) Et Ect. cbn [m_params x_m In] in Hp.
    assert (Ht : t = 2 /\ snake unicode15 (p_name p) = p_name p).
    { repeat (destruct Hp as [<-|Hp]; [first [now destruct (Hb Json eq_refl)|split; [now injection Et|apply h_snake; cbn [p_name x_id x_q x_trace In]; auto 8]]|]). easy. }
    destruct Ht as (Ht & Es). rewrite Es. subst t. split; [apply (h_argument 2); [now left|exact Ect]|]. exists p, 2. repeat split; auto. exists ct. auto.
  - intros own rest pr ct Hown Hpr Hv.
    pose proof (own_properties_unique unicode15 k_ctypes cases15 unicode15_dash x_m _ _ _ _ Hown k_own) as E. subst own.
    assert (Hp : In x_body (m_params x_m) /\ nested k_types x_body 3).
    { split; [cbn [m_params x_m In]; auto 6|]. split; [now exists Json|]. split; [reflexivity|]. eexists. split; reflexivity. }
    assert (Hall : forall n ty t, value_type k_ctypes (pr_type pr) ct -> In t [2; 4] -> k_ctypes t = Some ct -> ct_ident ct = ty ->
      pr_name pr = n -> In (n, ty) [(lit "name", lit "::std::string::String"); (lit "favourite_color", lit "types::Color"); (lit "nick", lit "::std::string::String")] ->
      snake unicode15 n = n ->
      argument_type h_has ct /\ exists p t, In p (m_params x_m) /\ nested k_types p t /\ h_sets t (snake unicode15 (pr_name pr)) (ct_ident ct)).
    { intros n ty t _ Ht Ect Ety En Hin Es. split; [exact (h_argument t ct Ht Ect)|]. exists x_body, 3. split; [apply Hp|]. split; [apply Hp|].
      rewrite En, Es, Ety. split; [reflexivity|exact Hin]. }
    assert (Hct : forall t, value_type k_ctypes (pr_type pr) ct -> forall ct', value_type k_ctypes (pr_type pr) ct' -> k_ctypes t = Some ct' -> k_ctypes t = Some ct).
    { intros t H1 ct' H2 E. now rewrite (CliProofs.value_type_unique _ _ _ _ H1 H2). }
    destruct Hpr as [<-|[<-|[<-|[]]]].
    + assert (E : k_ctypes 2 = Some ct) by (apply (Hct 2 Hv (CliType (lit "::std::string::String") true CdOther)); [apply vt_plain; [reflexivity|discriminate]|reflexivity]).
      apply (Hall (lit "name") (lit "::std::string::String") 2 Hv); [now left|exact E| |reflexivity|now left|apply h_snake; cbn [In]; auto 9].
      injection E as <-. reflexivity.
    + assert (E : k_ctypes 4 = Some ct) by (apply (Hct 4 Hv (CliType (lit "types::Color") true (CdEnum [(lit "red", true); (lit "blue", true)]))); [apply vt_plain; [reflexivity|discriminate]|reflexivity]).
      apply (Hall (lit "favourite_color") (lit "types::Color") 4 Hv); [right; now left|exact E| |reflexivity|right; now left|apply h_snake; cbn [In]; auto 9].
      injection E as <-. reflexivity.
    + assert (E : k_ctypes 2 = Some ct) by (apply (Hct 2 Hv (CliType (lit "::std::string::String") true CdOther)); [eapply vt_option; reflexivity|reflexivity]).
      apply (Hall (lit "nick") (lit "::std::string::String") 2 Hv); [now left|exact E| |reflexivity|right; right; now left|apply h_snake; cbn [In]; auto 9].
      injection E as <-. reflexivity.
  - intros t ct _ _ _. discriminate.
  - intros t E. assert (t = 1) by (vm_compute in E; congruence). subst t. now apply (h_shown 1 (CliType (lit "types::Error") false CdOther)).
  - intros t E. assert (t = 1) by (vm_compute in E; congruence). subst t. now apply (h_shown 1 (CliType (lit "types::Error") false CdOther)).
  - discriminate.
Qed.

(** ** A document with one operation *)

Definition h_doc (id : str) (tags : list str) : openapi :=
  OpenApi (lit "3.0.1") (lit "T") None None (lit "1.0")
    [(lit "/ping", Item (y_no_ops [] (Some (y_op id tags None [])) None))] x_comps [].
Definition h_m (id : str) (tags : list str) : op_method :=
  OpMethod id tags Get [CConst (lit "/ping")] None None [w_q; w_x] [OpResponse (SCode 200) (RType 1)] None false.
Definition h_ops (id : str) (tags : list str) : list doc_op := doc_ops 0 (oa_paths (h_doc id tags)).
Definition h_gen (t : tag_style) (id : str) (tags : list str) : generated_code :=
  match generate_tokens unicode15 (fun _ => Ok x_ts) y_types (y_set Builder t) (h_doc id tags) with Ok g => g | _ => y_empty end.
Definition h_cli (id : str) (tags : list str) : cli_code :=
  match cli unicode15 k_ctypes (fun _ => true) (fun _ => Ok x_ts) (h_doc id tags) (lit "sdk") with Ok c => c | _ => CliCode [] [] [] [] [] end.

(** The style of tags, the identifier, its name and the type, and the tags. *)
Definition h_bad : list (tag_style * str * str * str * list str) :=
  [(Merged, lit "into", lit "into", lit "Into", []);
   (Merged, [304], lit "i" ++ [775], lit "I", []);
   (Separate, lit "baseurl", lit "baseurl", lit "Baseurl", [lit "a"]);
   (Separate, lit "clone", lit "clone", lit "Clone", [lit "a"]);
   (Separate, lit "ping", lit "ping", lit "Ping", [lit "a"; lit "b"])].
Definition h_all : list (tag_style * str * str * str * list str) := (Separate, lit "ping", lit "ping", lit "Ping", [lit "a"]) :: h_bad.
Ltac h_cases H := repeat (destruct H as [[= <- <- <- <- <-]|H]; [|]); [..|destruct H].

Lemma h_each : Forall (fun c => match c with (t, id, name, struct, tags) =>
  generate_tokens unicode15 (fun _ => Ok x_ts) y_types (y_set Builder t) (h_doc id tags) = Ok (h_gen t id tags)
  /\ cli unicode15 k_ctypes (fun _ => true) (fun _ => Ok x_ts) (h_doc id tags) (lit "sdk") = Ok (h_cli id tags)
  /\ Forall2 (processed unicode15 x_ts (h_doc id tags)) (h_ops id tags) [h_m name tags]
  /\ pascal unicode15 name = struct end) h_all.
Proof.
  unfold h_all, h_bad. repeat (constructor; [split; [apply is_ok; vm_compute; reflexivity|]; split; [apply is_ok; vm_compute; reflexivity|];
    split; [|vm_compute; reflexivity]; constructor; [vm_compute; reflexivity|constructor]|]). constructor.
Qed.

Lemma h_op_sound name tags : exists sb, method_sig_body x_no_hooks (h_m name tags) = Ok sb
  /\ sound_operation v_has w_ping_pieces (h_m name tags) sb.
Proof.
  eexists. split; [vm_compute; reflexivity|]. constructor.
  - names.
  - intro H. vm_compute in H. repeat (destruct H as [H|H]; [discriminate|]). easy.
  - right. intro H. vm_compute in H. repeat (destruct H as [H|H]; [discriminate|]). easy.
  - split; discriminate.
  - repeat constructor; cbn; unfold v_has; try discriminate; intros; discriminate.
  - intros t [= <-]. discriminate.
  - discriminate.
Qed.
Lemma h_client : Forall (fun c => match c with (t, id, name, struct, tags) =>
  sound_client v_has x_ts y_types unicode15 (y_set Builder t) (h_ops id tags) [h_m name tags] end) h_all.
Proof.
  apply Forall_forall. intros ((((t & id) & name) & struct) & tags) Hin.
  unfold sound_client. cbn [se_interface y_set]. split; [|split; [|split; [|split]]].
  - h_cases Hin; names.
  - intro Ht. constructor.
    + intros m n a b [<-|[]] [<-|[]] Ha Hb E. cbn [m_tags h_m] in Ha, Hb.
      assert (forall x, In x tags -> x = lit "a" \/ x = lit "b") as Hx.
      { clear E. intros x Hx. h_cases Hin; try discriminate Ht; cbn in Hx; intuition. }
      clear Hin. destruct w_tags as (Ea & Eb). destruct (Hx a Ha) as [->| ->], (Hx b Hb) as [->| ->]; auto; rewrite Ea, Eb in E; discriminate.
    + intros m [<-|[]]. cbn [m_tags h_m]. h_cases Hin; try discriminate Ht; names.
    + intros i j m n a Hi Hj _ _ _. destruct i as [|[|]], j as [|[|]]; try discriminate; reflexivity.
  - cbn [map h_m m_operation_id]. repeat constructor. easy.
  - intros m [<-|[]]. cbn [h_m m_operation_id]. pose proof (proj1 (Forall_forall _ _) h_each _ Hin) as (_ & _ & _ & Es). rewrite Es. clear Es.
    intro Hr. unfold reserved in Hr.
    assert (Hc : In struct (imports ++ [lit "Result"; lit "String"; lit "Option"; lit "From"; lit "Unpin"]))
        by (apply in_app_iff; cbn [In]; intuition (subst; auto)).
    apply Base.mem_spec in Hc. h_cases Hin; vm_compute in Hc; discriminate.
  - unfold all_sound. constructor; [|constructor]. destruct (h_op_sound name tags) as (sb & E & H).
    exists w_ping_pieces, sb. split; [reflexivity|]. split; [is_lax|]. split; [exact E|]. apply w_builder; [exact H| |reflexivity].
    intros x Hx. now right.
Qed.

Lemma h_compiles c : In c h_all -> match c with (t, id, name, struct, tags) => file_ok v_has x_ts (h_gen t id tags) end.
Proof.
  intro Hin. pose proof (proj1 (Forall_forall _ _) h_each _ Hin) as He. pose proof (proj1 (Forall_forall _ _) h_client _ Hin) as Hc.
  destruct c as ((((t & id) & name) & struct) & tags). destruct He as (Hg & _ & F & _).
  exact (proj2 (cor_client v_has (fun _ => Ok x_ts) y_types _ _ _ _ _ _ Hg (doc_ops_in_order _) eq_refl F) Hc).
Qed.

Lemma h_ping : In (Separate, lit "ping", lit "ping", lit "Ping", [lit "a"]) h_all.
Proof. now left. Qed.
Lemma h_no_body name tags t : ~ CliSpec.body_of (h_m name tags) (Some (PType t)).
Proof.
  intro H. inversion H as [|pre p post k E Ek Hpre Et]. cbn [m_params h_m] in E.
  assert (Hp : In p [w_q; w_x]) by (rewrite E; apply in_or_app; right; now left).
  destruct Hp as [<-|[<-|[]]]; discriminate.
Qed.
Lemma h_sound_cli : sound_cli h_has h_sets k_ctypes unicode15 y_types (y_set Builder Separate) [h_m (lit "ping") [lit "a"]].
Proof.
  constructor.
  - intros m [<-|[]]. exists (h_m (lit "ping") [lit "a"]). split; [now left|]. symmetry. cbn [m_operation_id h_m]. apply h_snake. cbn [In]; auto 12.
  - intros m [<-|[]]. cbn. intuition discriminate.
  - intros _ m [<-|[]]. constructor.
  - intros _ m [<-|[]] _. repeat split; try discriminate. cbn. intuition discriminate.
  - constructor; [|constructor]. eexists. split; [vm_compute; reflexivity|]. constructor.
    + intros p t ct Hp _ Et Ect. assert (Ht : t = 2 /\ snake unicode15 (p_name p) = p_name p).
      { cbn [m_params h_m In] in Hp. repeat (destruct Hp as [<-|Hp]; [split; [now injection Et|apply h_snake; cbn [p_name w_q w_x In]; auto 8]|]). easy. }
      destruct Ht as (Ht & Es). rewrite Es. subst t. split; [apply (h_argument 2); [now left|exact Ect]|]. exists p, 2. repeat split; auto. exists ct. auto.
    + intros own rest pr ct [params taken props _ _ Hb Hd] Hpr _. exfalso.
      assert (props = []) by (destruct Hb as [t ? ? Hb|t ? Hb| |]; auto; now apply h_no_body in Hb). subst props. inversion Hd. subst. easy.
    + intros t ct Hb. now apply h_no_body in Hb.
    + intros t E. injection E as <-. now apply (h_shown 1 (CliType (lit "types::Error") false CdOther)).
    + discriminate.
    + discriminate.
Qed.

Lemma h_rejected (has : str -> cli_trait -> Prop) sets c : has (lit "::std::path::PathBuf") TcStored -> has (lit "::std::path::PathBuf") TcParsed ->
  In c h_bad -> match c with (t, id, name, struct, tags) => ~ cli_compiles has sets k_ctypes x_ts (h_cli id tags) (h_gen t id tags) end.
Proof.
  intros P1 P2 Hin. assert (Ha : In c h_all) by now right. pose proof (proj1 (Forall_forall _ _) h_each _ Ha) as He. pose proof (h_compiles c Ha) as Hc.
  destruct c as ((((t & id) & name) & struct) & tags). destruct He as (Hg & Hk & F & _). intro H.
  pose proof (proj1 (cor_cli has sets k_ctypes v_has y_types (fun _ => true) (fun _ => Ok x_ts) (y_set Builder t) (h_doc id tags) (lit "sdk") (h_gen t id tags)
    (h_cli id tags) x_ts (h_ops id tags) [h_m name tags] P1 P2 Hg Hk (doc_ops_in_order _) eq_refl F eq_refl Hc) H) as Hs.
  clear Hg Hk F Hc Ha H. destruct Hs as [H1 H2 H3 H4 _]. specialize (H1 _ (or_introl eq_refl)). specialize (H2 _ (or_introl eq_refl)).
  cbn [m_operation_id h_m] in H1, H2. cbn [se_tag y_set] in H3, H4. h_cases Hin.
  - apply H2. now left.
  - destruct H1 as (n & [<-|[]] & E). vm_compute in E. discriminate.
  - destruct (H4 eq_refl _ (or_introl eq_refl)) as (_ & H & _); [discriminate|]. now apply H.
  - destruct (H4 eq_refl _ (or_introl eq_refl)) as (H & _); [discriminate|]. apply H. now left.
  - specialize (H3 eq_refl _ (or_introl eq_refl)). cbn in H3. lia.
Qed.

(** A required query parameter that is an object. *)
Definition h_filter : operation := v_op [Item (ParQuery (ParamData (lit "q") None true (Some (Item x_object)) None) QsForm)].
Definition h_f : op_method :=
  match process_operation (snake unicode15) (pascal unicode15) x_ts h_filter x_comps (show v_no) (lit "get") [] with Ok m => m | _ => x_m end.
Definition h_fo : cli_operation := match cli_method unicode15 k_ctypes h_f with Ok o => o | _ => k_o end.
Definition h_fc : builder_code := match builder_struct y_types x_no_hooks h_f with Ok c => c | _ => k_bc_of x_m end.
Lemma h_f_ok : process_operation (snake unicode15) (pascal unicode15) x_ts h_filter x_comps (show v_no) (lit "get") [] = Ok h_f
  /\ cli_method unicode15 k_ctypes h_f = Ok h_fo /\ builder_struct y_types x_no_hooks h_f = Ok h_fc.
Proof. split; [|split]; apply is_ok; vm_compute; reflexivity. Qed.
Lemma h_f_parsers : map cl_parser (cg_parsers (co_args h_fo)) = [VpType (lit "types::Thing")].
Proof. vm_compute. reflexivity. Qed.
Lemma h_f_rejected has sets : ~ has (lit "types::Thing") TcParsed -> ~ operation_compiles has sets k_ctypes x_ts h_fo h_fc.
Proof.
  intros Hn [H _ _ _]. assert (Hp : Forall (parser_compiles has) (map cl_parser (cg_parsers (co_args h_fo)))) by now apply Forall_map.
  rewrite h_f_parsers in Hp. apply Forall_inv in Hp. apply Hn, Hp.
Qed.

(** The command above compiles, with its builder. *)
Lemma h_builder : sound_builder v_has x_ts k_types x_pieces x_m (x_sb x_no_hooks).
Proof.
  constructor.
  - apply v_sound.
  - apply k_builder_ok.
  - intro H. vm_compute in H. repeat (destruct H as [H|H]; [discriminate|]). easy.
  - intro H. vm_compute in H. repeat (destruct H as [H|H]; [discriminate|]). easy.
  - intros _ H. vm_compute in H. repeat (destruct H as [H|H]; [discriminate|]). easy.
  - intros p t _ _ _ _. discriminate.
  - intros _ p t _ _ _ _. discriminate.
  - intros H. now destruct H.
Qed.
Lemma h_lax : lax x_pieces.
Proof. is_lax. Qed.
Lemma h_path : h_has (lit "::std::path::PathBuf") TcStored /\ h_has (lit "::std::path::PathBuf") TcParsed.
Proof. split; intro H; [discriminate|]. repeat (destruct H as [H|H]; [discriminate|]). easy. Qed.
Lemma h_code_ok : builder_code_ok v_has x_ts (k_bc_of x_m).
Proof. exact (proj2 (cor_builder h_processed h_lax h_sb token_unicode15 k_types (k_bc_of x_m) k_bc_ok) h_builder). Qed.
Lemma h_command_ok : operation_compiles h_has h_sets k_ctypes x_ts k_o (k_bc_of x_m).
Proof.
  exact (proj2 (command_iff h_has h_sets k_ctypes k_types unicode15 cases15 unicode15_dash h_path h_processed h_sb k_bc_ok k_builder_ok k_o_ok) h_sound).
Qed.

Lemma h_rejects (has : str -> cli_trait -> Prop) sets : has (lit "::std::path::PathBuf") TcStored -> has (lit "::std::path::PathBuf") TcParsed ->
  forall t id tags, In (t, id, tags)
    [(Merged, lit "into", []); (Merged, [304], []); (Separate, lit "baseurl", [lit "a"]); (Separate, lit "clone", [lit "a"]);
     (Separate, lit "ping", [lit "a"; lit "b"])] ->
  exists g k, generate_tokens unicode15 (fun _ => Ok x_ts) y_types (y_set Builder t) (h_doc id tags) = Ok g
    /\ file_ok v_has x_ts g
    /\ cli unicode15 k_ctypes (fun _ => true) (fun _ => Ok x_ts) (h_doc id tags) (lit "sdk") = Ok k
    /\ ~ cli_compiles has sets k_ctypes x_ts k g.
Proof.
  intros P1 P2 t id tags H. change (In (t, id, tags) (map (fun c => match c with (t, id, _, _, tags) => (t, id, tags) end) h_bad)) in H.
  apply in_map_iff in H as (c & E & Hin). pose proof (h_rejected has sets c P1 P2 Hin) as Hr.
  assert (Ha : In c h_all) by now right. pose proof (proj1 (Forall_forall _ _) h_each _ Ha) as He. pose proof (h_compiles c Ha) as Hc.
  destruct c as ((((t' & id') & name) & struct) & tags'). assert (t' = t) by congruence. assert (id' = id) by congruence. assert (tags' = tags) by congruence.
  subst t' id' tags'. destruct He as (Hg & Hk & _). exists (h_gen t id tags), (h_cli id tags). exact (conj Hg (conj Hc (conj Hk Hr))).
Qed.

Definition h_fsb : sig_body := match method_sig_body x_no_hooks h_f with Ok b => b | _ => x_sb x_no_hooks end.
Lemma h_fsb_ok : method_sig_body x_no_hooks h_f = Ok h_fsb.
Proof. apply is_ok. vm_compute. reflexivity. Qed.
Definition h_fq : op_param := OpParam (lit "q") (lit "q") None (PType 3) (KQuery true).
Lemma h_f_is : h_f = OpMethod (lit "do_it") [] Get [CConst (lit "/x")] None None [h_fq] [OpResponse (SRange 2) RRaw] None false.
Proof. vm_compute. reflexivity. Qed.
Lemma h_f_sound : sound_builder v_has x_ts y_types v_no h_f h_fsb.
Proof.
  assert (Hn : forall n, n <> lit "q" -> no_parameter n h_f).
  { intros n Hn Hx. rewrite h_f_is in Hx. destruct Hx as [Hx|[]]. now apply Hn. }
  constructor; try (apply Hn; discriminate).
  - unfold h_fsb. rewrite h_f_is. constructor.
    + names.
    + intro H. vm_compute in H. repeat (destruct H as [H|H]; [discriminate|]). easy.
    + left. reflexivity.
    + split; discriminate.
    + repeat constructor; cbn; unfold v_has; try discriminate; intros; discriminate.
    + discriminate.
    + discriminate.
  - intros p t i _ _ [= <-]. discriminate.
  - intros _. apply Hn. discriminate.
  - intros p t _ _ _ _. discriminate.
  - intros _ p t _ _ _ _. discriminate.
  - rewrite h_f_is. easy.
Qed.
Lemma h_f_fails has sets : ~ has (lit "types::Thing") TcParsed ->
  exists m o c, process_operation (snake unicode15) (pascal unicode15) x_ts h_filter x_comps (show v_no) (lit "get") [] = Ok m
    /\ cli_method unicode15 k_ctypes m = Ok o /\ builder_struct y_types x_no_hooks m = Ok c
    /\ builder_code_ok v_has x_ts c /\ ~ operation_compiles has sets k_ctypes x_ts o c.
Proof.
  intro Hn. destruct h_f_ok as (H1 & H2 & H3). exists h_f, h_fo, h_fc. split; [exact H1|]. split; [exact H2|]. split; [exact H3|].
  assert (Hl : lax v_no) by is_lax.
  split; [|now apply h_f_rejected]. exact (proj2 (cor_builder H1 Hl h_fsb_ok token_unicode15 y_types h_fc H3) h_f_sound).
Qed.

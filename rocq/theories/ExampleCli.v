(** Commands for the methods of [ExampleData] and [ExamplePages]. *)
From Verif Require Import Base Utf8 SerdeModel OasModel TemplateModel HeaderModel ClientModel MethodModel OpModel RunModel RequestSpec
  BuilderModel BuilderSpec FutureModel StreamModel StreamSpec SanitizeModel SanitizeSpec UnicodeProofs
  GenerateModel GenerateSpec ExampleData ExampleBuilder ExamplePages ExampleGenerate CliModel CliSpec CliProofs CliCor.
From Coq Require Import Permutation Sorted.
Local Open Scope N_scope.

(** Type 3, the body, is a structure: a name; optionally a colour (an enumeration), a nickname, an id
    (like the path parameter) and tags. *)
Definition k_prop (n : str) (r : bool) (t : N) : prop_info := PropInfo n (Some (lit "the " ++ n)) r t.
Definition k_name := k_prop (lit "name") true 2.
Definition k_color := k_prop (lit "favourite_color") false 4.
Definition k_nick := k_prop (lit "nick") false 5.
Definition k_id := k_prop (lit "id") false 2.
Definition k_tags := k_prop (lit "tags") false 6.
Definition k_struct (prs : list prop_info) : cli_type := CliType (lit "types::Thing") false (CdStruct prs).
Definition k_ctypes_of (prs : list prop_info) (t : N) : option cli_type :=
  match t with
  | 1 => Some (CliType (lit "types::Error") false CdOther)
  | 2 => Some (CliType (lit "::std::string::String") true CdOther)
  | 3 => Some (k_struct prs)
  | 4 => Some (CliType (lit "types::Color") true (CdEnum [(lit "red", true); (lit "blue", true)]))
  | 5 => Some (CliType (lit "::std::option::Option<::std::string::String>") false (CdOption 2))
  | 6 => Some (CliType (lit "::std::vec::Vec<::std::string::String>") false CdOther)
  | 7 => Some (CliType (lit "::std::num::NonZeroU32") true CdOther)
  | _ => None
  end.
Definition k_prs := [k_name; k_color; k_nick; k_id; k_tags].
Definition k_ctypes := k_ctypes_of k_prs.
Definition k_types (t : type_id) : option type_info :=
  if t <? 8 then Some (TypeInfo (lit "T") (t =? 3)) else None.

(** The builder of the body remembers what was set. *)
Notation k_builder := (list (prod (list N) value)) (only parsing).
Definition k_default (t : N) : list (str * value) := [].
Definition k_from (t : N) (v : value) : list (str * value) := [(lit "*", v)].
Definition k_set (n : str) (v : value) (b : list (str * value)) : list (str * value) := b ++ [(n, v)].
Definition k_try_from (t : N) (b : list (str * value)) : result value str :=
  match assoc (lit "*") b, assoc (lit "name") b with
  | None, None => RErr (lit "no value supplied for name")
  | _, _ => ROk (x_value (flat_map (fun nv => fst nv ++ lit "=" ++ v_text (snd nv) ++ lit ";") b))
  end.
Definition k_parse (p : value_parser) (s : str) : option value :=
  match p with
  | VpEnum _ vs => if mem s vs then Some (x_value s) else None
  | _ => Some (x_value s)
  end.
Definition k_read (ty : str) (path : value) : option value :=
  if str_eqb (v_text path) (lit "f.json") then Some (x_value (lit "contents")) else None.
Definition k_nonzero (v : value) : N := match v_text v with [c] => c - 48 | _ => 1 end.

(** ** put_item *)

Definition k_no_args : cli_args := CliArgs [] [] None.
Definition k_none : cli_operation := CliOperation [] None None [] [] [] k_no_args (OutOneShot SoTodo EoTodo).
Definition k_of (prs : list prop_info) (m : op_method) : cli_operation :=
  match cli_method unicode15 (k_ctypes_of prs) m with Ok o => o | _ => k_none end.
Definition k_o : cli_operation := k_of k_prs x_m.
Lemma k_o_ok : cli_method unicode15 k_ctypes x_m = Ok k_o.
Proof. apply is_ok. vm_compute. reflexivity. Qed.
Lemma k_args_ok : cli_method_args unicode15 k_ctypes x_m = Ok (co_args k_o).
Proof. vm_compute. reflexivity. Qed.

Lemma k_parsers : cg_parsers (co_args k_o) =
  [ClapArg (lit "favourite-color") (VpEnum (lit "types::Color") [lit "red"; lit "blue"]) VoOptional (Some (lit "the favourite_color"));
   ClapArg (lit "id") (VpType (lit "::std::string::String")) VoRequired None;
   ClapArg (lit "name") (VpType (lit "::std::string::String")) VoRequiredIfNoBody (Some (lit "the name"));
   ClapArg (lit "nick") (VpType (lit "::std::string::String")) VoOptional (Some (lit "the nick"));
   ClapArg (lit "q") (VpType (lit "::std::string::String")) VoOptional None;
   ClapArg (lit "x-trace") (VpType (lit "::std::string::String")) VoOptional None;
   ClapArg (lit "json-body") (VpType (lit "::std::path::PathBuf")) VoOptional
     (Some (lit "Path to a file that contains the full json body."));
   ClapArg (lit "json-body-template") VpFlag VoOptional (Some (lit "XXX"))].
Proof. vm_compute. reflexivity. Qed.

Lemma k_arg s n : to_kebab_case unicode15 s = n -> argument_name unicode15 s n.
Proof. apply (kebab_name unicode15 cases15 unicode15_dash). Qed.

Lemma k_types_ok prs t ct : k_ctypes_of prs t = Some ct ->
  exists i, k_types t = Some i /\ (ti_builder i = true <-> exists prs, ct_details ct = CdStruct prs).
Proof.
  intro H. assert (Ht : t < 8).
  { destruct (N.lt_ge_cases t 8) as [|Hge]; auto. exfalso. unfold k_ctypes_of in H.
    repeat match type of H with match ?x with _ => _ end = _ => destruct x eqn:?; try discriminate; subst end; now compute in Hge. }
  unfold k_types. rewrite (proj2 (N.ltb_lt t 8) Ht). eexists. split; [reflexivity|]. cbn.
  assert (Hc : In t [0; 1; 2; 3; 4; 5; 6; 7]) by (cbn; lia).
  repeat (destruct Hc as [<-|Hc]; [cbn in H; try discriminate H; injection H as <-; cbn;
    (split; [intro E; try discriminate E; eauto|intros (l & E); try discriminate E; reflexivity])|]). easy.
Qed.

Lemma k_builder_ok : builder_ok k_types x_m.
Proof.
  split; [repeat constructor; cbn; intuition discriminate|]. intros p t i Hp Ht Hi Hb.
  repeat (destruct Hp as [<-|Hp]; [injection Ht as <-; vm_compute in Hi; injection Hi as <-; try discriminate; cbn; eauto|]). easy.
Qed.
Lemma k_names m : forallb (fun p => str_eqb (sanitize unicode15 (p_name p) Snake) (p_name p)) (m_params m) = true ->
  forall p, In p (m_params m) -> sanitize unicode15 (p_name p) Snake = p_name p.
Proof. rewrite forallb_forall. intros H p Hp. now apply str_eqb_spec, H. Qed.
Lemma k_ok : cli_ok unicode15 k_types k_ctypes x_m (co_args k_o).
Proof.
  split.
  - apply k_builder_ok.
  - apply k_types_ok.
  - apply k_names. vm_compute. reflexivity.
  - intros p ct Hp. repeat (destruct Hp as [<-|Hp]; [easy|]). easy.
  - rewrite k_parsers. repeat constructor; cbn; intuition discriminate.
Qed.

Definition k_line : list (str * str) := [(lit "name", lit "n"); (lit "id", lit "a/b"); (lit "favourite-color", lit "red")].
Definition k_file_line : list (str * str) := [(lit "json-body", lit "f.json"); (lit "id", lit "a/b"); (lit "nick", lit "z")].
Definition k_ms (line : list (str * str)) : list (str * (str * value)) :=
  match clap_parse k_parse (cg_parsers (co_args k_o)) line with Some ms => ms | None => [] end.

Ltac k_accept := apply (CliRun.clap_parse_iff k_parse); [rewrite ?k_parsers; repeat constructor; cbn; intuition discriminate|];
  eexists; vm_compute; reflexivity.
Lemma k_line_ok : acceptable_line k_parse (cg_parsers (co_args k_o)) k_line.
Proof. k_accept. Qed.
Lemma k_file_line_ok : acceptable_line k_parse (cg_parsers (co_args k_o)) k_file_line.
Proof. k_accept. Qed.

Lemma k_accepted : accepted unicode15 k_types k_ctypes k_read k_parse x_m k_o k_line.
Proof.
  split; [apply k_o_ok|apply k_ok|apply k_line_ok| |easy].
  intros t ct path _ _ Ho. inversion Ho as [ty v Hs E|]. destruct Hs as (a & text & _ & _ & Hi & _). exfalso.
  repeat (destruct Hi as [Hi|Hi]; [discriminate|]). easy.
Qed.
Lemma k_file_path path : on_line k_parse (cg_parsers (co_args k_o)) k_file_line (lit "json-body") (Some path) -> path = x_value (lit "f.json").
Proof.
  intro Ho. inversion Ho as [ty v Hs E|]. subst v. destruct Hs as (a & text & Ha & Ea & Hi & Ep & _).
  repeat (destruct Hi as [Hi|Hi]; [first [discriminate|injection Hi as <-]|]); [|easy].
  rewrite k_parsers in Ha. repeat (destruct Ha as [<-|Ha]; [first [discriminate|injection Ep as <-; reflexivity]|]). easy.
Qed.
Lemma k_file_accepted : accepted unicode15 k_types k_ctypes k_read k_parse x_m k_o k_file_line.
Proof.
  split; [apply k_o_ok|apply k_ok|apply k_file_line_ok| |easy].
  intros t ct path _ _ Ho. rewrite (k_file_path path Ho). discriminate.
Qed.

(** What the lines give. *)
Lemma k_given args given n a text v : find_arg args n = Some a -> assoc n given = Some text -> k_parse (cl_parser a) text = Some v ->
  on_line k_parse args given n (Some v).
Proof.
  intros Ha Hi Hv. apply CliRun.find_arg_some in Ha as [Ha En]. apply assoc_In in Hi. eapply ol_given. exists a, text. repeat split; eauto.
Qed.
Lemma k_missing args given n : assoc n given = None -> on_line k_parse args given n None.
Proof. intro H. apply ol_absent. now apply assoc_None. Qed.

Notation k_line_gives m o := (line_gives unicode15 k_ctypes k_default k_from k_try_from k_set k_read k_parse m (cg_parsers (co_args o))).
Ltac k_argument name := apply (lg_argument _ _ _ _ _ _ _ _ _ _ _ _ name);
  [split; [easy|vm_compute; intuition discriminate]|apply k_arg; vm_compute; reflexivity|];
  first [eapply k_given; [vm_compute; reflexivity|vm_compute; reflexivity|vm_compute; reflexivity]
        |apply k_missing; vm_compute; reflexivity].

Lemma k_kept : kept (has_argument x_m) (m_params x_m) [x_id; x_q; x_trace].
Proof.
  repeat (apply ke_keep; [split; [easy|vm_compute; intuition discriminate]|]).
  apply ke_drop; [intros [H _]; now apply (H Json)|constructor].
Qed.
Lemma k_body_of : body_of x_m (Some (PType 3)).
Proof.
  apply (bo_some x_m [x_id; x_q; x_trace] x_body [] Json); [reflexivity|reflexivity|].
  intros q ct Hq. repeat (destruct Hq as [<-|Hq]; [easy|]). easy.
Qed.
Lemma k_props : body_properties k_ctypes x_m k_prs.
Proof. eapply bp_struct; [apply k_body_of|reflexivity|reflexivity]. Qed.
Lemma k_divided : divided unicode15 k_ctypes [lit "id"; lit "q"; lit "x-trace"] k_prs [k_name; k_color; k_nick] [k_id; k_tags].
Proof.
  apply (di_own _ _ _ k_name (lit "name")); [eexists; split; [apply vt_plain; [reflexivity|easy]|reflexivity]
    |apply k_arg; vm_compute; reflexivity|cbn; intuition discriminate|].
  apply (di_own _ _ _ k_color (lit "favourite-color")); [eexists; split; [apply vt_plain; [reflexivity|easy]|reflexivity]
    |apply k_arg; vm_compute; reflexivity|cbn; intuition discriminate|].
  apply (di_own _ _ _ k_nick (lit "nick")); [eexists; split; [eapply vt_option; reflexivity|reflexivity]
    |apply k_arg; vm_compute; reflexivity|cbn; intuition discriminate|].
  apply (di_rest _ _ _ k_id (lit "id")); [apply k_arg; vm_compute; reflexivity|right; cbn; auto 9|].
  apply (di_rest _ _ _ k_tags (lit "tags")); [apply k_arg; vm_compute; reflexivity| |constructor].
  left. intros (ct & [ct' E _|ct0 i ct' E Ed _] & Ef); vm_compute in E; injection E as <-; discriminate.
Qed.
Lemma k_own : own_properties unicode15 k_ctypes x_m [k_name; k_color; k_nick] [k_id; k_tags].
Proof.
  apply (op_intro _ _ _ _ _ [x_id; x_q; x_trace] [lit "id"; lit "q"; lit "x-trace"] k_prs); [apply k_kept| |apply k_props|apply k_divided].
  repeat (constructor; [apply k_arg; vm_compute; reflexivity|]). constructor.
Qed.

Definition k_args : list (op_param * option value) :=
  [(x_id, Some (x_value (lit "a/b"))); (x_q, None); (x_trace, None);
   (x_body, Some (x_value (lit "favourite_color=red;name=n;")))].
Definition k_file_args : list (op_param * option value) :=
  [(x_id, Some (x_value (lit "a/b"))); (x_q, None); (x_trace, None);
   (x_body, Some (x_value (lit "*=contents;")))].
Lemma k_gives : Forall (fun pv => k_line_gives x_m k_o k_line (fst pv) (snd pv)) k_args.
Proof.
  repeat (apply Forall_cons; [cbn [fst snd]|]); [k_argument (lit "id")|k_argument (lit "q")|k_argument (lit "x-trace")| |apply Forall_nil].
  apply (lg_properties _ _ _ _ _ _ _ _ _ _ _ _ Json 3 (k_struct k_prs) k_prs [k_name; k_color; k_nick] [k_id; k_tags] [k_color; k_name; k_nick]
    [(lit "favourite_color", x_value (lit "red")); (lit "name", x_value (lit "n"))]);
    [reflexivity|reflexivity|reflexivity|reflexivity|apply k_missing; reflexivity|apply k_own|apply perm_swap| | |vm_compute; reflexivity].
  - repeat constructor; eexists _, _; (split; [apply k_arg; vm_compute; reflexivity|]); (split; [apply k_arg; vm_compute; reflexivity|]); reflexivity.
  - apply (fl_given _ _ _ k_color (lit "favourite-color") (x_value (lit "red")));
      [apply k_arg; vm_compute; reflexivity|eapply k_given; vm_compute; reflexivity|].
    apply (fl_given _ _ _ k_name (lit "name") (x_value (lit "n")));
      [apply k_arg; vm_compute; reflexivity|eapply k_given; vm_compute; reflexivity|].
    apply (fl_absent _ _ _ k_nick (lit "nick"));
      [apply k_arg; vm_compute; reflexivity|apply k_missing; vm_compute; reflexivity|].
    replace (k_set _ _ _) with [(lit "favourite_color", x_value (lit "red")); (lit "name", x_value (lit "n"))] by (vm_compute; reflexivity).
    apply fl_nil.
Qed.
Lemma k_file_gives : Forall (fun pv => k_line_gives x_m k_o k_file_line (fst pv) (snd pv)) k_file_args.
Proof.
  repeat (apply Forall_cons; [cbn [fst snd]|]); [k_argument (lit "id")|k_argument (lit "q")|k_argument (lit "x-trace")| |apply Forall_nil].
  apply (lg_file_struct _ _ _ _ _ _ _ _ _ _ _ _ Json 3 (k_struct k_prs) k_prs (x_value (lit "f.json")) (x_value (lit "contents")));
    [reflexivity|reflexivity|reflexivity|reflexivity|eapply k_given; vm_compute; reflexivity|reflexivity|reflexivity].
Qed.

Definition k_bc_of (m : op_method) : builder_code :=
  match builder_struct k_types x_no_hooks m with Ok c => c | _ => BuilderCode [] [] (SigBody RNone RNone []) None true end.
Lemma k_bc_ok : builder_struct k_types x_no_hooks x_m = Ok (k_bc_of x_m).
Proof. apply is_ok. vm_compute. reflexivity. Qed.
Definition k_no_override (_ : list (str * (str * value))) (cs : list (setter_call (list (str * value))))
  : result (list (setter_call (list (str * value)))) str := ROk cs.
Definition k_execute_as override o m line ops :=
  execute (list (str * value)) k_default k_from k_try_from k_set k_read k_nonzero override
    (N * list N) (fun _ => []) (fun _ => None) x_ctx x_fs nat ops o (k_bc_of m)
    (match clap_parse k_parse (cg_parsers (co_args o)) line with Some ms => ms | None => [] end) 0 0 O.
Definition k_execute := k_execute_as k_no_override.

(** ** list_things, with a numeric limit *)

Definition l_limit : op_param := OpParam (lit "limit") (lit "limit") None (PType 7) (KQuery false).
Definition l_params : list op_param := [x_id; g_query (lit "filter"); l_limit; g_query (lit "page_token")].
Definition l_m_of (rs : list op_response) : op_method :=
  OpMethod (m_operation_id g_m) (m_tags g_m) (m_method g_m) (m_path g_m) (m_summary g_m) (m_description g_m)
    l_params (m_responses g_m ++ rs) (m_paginated g_m) (m_websocket g_m).
Definition l_m : op_method := l_m_of [].
Lemma l_sb : method_sig_body x_no_hooks l_m = Ok g_sb.
Proof. vm_compute. reflexivity. Qed.
Definition l_o : cli_operation := k_of k_prs l_m.
Lemma l_o_ok : cli_method unicode15 k_ctypes l_m = Ok l_o.
Proof. apply is_ok. vm_compute. reflexivity. Qed.
Lemma l_parsers : cg_parsers (co_args l_o) =
  [ClapArg (lit "filter") (VpType (lit "::std::string::String")) VoOptional None;
   ClapArg (lit "id") (VpType (lit "::std::string::String")) VoRequired None;
   ClapArg (lit "limit") (VpType (lit "::std::num::NonZeroU32")) VoOptional None].
Proof. vm_compute. reflexivity. Qed.
Lemma l_paginated_params : paginated_params l_params.
Proof.
  split; [repeat constructor; cbn; intuition discriminate|]. split.
  - exists (g_query (lit "page_token")). cbn. auto 8.
  - split.
    + intros p Hp. repeat (destruct Hp as [<-|Hp]; [cbn; split; intro E; congruence|]). easy.
    + intros p r Hp. repeat (destruct Hp as [<-|Hp]; [cbn; congruence|]). easy.
Qed.
Lemma l_builder_ok rs : builder_ok k_types (l_m_of rs).
Proof.
  split; [apply l_paginated_params|]. intros p t i Hp Ht Hi Hb.
  repeat (destruct Hp as [<-|Hp]; [injection Ht as <-; vm_compute in Hi; injection Hi as <-; discriminate|]). easy.
Qed.
Lemma l_ok : cli_ok unicode15 k_types k_ctypes l_m (co_args l_o).
Proof.
  split.
  - apply l_builder_ok.
  - apply k_types_ok.
  - apply k_names. vm_compute. reflexivity.
  - intros p ct Hp. repeat (destruct Hp as [<-|Hp]; [easy|]). easy.
  - rewrite l_parsers. repeat constructor; cbn; intuition discriminate.
Qed.
Definition l_line : list (str * str) := [(lit "limit", lit "2"); (lit "id", lit "a/b"); (lit "filter", lit "red")].
Lemma l_accepted : accepted unicode15 k_types k_ctypes k_read k_parse l_m l_o l_line.
Proof.
  split; [apply l_o_ok|apply l_ok| | |].
  - apply (CliRun.clap_parse_iff k_parse); [rewrite l_parsers; repeat constructor; cbn; intuition discriminate|].
    eexists. vm_compute. reflexivity.
  - intros t ct path _ _ Ho. inversion Ho as [ty v Hs E|]. destruct Hs as (a & text & _ & _ & Hi & _). exfalso.
    repeat (destruct Hi as [Hi|Hi]; [discriminate|]). easy.
  - intros p Hp. repeat (destruct Hp as [<-|Hp]; [easy|]). easy.
Qed.
Definition l_args : list (op_param * option value) :=
  [(x_id, Some (x_value (lit "a/b"))); (g_query (lit "filter"), Some (x_value (lit "red")));
   (l_limit, Some (x_value (lit "2"))); (g_query (lit "page_token"), None)].
Lemma l_has_argument p : In p [x_id; g_query (lit "filter"); l_limit] -> has_argument l_m p.
Proof. intro Hp. split; [|intros [_ E]]; (repeat (destruct Hp as [<-|Hp]; [easy|]); easy). Qed.
Lemma l_gives : Forall (fun pv => k_line_gives l_m l_o l_line (fst pv) (snd pv)) l_args.
Proof.
  repeat (apply Forall_cons; [cbn [fst snd]|]).
  - apply (lg_argument _ _ _ _ _ _ _ _ _ _ _ _ (lit "id"));
      [apply l_has_argument; cbn; auto|apply k_arg; vm_compute; reflexivity|eapply k_given; vm_compute; reflexivity].
  - apply (lg_argument _ _ _ _ _ _ _ _ _ _ _ _ (lit "filter"));
      [apply l_has_argument; cbn; auto|apply k_arg; vm_compute; reflexivity|eapply k_given; vm_compute; reflexivity].
  - apply (lg_argument _ _ _ _ _ _ _ _ _ _ _ _ (lit "limit"));
      [apply l_has_argument; cbn; auto|apply k_arg; vm_compute; reflexivity|eapply k_given; vm_compute; reflexivity].
  - apply lg_token; [easy|]. intros [_ H]. apply H. split; [vm_compute; discriminate|reflexivity].
  - apply Forall_nil.
Qed.
Lemma l_limited : limit_on_line k_parse k_nonzero (cg_parsers (co_args l_o)) l_line 2.
Proof.
  apply (lo_some k_parse k_nonzero _ _ (x_value (lit "2"))). rewrite l_parsers.
  eexists _, _. split; [do 2 right; left; reflexivity|]. repeat split. cbn. auto.
Qed.
(** The first page has as many items as are allowed; the others are not asked for. *)
Lemma l_to_list : to_list g_items g_next (page_request x_ctx g_fs g_ops g_sb l_args) 2 ([1; 2; 3], [])
  [Thing 1; Thing 2] (ROk tt) ([2; 3], [g_first]).
Proof.
  refine (tl_enough g_items g_next _ 2 ([1; 2; 3], []) [] (g_page 1) (Some (x_value (lit "t2"))) ([2; 3], [g_first]) _ _ _).
  - exact (fe_one g_next (page_request x_ctx g_fs g_ops g_sb l_args) None ([1; 2; 3], []) (g_page 1) ([2; 3], [g_first]) ltac:(vm_compute; reflexivity)).
  - reflexivity.
  - vm_compute. discriminate.
Qed.
Lemma l_bc_ok : builder_struct k_types x_no_hooks l_m = Ok (k_bc_of l_m).
Proof. apply is_ok. vm_compute. reflexivity. Qed.

Definition l_execute o m line pf fuel w :=
  execute (list (str * value)) k_default k_from k_try_from k_set k_read k_nonzero k_no_override
    thing g_items g_next x_ctx g_fs (list N * list (option str)) g_ops o (k_bc_of m)
    (match clap_parse k_parse (cg_parsers (co_args o)) line with Some ms => ms | None => [] end) pf fuel w.

(** ** What goes wrong *)

(** list_things whose error is plain text: the server fails after two pages. *)
Definition l_raw : op_method := l_m_of [OpResponse (SCode 500) RRaw].
Definition l_raw_o : cli_operation := k_of k_prs l_raw.
Lemma l_raw_o_ok : cli_method unicode15 k_ctypes l_raw = Ok l_raw_o.
Proof. apply is_ok. vm_compute. reflexivity. Qed.
Lemma l_raw_bc_ok : builder_struct k_types x_no_hooks l_raw = Ok (k_bc_of l_raw).
Proof. apply is_ok. vm_compute. reflexivity. Qed.
Lemma l_raw_panics : l_execute l_raw_o l_raw [(lit "id", lit "a/b")] 10 10 ([1; 2], [])
  = (CfPanicked, [CbListStart; CbListItem (IVal (Thing 1)); CbListItem (IVal (Thing 2))],
     ([], [None; Some (lit "page_token=t2"); Some (lit "page_token=t3")])).
Proof. vm_compute. reflexivity. Qed.

(** list_things with a limit of another type. *)
Definition l_text_o : cli_operation := k_of k_prs g_m.
Lemma l_text_o_ok : cli_method unicode15 k_ctypes g_m = Ok l_text_o.
Proof. apply is_ok. vm_compute. reflexivity. Qed.
Lemma l_text_bc_ok : builder_struct k_types x_no_hooks g_m = Ok (k_bc_of g_m).
Proof. apply is_ok. vm_compute. reflexivity. Qed.
Lemma l_text_panics : l_execute l_text_o g_m l_line 10 10 ([1; 2; 3], []) = (CfPanicked, [CbListStart], ([1; 2; 3], [])).
Proof. vm_compute. reflexivity. Qed.

(** status, which answers with bytes. *)
Definition s_o : cli_operation := k_of k_prs z_m.
Lemma s_o_ok : cli_method unicode15 k_ctypes z_m = Ok s_o.
Proof. apply is_ok. vm_compute. reflexivity. Qed.
Lemma s_bc_ok : builder_struct k_types x_no_hooks z_m = Ok (k_bc_of z_m).
Proof. apply is_ok. vm_compute. reflexivity. Qed.
Lemma s_panics : k_execute s_o z_m [] (x_ops false false (x_resp 200)) = (CfPanicked, [], 1%nat).
Proof. vm_compute. reflexivity. Qed.

(** The override refuses. *)
Definition k_refuse (_ : list (str * (str * value))) (cs : list (setter_call (list (str * value))))
  : result (list (setter_call (list (str * value)))) str := RErr (lit "not today").
Lemma k_refused : k_execute_as k_refuse k_o x_m k_line (x_ops false false (x_resp 200))
  = (CfReturned (RErr (CeOverride (lit "not today"))), [], O).
Proof. vm_compute. reflexivity. Qed.

(** A property called json_body. *)
Definition k_clash := k_prop (lit "json_body") false 2.
Definition k_clash_o : cli_operation := k_of [k_clash] x_m.
Lemma k_clash_ok : cli_method_args unicode15 (k_ctypes_of [k_clash]) x_m = Ok (co_args k_clash_o).
Proof. vm_compute. reflexivity. Qed.
Lemma k_clash_ids : map cl_id (cg_parsers (co_args k_clash_o))
  = [lit "id"; lit "json-body"; lit "q"; lit "x-trace"; lit "json-body"; lit "json-body-template"].
Proof. vm_compute. reflexivity. Qed.

(** A body of bytes. *)
Definition r_body : op_param := OpParam (lit "body") (lit "body") None PRawBody (KBody OctetStream).
Definition r_m : op_method :=
  OpMethod (lit "upload") [] Put [CConst (lit "/upload/"); CParam (lit "id")] None None [x_id; r_body]
    [OpResponse (SCode 204) RNone] None false.
Definition r_o : cli_operation := k_of k_prs r_m.
Lemma r_o_ok : cli_method unicode15 k_ctypes r_m = Ok r_o.
Proof. apply is_ok. vm_compute. reflexivity. Qed.
Lemma r_parsers : cg_parsers (co_args r_o) = [ClapArg (lit "id") (VpType (lit "::std::string::String")) VoRequired None].
Proof. vm_compute. reflexivity. Qed.
Lemma r_accepted : accepted unicode15 k_types k_ctypes k_read k_parse r_m r_o [(lit "id", lit "a")].
Proof.
  split; [apply r_o_ok| | | |easy].
  - split.
    + split; [repeat constructor; cbn; intuition discriminate|]. intros p t i Hp Ht Hi Hb.
      repeat (destruct Hp as [<-|Hp]; [first [discriminate Ht|injection Ht as <-; vm_compute in Hi; injection Hi as <-; discriminate]|]). easy.
    + apply k_types_ok.
    + apply k_names. vm_compute. reflexivity.
    + intros p ct Hp. repeat (destruct Hp as [<-|Hp]; [easy|]). easy.
    + rewrite r_parsers. repeat constructor; cbn; intuition discriminate.
  - apply (CliRun.clap_parse_iff k_parse); [rewrite r_parsers; repeat constructor; cbn; intuition discriminate|].
    eexists. vm_compute. reflexivity.
  - intros t ct path _ _ Ho. inversion Ho as [ty v Hs E|]. destruct Hs as (a & text & _ & _ & Hi & _). exfalso.
    repeat (destruct Hi as [Hi|Hi]; [discriminate|]). easy.
Qed.
Lemma r_gives : k_line_gives r_m r_o [(lit "id", lit "a")] x_id (Some (x_value (lit "a"))).
Proof. k_argument (lit "id"). Qed.
Lemma r_bc_ok : builder_struct k_types x_no_hooks r_m = Ok (k_bc_of r_m).
Proof. apply is_ok. vm_compute. reflexivity. Qed.

(** ** The file *)
Definition y_ctypes (t : N) : option cli_type := Some (CliType (lit "T") true CdOther).
Definition k_file (id : str) : cli_code :=
  match cli unicode15 y_ctypes (fun _ => true) (fun _ => Ok x_ts) (y_doc id) (lit "sdk") with Ok c => c | _ => CliCode [] [] [] [] [] end.
Lemma k_file_ok id : In id [lit "ping"; [304]] ->
  cli unicode15 y_ctypes (fun _ => true) (fun _ => Ok x_ts) (y_doc id) (lit "sdk") = Ok (k_file id).
Proof. intro H. apply is_ok. repeat (destruct H as [<-|H]; [vm_compute; reflexivity|]). easy. Qed.
Lemma k_file_names : map co_cli_fn (cc_operations (k_file (lit "ping"))) = [lit "cli_get_item"; lit "cli_put_item"; lit "cli_ping"]
  /\ cc_commands (k_file (lit "ping"))
     = [(lit "GetItem", lit "cli_get_item"); (lit "PutItem", lit "cli_put_item"); (lit "Ping", lit "cli_ping")].
Proof. vm_compute. auto. Qed.
Lemma k_file_lost : nth 2 (map co_cli_fn (cc_operations (k_file [304]))) [] = lit "cli_i" ++ [775]
  /\ nth 2 (cc_commands (k_file [304])) ([], []) = (lit "I", lit "cli_i")
  /\ ~ In (lit "cli_i") (map co_cli_fn (cc_operations (k_file [304]))).
Proof. vm_compute. intuition discriminate. Qed.
Lemma k_doc_ops id : operations_in_order (y_doc id) (y_ops id).
Proof. apply ValidateProofs.doc_ops_in_order. Qed.
Lemma k_file_settled : forall e x c, In e (y_ops (lit "ping")) -> op_id (do_op e) = Some x -> In c x ->
  c <> 304 /\ (uppercase unicode15 c = true -> to_lower unicode15 c <> [c]).
Proof.
  intros e x c He Hx Hc. assert (Hn : In x [lit "get-item"; lit "put_item"; lit "ping"]).
  { repeat (destruct He as [<-|He]; [injection Hx as <-; cbn; auto|]). easy. }
  assert (H : forallb (fun x => forallb (fun c => negb (c =? 304) && negb (uppercase unicode15 c)) x) [lit "get-item"; lit "put_item"; lit "ping"] = true)
    by (vm_compute; reflexivity).
  rewrite forallb_forall in H. specialize (H x Hn). rewrite forallb_forall in H. specialize (H c Hc).
  apply andb_true_iff in H as [H1 H2]. split.
  - intros ->. discriminate.
  - intro E. rewrite E in H2. discriminate.
Qed.
Lemma k_settled : Forall (fun p => p_name p = sanitize unicode15 (p_api_name p) Snake
    /\ forall c, In c (p_api_name p) -> c <> 304 /\ (uppercase unicode15 c = true -> to_lower unicode15 c <> [c])) (m_params x_m).
Proof.
  assert (H : forallb (fun x => forallb (fun c => negb (c =? 304) && negb (uppercase unicode15 c && str_eqb (to_lower unicode15 c) [c])) (p_api_name x)) (m_params x_m) = true)
    by (vm_compute; reflexivity).
  assert (Hn : forallb (fun p => str_eqb (sanitize unicode15 (p_api_name p) Snake) (p_name p)) (m_params x_m) = true) by (vm_compute; reflexivity).
  rewrite forallb_forall in H, Hn. apply Forall_forall. intros p Hp. split; [symmetry; now apply str_eqb_spec, Hn|].
  specialize (H p Hp). rewrite forallb_forall in H. intros c Hc. specialize (H c Hc).
  apply andb_true_iff in H as [H1 H2]. split.
  - intros ->. discriminate.
  - intros E El. rewrite E, El, str_eqb_refl in H2. discriminate.
Qed.
(** Two parameters whose names differ only in punctuation. *)
Definition k_pair (a b : str) : op_method :=
  OpMethod (lit "pair") [] Get [CConst (lit "/pair")] None None
    [OpParam a (lit "a-b") None (PType 2) (KQuery false); OpParam b (lit "a_b") None (PType 2) (KHeader false)]
    [OpResponse (SCode 204) RNone] None false.
Lemma k_pair_panics : cli_method_args unicode15 k_ctypes (k_pair (lit "a_b") (lit "a_b")) = Panic (lit "assertion failed: !args.has_arg(&arg_name)").
Proof. vm_compute. reflexivity. Qed.

Lemma listing_panics : exists m o c given ms w w',
  m_paginated m <> None /\ cli_method unicode15 k_ctypes m = Ok o /\ builder_struct k_types x_no_hooks m = Ok c
  /\ clap_parse k_parse (cg_parsers (co_args o)) given = Some ms /\ line_limit k_nonzero ms usize_max
  /\ execute (list (str * value)) k_default k_from k_try_from k_set k_read k_nonzero k_no_override
       thing g_items g_next x_ctx g_fs (list N * list (option str)) g_ops o c ms 10 10 w
     = (CfPanicked, [CbListStart; CbListItem (IVal (Thing 1)); CbListItem (IVal (Thing 2))], w').
Proof.
  exists l_raw, l_raw_o, (k_bc_of l_raw), [(lit "id", lit "a/b")], [(lit "id", (lit "::std::string::String", x_value (lit "a/b")))],
    ([1; 2], []), ([], [None; Some (lit "page_token=t2"); Some (lit "page_token=t3")]).
  split; [vm_compute; discriminate|]. split; [apply l_raw_o_ok|]. split; [apply l_raw_bc_ok|]. split; [vm_compute; reflexivity|].
  split; [apply ll_none; reflexivity|]. vm_compute. reflexivity.
Qed.
Lemma limit_panics : exists m o c given ms w,
  m_paginated m <> None /\ cli_method unicode15 k_ctypes m = Ok o /\ builder_struct k_types x_no_hooks m = Ok c
  /\ clap_parse k_parse (cg_parsers (co_args o)) given = Some ms
  /\ execute (list (str * value)) k_default k_from k_try_from k_set k_read k_nonzero k_no_override
       thing g_items g_next x_ctx g_fs (list N * list (option str)) g_ops o c ms 10 10 w
     = (CfPanicked, [CbListStart], w).
Proof.
  exists g_m, l_text_o, (k_bc_of g_m), [(lit "id", lit "a"); (lit "limit", lit "2")],
    [(lit "id", (lit "::std::string::String", x_value (lit "a"))); (lit "limit", (lit "::std::string::String", x_value (lit "2")))], ([1; 2; 3], []).
  split; [vm_compute; discriminate|]. split; [apply l_text_o_ok|]. split; [apply l_text_bc_ok|]. split; [vm_compute; reflexivity|].
  vm_compute. reflexivity.
Qed.
Lemma raw_panics : exists m o c given ms,
  m_paginated m = None /\ cli_method unicode15 k_ctypes m = Ok o /\ builder_struct k_types x_no_hooks m = Ok c
  /\ clap_parse k_parse (cg_parsers (co_args o)) given = Some ms
  /\ execute (list (str * value)) k_default k_from k_try_from k_set k_read k_nonzero k_no_override
       (N * list N) (fun _ => []) (fun _ => None) x_ctx x_fs nat (x_ops false false (x_resp 200)) o c ms 0 0 O
     = (CfPanicked, [], 1%nat).
Proof.
  exists z_m, s_o, (k_bc_of z_m), [], [].
  split; [reflexivity|]. split; [apply s_o_ok|]. split; [apply s_bc_ok|]. split; vm_compute; reflexivity.
Qed.
Lemma override_silent : exists m o c given ms msg,
  m_paginated m = None /\ cli_method unicode15 k_ctypes m = Ok o /\ builder_struct k_types x_no_hooks m = Ok c
  /\ clap_parse k_parse (cg_parsers (co_args o)) given = Some ms
  /\ execute (list (str * value)) k_default k_from k_try_from k_set k_read k_nonzero k_refuse
       (N * list N) (fun _ => []) (fun _ => None) x_ctx x_fs nat (x_ops false false (x_resp 200)) o c ms 0 0 O
     = (CfReturned (RErr (CeOverride msg)), [], O).
Proof.
  exists x_m, k_o, (k_bc_of x_m), k_line,
    [(lit "name", (lit "::std::string::String", x_value (lit "n"))); (lit "id", (lit "::std::string::String", x_value (lit "a/b")));
     (lit "favourite-color", (lit "types::Color", x_value (lit "red")))], (lit "not today").
  split; [reflexivity|]. split; [apply k_o_ok|]. split; [apply k_bc_ok|]. split; vm_compute; reflexivity.
Qed.
Lemma ids_clash : exists types m a, cli_method_args unicode15 types m = Ok a /\ builder_ok k_types m
  /\ ~ NoDup (map cl_id (cg_parsers a)).
Proof.
  exists (k_ctypes_of [k_clash]), x_m, (co_args k_clash_o). split; [apply k_clash_ok|]. split; [apply k_builder_ok|].
  rewrite k_clash_ids. intro H. inversion H as [|? ? _ H']; subst. inversion H' as [|? ? Hn _]; subst. apply Hn. cbn. auto 9.
Qed.
Lemma dispatch_lost : exists d code v f,
  cli unicode15 y_ctypes (fun _ => true) (fun _ => Ok x_ts) d (lit "sdk") = Ok code
  /\ In (v, f) (cc_commands code) /\ ~ In f (map co_cli_fn (cc_operations code)).
Proof.
  exists (y_doc [304]), (k_file [304]), (lit "I"), (lit "cli_i"). split; [apply k_file_ok; cbn; auto|].
  split; [|apply k_file_lost]. rewrite <- (proj1 (proj2 k_file_lost)). apply nth_In. vm_compute. repeat constructor.
Qed.

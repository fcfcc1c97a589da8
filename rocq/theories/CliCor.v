(** The results about the command line interface in the form of the property statements. *)
From Verif Require Import Base OasModel ClientModel MethodModel OpModel RunModel BuilderModel BuilderSpec BuilderProofs BuilderCor RequestSpec
  SanitizeModel SanitizeSpec SanitizeProofs WordProofs UnicodeProofs NameCor FutureModel StreamModel StreamSpec TemplateModel
  GenerateModel GenerateSpec ValidateProofs GenerateProofs GenerateCor ParamProofs CliModel CliSpec CliProofs CliRun CliList.
From Coq Require Import Permutation Sorted Lia.
Local Open Scope N_scope.

Lemma unicode15_dash : alphanumeric unicode15 (ch "-") = false.
Proof. rewrite (al_alphanumeric _ unicode15_ascii) by reflexivity. reflexivity. Qed.
Notation cases15 := (ul_cases unicode15 unicode15_laws).

(** ** Generation *)

Section Generates.
Variable U : unicode.
Variable types : type_id -> option cli_type.
Hypothesis Hcases : forall c, lowercase U c = true -> uppercase U c = false.
Hypothesis Hdash : alphanumeric U (ch "-") = false.

Lemma names_iff params names : Forall2 (fun p n => argument_name U (p_name p) n) params names <->
  names = map (fun p => to_kebab_case U (p_name p)) params.
Proof.
  split.
  - induction 1 as [|p n ps ns Hn _ IH]; cbn; auto. apply (kebab_name U Hcases Hdash) in Hn. congruence.
  - intros ->. induction params as [|p ps IH]; cbn; constructor; auto. now apply (kebab_name U Hcases Hdash).
Qed.

Lemma args_iff m : (exists a, cli_method_args U types m = Ok a) <-> generates U types m.
Proof.
  assert (Hp : (exists args, param_args U types m [] (m_params m) = Ok args) <->
    exists params names, kept (has_argument m) (m_params m) params
    /\ Forall (fun p => exists t ct, p_typ p = PType t /\ types t = Some ct) params
    /\ Forall2 (fun p n => argument_name U (p_name p) n) params names /\ NoDup names).
  { rewrite (param_args_iff U types m (m_params m) []) by constructor. split.
    - intros (params & H1 & H2 & H3 & _). exists params, (map (fun p => to_kebab_case U (p_name p)) params).
      rewrite names_iff. auto.
    - intros (params & names & H1 & H2 & H3 & H4). apply names_iff in H3. subst names. exists params. repeat split; auto. }
  unfold generates. rewrite <- Hp. unfold cli_method_args. split.
  - intros (a & H). destruct (param_args U types m [] (m_params m)) as [args| |] eqn:E; try discriminate.
    split; [eauto|]. intros t Hb. apply body_type_spec in Hb. rewrite Hb in H. cbn [obind body_present] in H.
    unfold unwrap_type in H. destruct (types t) as [ct|]; [|discriminate]. cbn [obind] in H. exists ct. split; auto.
    intros prs Ed. rewrite Ed in H. destruct (body_args U types (args, BaOptional) prs) as [r| |] eqn:Ea; try discriminate.
    now apply body_args_types in Ea.
  - intros ((args & ->) & Hb). cbn [obind]. destruct (body_type_id m) as [t|] eqn:Et.
    + apply body_type_spec in Et. destruct (Hb t Et) as (ct & Ec & Hprs). cbn [obind body_present]. unfold unwrap_type. rewrite Ec. cbn [obind].
      destruct (ct_details ct) as [vs|prs|i|]; cbn [obind body_required]; eauto.
      destruct (body_args_total U types prs args BaOptional ltac:(discriminate) (Hprs prs eq_refl)) as ([args' b'] & ->). cbn [obind]. eauto.
    + cbn [obind]. eauto.
Qed.
End Generates.

(** ** Distinct names *)

Section Names.
Variable U : unicode.
Hypothesis UL : unicode_laws U.
Hypothesis AL : ascii_laws U.

Definition dashed (ws : list str) : str := tl (flat_map (fun w => ch "-" :: w) ws).

Lemma dash_not_stable c : stable U c -> c <> ch "-".
Proof.
  intros ((Ha & _) & _) ->. rewrite (al_alphanumeric U AL) in Ha by reflexivity. discriminate.
Qed.

(** From the dashed words back to those between underscores. *)
Definition undash (s : str) : str := map (fun c => if c =? ch "-" then ch "_" else c) s.
Lemma undash_plain w : Forall (fun c => c <> ch "-") w -> undash w = w.
Proof.
  induction 1 as [|c w Hc _ IH]; auto. cbn. destruct (c =? ch "-") eqn:E; [now apply N.eqb_eq in E|].
  f_equal. exact IH.
Qed.
Lemma undash_dashed ws : Forall (fun w => Forall (fun c => c <> ch "-") w) ws ->
  undash (dashed ws) = tl (flat_map (fun w => ch "_" :: w) ws).
Proof.
  intro H. unfold dashed, undash.
  assert (Et : forall (f : N -> N) l, map f (tl l) = tl (map f l)) by (now intros f []). rewrite Et. f_equal.
  induction H as [|w ws Hw _ IH]; auto. cbn [flat_map]. rewrite map_app, IH. f_equal. cbn [map].
  rewrite N.eqb_refl. f_equal. exact (undash_plain w Hw).
Qed.

Lemma argument_of_name s n ws : snake_words U s ws -> (forall c, In c s -> letter U c -> settled U c) ->
  argument_name U (sanitize U s Snake) n -> n = dashed ws.
Proof.
  intros Hw Hs Hn. assert (Hdash : alphanumeric U (ch "-") = false) by (now rewrite (al_alphanumeric U AL)).
  pose proof (snake_words_ok U UL AL s ws Hw) as (Hne & Hok).
  pose proof (snake_words_stable U UL AL s ws Hw Hs) as Hst.
  assert (Hws : Forall (fun w => w <> [] /\ Forall (stable U) w) ws).
  { rewrite Forall_forall in *. intros w Hi. split; auto. now apply Hok. }
  rewrite (sanitize_snake U UL AL s ws Hw) in Hn.
  destruct (name_words U UL AL ws Hne Hws) as [Hwo Hch].
  apply (kebab_name U (ul_cases U UL) Hdash) in Hn. subst n.
  assert (Hr : replaced U (snake_name U ws) = snake_name U ws).
  { unfold replaced. rewrite <- (map_id (snake_name U ws)) at 2. apply map_ext_in. intros c Hc.
    rewrite Forall_forall in Hch. destruct (Hch c Hc) as [->|((_ & Hx) & _)]; [|now rewrite Hx].
    rewrite (al_continue U AL) by reflexivity. reflexivity. }
  apply (words_of_sound U (ul_cases U UL) Hdash) in Hwo. rewrite Hr in Hwo.
  rewrite (kebab_glue U _ ws Hwo). unfold dashed. f_equal.
  clear - Hws UL AL. induction Hws as [|w ws [Hne Hst] _ IH]; auto. cbn [flat_map]. rewrite IH.
  now rewrite (proj2 (stable_word U UL w Hne Hst)).
Qed.

(** Parameters with different names have arguments with different names. *)
Lemma distinct_arguments s t n : (forall c, In c s -> letter U c -> settled U c) -> (forall c, In c t -> letter U c -> settled U c) ->
  argument_name U (sanitize U s Snake) n -> argument_name U (sanitize U t Snake) n ->
  sanitize U s Snake = sanitize U t Snake.
Proof.
  intros Hs Ht Ns Nt. destruct (snake_words_total U UL AL s) as (ws & Ws). destruct (snake_words_total U UL AL t) as (wt & Wt).
  pose proof (argument_of_name s n ws Ws Hs Ns) as E1. pose proof (argument_of_name t n wt Wt Ht Nt) as E2.
  rewrite (sanitize_snake U UL AL s ws Ws), (sanitize_snake U UL AL t wt Wt). unfold snake_name.
  assert (Hd : forall x wx, snake_words U x wx -> (forall c, In c x -> letter U c -> settled U c) ->
    Forall (fun w => Forall (fun c => c <> ch "-") w) wx).
  { intros x wx Hx Hsx. pose proof (snake_words_stable U UL AL x wx Hx Hsx) as H.
    eapply Forall_impl; [|exact H]. intros w Hw. eapply Forall_impl; [|exact Hw]. apply dash_not_stable. }
  rewrite <- (undash_dashed ws), <- (undash_dashed wt) by eauto. congruence.
Qed.
End Names.

Lemma distinct_arguments15 s t n :
  (forall c, In c s \/ In c t -> c <> 304 /\ (uppercase unicode15 c = true -> to_lower unicode15 c <> [c])) ->
  argument_name unicode15 (sanitize unicode15 s Snake) n -> argument_name unicode15 (sanitize unicode15 t Snake) n ->
  sanitize unicode15 s Snake = sanitize unicode15 t Snake.
Proof.
  intro H. apply (distinct_arguments _ unicode15_laws unicode15_ascii).
  - intros c Hc Hl. destruct (H c (or_introl Hc)). now apply unicode15_settled.
  - intros c Hc Hl. destruct (H c (or_intror Hc)). now apply unicode15_settled.
Qed.

(** ** The file *)

Section File.
Variable U : unicode.
Variable types : type_id -> option cli_type.
Variable parse_path : str -> bool.
Variable add_ref_types : list (str * ref_or schema) -> outcome type_space.

(** One operation, one command, one way to execute it each. *)
Lemma file_commands d crate code l : cli U types parse_path add_ref_types d crate = Ok code -> operations_in_order d l ->
  exists ts, Forall2 (fun e o => exists m, processed U ts d e m /\ cli_method U types m = Ok o
      /\ co_cli_fn o = lit "cli_" ++ method_name U e /\ co_execute_fn o = lit "execute_" ++ method_name U e
      /\ co_op_name o = method_name U e /\ co_struct o = builder_name U e
      /\ co_about o = m_summary m /\ co_long_about o = m_description m)
    l (cc_operations code)
  /\ cc_crate code = crate
  /\ cc_variants code = map (builder_name U) l
  /\ cc_commands code = map (fun e => (builder_name U e, lit "cli_" ++ sanitize U (method_name U e) Snake)) l
  /\ cc_executes code = map (fun e => (builder_name U e, lit "execute_" ++ sanitize U (method_name U e) Snake)) l.
Proof.
  unfold cli. intros H Hl. apply obind_ok in H as ([] & Hv & H).
  apply obind_ok in H as (ts & _ & H). apply obind_ok in H as (groups & Hg & H). cbv zeta in H.
  apply obind_ok in H as (os & Ho & H). destruct (parse_path crate); [|discriminate]. injection H as <-.
  cbn [cc_operations cc_crate cc_variants cc_commands cc_executes]. exists ts. assert (F : Forall2 (processed U ts d) l (concat groups)).
  { rewrite (in_order_unique d l Hl). now apply (process_paths U). }
  pose proof (method_names _ _ _ _ _ F) as Hn. apply mapM_ok in Ho.
  split.
  { eapply Forall2_trans; [|exact F|exact Ho]. cbn. intros e m o Hp Hm. exists m. split; auto. split; auto.
    pose proof (fa_name _ _ _ _ (processed_facts _ _ _ _ _ Hp)) as En.
    unfold cli_method in Hm. apply obind_ok in Hm as (? & _ & Hm). do 2 apply obind_ok in Hm as ([] & _ & Hm).
    apply obind_ok in Hm as (? & _ & Hm). injection Hm as <-. cbn -[app]. unfold builder_name, pascal. rewrite En. auto 8. }
  assert (E : forall (A : Type) (f : str -> A), map (fun m => f (m_operation_id m)) (concat groups) = map (fun e => f (method_name U e)) l).
  { intros A f. rewrite <- (map_map m_operation_id f), Hn, map_map. reflexivity. }
  assert (Ec : forall (A : Type) (f g : A -> str) xs, combine (map f xs) (map g xs) = map (fun x => (f x, g x)) xs).
  { intros A f g xs. induction xs; cbn; congruence. }
  rewrite !Ec. split; auto. split; [exact (E _ (fun s => sanitize U s Pascal))|]. split.
  - exact (E _ (fun s => (sanitize U s Pascal, lit "cli_" ++ sanitize U s Snake))).
  - exact (E _ (fun s => (sanitize U s Pascal, lit "execute_" ++ sanitize U s Snake))).
Qed.

(** What is dispatched to exists, if names made from names are the same names. *)
Lemma file_dispatch d crate code l : cli U types parse_path add_ref_types d crate = Ok code -> operations_in_order d l ->
  (forall e, In e l -> sanitize U (method_name U e) Snake = method_name U e) ->
  cc_commands code = map (fun o => (co_struct o, co_cli_fn o)) (cc_operations code)
  /\ cc_executes code = map (fun o => (co_struct o, co_execute_fn o)) (cc_operations code)
  /\ cc_variants code = map co_struct (cc_operations code).
Proof.
  intros H Hl Hs. destruct (file_commands d crate code l H Hl) as (ts & F & _ & Hv & Hc & He). rewrite Hv, Hc, He. clear Hv Hc He H Hl.
  repeat split; (induction F as [|e o l' os (m & _ & _ & E1 & E2 & _ & E4 & _) F IH]; [reflexivity|]).
  all: cbn [map]; rewrite ?E1, ?E2, ?E4, ?(Hs e (or_introl eq_refl)); f_equal; apply IH; intros e' Hi; apply Hs; now right.
Qed.
End File.

(** ** No clash *)
Lemma no_clash ps names :
  Forall (fun p => p_name p = sanitize unicode15 (p_api_name p) Snake
    /\ forall c, In c (p_api_name p) -> c <> 304 /\ (uppercase unicode15 c = true -> to_lower unicode15 c <> [c])) ps ->
  NoDup (map p_name ps) -> Forall2 (fun p n => argument_name unicode15 (p_name p) n) ps names -> NoDup names.
Proof.
  intros Hp Hd F. induction F as [|p n ps ns Hn F IH]; [constructor|]. inversion Hp as [|? ? [Ep Hc] Hp']; subst. inversion Hd as [|? ? Hni Hd']; subst.
  constructor; [|now apply IH]. intro Hi. apply Hni.
  clear - Hn F Hi Ep Hc Hp'. induction F as [|q n' ps ns Hq F IH]; [easy|]. inversion Hp' as [|? ? [Eq Hcq] Hp'']; subst.
  destruct Hi as [->|Hi]; [|right; auto]. left. rewrite Ep, Eq in *. symmetry. apply (distinct_arguments15 _ _ n); auto. intros c [H|H]; auto.
Qed.
Lemma has_argument_dec m p : has_argument m p \/ ~ has_argument m p.
Proof.
  unfold has_argument. destruct (p_kind p) as [| | |k] eqn:E; [| | |right; intros [H _]; now apply (H k)].
  all: destruct (m_paginated m) as [pg|]; [|left; split; [easy|intros [H _]; easy]].
  all: destruct (list_eq_dec N.eq_dec (p_name p) (lit "page_token")) as [En|En];
    [right; intros [_ H]; apply H; split; [easy|exact En]|left; split; [easy|tauto]].
Qed.
Lemma commands_generated types m :
  Forall (fun p => p_name p = sanitize unicode15 (p_api_name p) Snake
    /\ forall c, In c (p_api_name p) -> c <> 304 /\ (uppercase unicode15 c = true -> to_lower unicode15 c <> [c])) (m_params m) ->
  NoDup (map p_name (m_params m)) ->
  (forall p, In p (m_params m) -> has_argument m p -> exists t ct, p_typ p = PType t /\ types t = Some ct) ->
  (forall t, body_of m (Some (PType t)) -> exists ct, types t = Some ct
     /\ forall prs, ct_details ct = CdStruct prs -> Forall (fun pr => exists ct', value_type types (pr_type pr) ct') prs) ->
  exists a, cli_method_args unicode15 types m = Ok a.
Proof.
  intros Hp Hd Ht Hb. apply (args_iff _ _ cases15 unicode15_dash). split; auto.
  assert (exists params, kept (has_argument m) (m_params m) params) as (params & Hk).
  { clear. induction (m_params m) as [|p ps (l & IH)]; [eexists; constructor|].
    destruct (has_argument_dec m p) as [H|H]; [exists (p :: l); now apply ke_keep|exists l; now apply ke_drop]. }
  exists params, (map (fun p => to_kebab_case unicode15 (p_name p)) params). split; auto.
  assert (F : Forall2 (fun p n => argument_name unicode15 (p_name p) n) params (map (fun p => to_kebab_case unicode15 (p_name p)) params)).
  { now apply (names_iff _ cases15 unicode15_dash). }
  assert (Hin : forall p, In p params -> In p (m_params m) /\ has_argument m p).
  { intros p Hi. exact (proj1 (kept_in _ _ _ p Hk) Hi). }
  assert (Hnd : NoDup (map p_name params)).
  { clear - Hk Hd. induction Hk as [|p l l' Hp Hk IH|p l l' Hp Hk IH]; cbn in *; auto.
    - inversion Hd as [|? ? Hni Hd']; subst. constructor; auto. intro Hi. apply Hni. apply in_map_iff in Hi as (q & E & Hq).
      rewrite <- E. apply in_map. exact (proj1 (proj1 (kept_in _ _ _ q Hk) Hq)).
    - inversion Hd; auto. }
  split; [|split; [exact F|apply (no_clash params); auto]].
  - apply Forall_forall. intros p Hi. destruct (Hin p Hi). now apply Ht.
  - rewrite Forall_forall in *. intros p Hi. apply Hp. now apply Hin.
Qed.

Lemma dispatch15 types parse_path add_ref_types d crate code l :
  cli unicode15 types parse_path add_ref_types d crate = Ok code -> operations_in_order d l ->
  (forall e x c, In e l -> op_id (do_op e) = Some x -> In c x ->
     c <> 304 /\ (uppercase unicode15 c = true -> to_lower unicode15 c <> [c])) ->
  cc_commands code = map (fun o => (co_struct o, co_cli_fn o)) (cc_operations code)
  /\ cc_executes code = map (fun o => (co_struct o, co_execute_fn o)) (cc_operations code)
  /\ cc_variants code = map co_struct (cc_operations code).
Proof.
  intros H Hl Hc. apply (file_dispatch unicode15 types parse_path add_ref_types d crate code l H Hl). intros e He.
  destruct (file_commands _ _ _ _ _ _ _ _ H Hl) as (ts & F & _).
  assert (exists m, processed unicode15 ts d e m) as (m & Hm).
  { clear - F He. induction F as [|e' o l os (m & Hm & _) F IH]; [easy|]. destruct He as [<-|He]; eauto. }
  unfold method_name. destruct (op_id (do_op e)) as [x|] eqn:Ex.
  - apply stable_unicode15. intros c Hi. now apply (Hc e x).
  - exfalso. unfold processed, process_operation in Hm. rewrite Ex in Hm. discriminate.
Qed.

Lemma Forall2_in_right {A C} (R : A -> C -> Prop) l l' x : Forall2 R l l' -> In x l' -> exists a, In a l /\ R a x.
Proof.
  induction 1 as [|a b l l' Hab _ IH]; [easy|]. intros [<-|Hx]; [exists a; split; [now left|auto]|].
  destruct (IH Hx) as (q & Hq & Ha). exists q. split; [now right|auto].
Qed.
Lemma json_offered types m a : cli_method_args unicode15 types m = Ok a ->
  exists own rest args json, cg_parsers a = args ++ json /\ own_properties unicode15 types m own rest
    /\ json_arguments types m rest json /\ Forall (fun x => exists n, cl_id x = n /\
         ((exists p, In p (m_params m) /\ argument_name unicode15 (p_name p) n)
          \/ exists pr, In pr own /\ argument_name unicode15 (pr_name pr) n)) args.
Proof.
  intro H. destruct (outline_arguments unicode15 types cases15 unicode15_dash m a
    (cli_method_args_ok unicode15 types cases15 unicode15_dash m a H)) as (own & rest & args & json & E & Ha & Hj).
  exists own, rest, args, json. split; auto. destruct Ha as [params pas qas props Hk Fp Hb Hd Fq Hperm Hs].
  split; [|split; auto].
  - apply (op_intro _ _ _ _ _ params (map cl_id pas) props); auto.
    clear - Fp. induction Fp as [|p x ps xs Hx _ IH]; cbn; constructor; auto. apply (af_name _ _ _ _ _ Hx).
  - apply Forall_forall. intros x Hx. exists (cl_id x). split; auto. apply (Permutation_in x Hperm) in Hx. apply in_app_or in Hx as [Hx|Hx].
    + left. destruct (Forall2_in_right _ _ _ _ Fp Hx) as (p & Hp & Ha).
      exists p. split; [exact (proj1 (proj1 (kept_in _ _ _ p Hk) Hp))|apply (af_name _ _ _ _ _ Ha)].
    + right. destruct (Forall2_in_right _ _ _ _ Fq Hx) as (p & Hp & Ha). exists p. split; auto. apply (pa_name _ _ _ _ Ha).
Qed.

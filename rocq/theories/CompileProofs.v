(** Which generated methods compile. *)
From Verif Require Import Base Utf8 OasModel SerdeModel EncodeModel HeaderModel ClientModel TemplateModel TemplateSpec
  TemplateProofs MethodModel OpModel RunModel NameProofs RefSpec ResponseSpec ResponseProofs RequestSpec RequestProofs
  RunProofs ParamSpec ParamProofs DocSpec DocProofs CompileSpec.
From Coq Require Import ZifyBool ZifyN.
Local Open Scope N_scope.

(** ** Format strings *)

Lemma format_string_macro args : forall f, format_macro f args <> None <-> format_string f (length args).
Proof.
  assert (H : forall k f args, (length f <= k)%nat -> format_macro f args <> None <-> format_string f (length args)).
  2:{ intro f. apply (H (length f)). auto. }
  induction k as [|k IH]; intros f a Hl.
  { destruct f; cbn in Hl; [|lia]. cbn. destruct a; cbn; (split; intro H; [|]); try easy; try constructor; inversion H. }
  destruct f as [|c f]; cbn in Hl.
  { cbn. destruct a; cbn; (split; intro H; [|]); try easy; try constructor; inversion H. }
  cbn [format_macro]. destruct (N.eqb_spec c (ch "{")) as [->|H1].
  - destruct f as [|c2 f]; [split; [easy|intro H; inversion H; subst; easy]|]. cbn in Hl.
    destruct (N.eqb_spec c2 (ch "{")) as [->|H2].
    + assert (E : option_map (cons (ch "{")) (format_macro f a) <> None <-> format_macro f a <> None)
        by (destruct (format_macro f a); easy).
      rewrite E, IH by lia. split; [now constructor|]. intro H. inversion H; subst; auto; easy.
    + destruct (N.eqb_spec c2 (ch "}")) as [->|H3].
      * destruct a as [|x a]; cbn [length].
        -- split; [easy|]. intro H. inversion H; subst; easy.
        -- assert (E : option_map (app x) (format_macro f a) <> None <-> format_macro f a <> None)
             by (destruct (format_macro f a); easy).
           rewrite E, IH by lia. split; [now constructor|]. intro H. inversion H; subst; auto; easy.
      * split; [easy|]. intro H. inversion H; subst; easy.
  - destruct (N.eqb_spec c (ch "}")) as [->|H2].
    + destruct f as [|c2 f]; [split; [easy|intro H; inversion H; subst; easy]|]. cbn in Hl.
      destruct (N.eqb_spec c2 (ch "}")) as [->|H3].
      * assert (E : option_map (cons (ch "}")) (format_macro f a) <> None <-> format_macro f a <> None)
          by (destruct (format_macro f a); easy).
        rewrite E, IH by lia. split; [now constructor|]. intro H. inversion H; subst; auto; easy.
      * split; [easy|]. intro H. inversion H; subst; easy.
    + assert (E : option_map (cons c) (format_macro f a) <> None <-> format_macro f a <> None)
        by (destruct (format_macro f a); easy).
      rewrite E, IH by lia. split; [now constructor|]. intro H. inversion H; subst; auto; easy.
Qed.

Lemma mapM_total {A B} (f : A -> B) l : mapM (fun x => Ok (f x)) l = Ok (map f l).
Proof. induction l as [|x l IH]; cbn [mapM map]; auto. cbn [obind]. now rewrite IH. Qed.

Lemma fmt_pieces_ok b ps : lax_from b ps -> no_stray ps -> format_string (fmt_pieces ps) (length (vars ps)).
Proof.
  intros Hl Hn. rewrite <- (map_length (fun _ => @nil N) (vars ps)). apply format_string_macro.
  rewrite (format_pieces b ps (fun _ => Some []) Hl Hn _ (mapM_total (fun _ => @nil N) (vars ps))). easy.
Qed.

Lemma compile_format ps p rn u : lax ps -> parse (show ps) = Ok p -> compile p rn = Ok u ->
  length (ue_args u) = length (vars ps)
  /\ (format_string (ue_fmt u) (S (length (ue_args u))) <-> no_stray ps).
Proof.
  intros Hl Hp Hc. unfold compile in Hc. apply obind_ok in Hc as (args & Ha & Hc). injection Hc as <-.
  cbn [ue_fmt ue_args].
  assert (Hlen : length args = length (vars ps)).
  { rewrite <- (parse_names ps p Hl Hp). rewrite compile_args_ok in Ha.
    destruct (mapM _ (names p)) as [l| |] eqn:E; try easy. injection Ha as <-.
    clear -E. revert l E; induction (names p) as [|n l0 IH]; intros l E; cbn [mapM] in E.
    - now injection E as <-.
    - apply obind_ok in E as (x & _ & E). apply obind_ok in E as (l1 & H1 & E). injection E as <-. cbn. f_equal. auto. }
  split; auto. rewrite fmt_pieces_of. destruct (parse_complete ps Hl) as (p' & Hp' & Hpp).
  assert (p' = p) by congruence. subst p'. rewrite Hpp. destruct Hl as (Hs & Hl).
  pose proof (squeeze_pieces_lax ps false false ltac:(easy) Hl) as Hl'.
  change (lit "{}" ++ ?s) with (ch "{" :: ch "}" :: s). split.
  - intro H. assert (H' : format_string (fmt_pieces (squeeze_pieces false ps)) (length args)).
    { inversion H; subst; auto; easy. }
    apply format_string_macro in H'. apply (no_stray_squeeze false).
    assert (Hdec : no_stray (squeeze_pieces false ps) \/ ~ no_stray (squeeze_pieces false ps)).
    { unfold no_stray. destruct (in_dec (fun a b : piece => ltac:(decide equality; [apply N.eq_dec|apply list_eq_dec, N.eq_dec])) (PLit (ch "}"))
        (squeeze_pieces false ps)); auto. }
    destruct Hdec as [Hd|Hd]; auto. exfalso. apply H'. exact (format_stray _ _ Hl' Hd args).
  - intro H. apply fs_place. rewrite Hlen, <- (vars_squeeze false). apply (fmt_pieces_ok false); auto.
    now apply no_stray_squeeze.
Qed.

(** ** Arms *)

Lemma select_covers arms n : (exists r, select arms n = Some r) <-> Exists (fun p => covers p n) (map fst arms).
Proof.
  induction arms as [|[p r] arms IH]; cbn [select map fst].
  - split; [intros (r & H); easy|]. intro H. inversion H.
  - rewrite Exists_cons, <- IH. assert (E : pat_matches p n = true <-> covers p n).
    { destruct p; cbn; [rewrite N.eqb_eq; split; auto| |easy]. rewrite andb_true_iff, !N.leb_le. reflexivity. }
    destruct (pat_matches p n); [split; eauto; intros _; left; now apply E|].
    split; [intro H; right; exact H|]. intros [H|H]; auto. apply E in H. easy.
Qed.

Section Fits.
Variable has : type_id -> rust_trait -> Prop.

(** ** Code that compiles runs *)

Inductive fits : binding -> var_type -> Prop :=
| ft_arg v t : fits (BVal v) (VtArg t)
| ft_body v : fits (BVal v) VtBody
| ft_option o t : fits (BOpt o) (VtOption t)
| ft_url s : fits (BUrl s) VtUrl
| ft_headers h : fits (BHeaders h) VtHeaders
| ft_request q : fits (BRequest q) VtRequest
| ft_result r : fits (BResult r) VtResult
| ft_response r : r_status r < 65536 -> fits (BResponse r) VtResponse.

(** Results of sending have 16-bit status codes. *)
Definition sane (b : binding) : Prop := match b with BResult (ROk r) => r_status r < 65536 | _ => True end.
Definition env_fits (env : list (str * binding)) (G : list (str * var_type)) : Prop :=
  forall x, match assoc x G with
            | Some v => exists b, assoc x env = Some b /\ fits b v /\ sane b
            | None => assoc x env = None
            end.

Lemma fits_assoc env G x v : env_fits env G -> assoc x G = Some v -> exists b, assoc x env = Some b /\ fits b v /\ sane b.
Proof. intros F E. specialize (F x). now rewrite E in F. Qed.
Lemma fits_none env G x : env_fits env G -> assoc x G = None -> assoc x env = None.
Proof. intros F E. specialize (F x). now rewrite E in F. Qed.
Lemma fits_cons env G x b v : env_fits env G -> fits b v -> sane b -> env_fits ((x, b) :: env) ((x, v) :: G).
Proof. intros F Hf Hs y. cbn [assoc]. destruct (str_eqb y x); [eauto|apply F]. Qed.
Lemma fits_again env G x b v : env_fits env G -> assoc x G = Some v -> fits b v -> sane b -> env_fits ((x, b) :: env) G.
Proof.
  intros F E Hf Hs y. cbn [assoc]. destruct (str_eqb y x) eqn:Ey; [|apply F]. apply str_eqb_spec in Ey. subst y.
  rewrite E. eauto.
Qed.
Lemma fits_zip env G : Forall2 (fun b v => fst b = fst v /\ fits (snd b) (snd v) /\ sane (snd b)) env G -> env_fits env G.
Proof.
  induction 1 as [|[y b] [z w] env G (E & Hf & Hs) F IH]; [easy|]. cbn [fst snd] in *. subst z. now apply fits_cons.
Qed.

Lemma prints_text env G x : env_fits env G -> prints has G x -> exists v, assoc x env = Some (BVal v).
Proof.
  intros F (t & E & _). destruct (fits_assoc _ _ _ _ F E) as (b & Eb & Hf & _). inversion Hf; subst; eauto.
Qed.

Section Exec.
Context (V : Type) (ctx : context) (fs : N -> list N -> result V jerr) (W : Type) (ops : world_ops W).
Hypothesis Hops : forall q w r w', w_execute ops q w = (ROk r, w') -> r_status r < 65536.

Lemma texts_exist env G l : env_fits env G -> Forall (prints has G) l -> exists ts, arg_texts env l = Some ts /\ length ts = length l.
Proof.
  intro F. induction 1 as [|x l Hx _ (ts & IH & Hlen)]; cbn [arg_texts]; [now exists []|].
  destruct (prints_text _ _ _ F Hx) as (v & ->). rewrite IH. eexists. split; [reflexivity|]. cbn. congruence.
Qed.

Lemma url_expr_ok env G u : env_fits env G -> format_string (ue_fmt u) (S (length (ue_args u))) ->
  Forall (prints has G) (ue_args u) -> (ue_args u = [] \/ assoc (lit "encode_path") G = None) ->
  exists s, eval_url_expr V ctx env u = Val s.
Proof.
  intros F Hf Hp He. unfold eval_url_expr.
  assert (calls_variable env u = false) as ->.
  { unfold calls_variable. destruct He as [->|He]; auto. rewrite (fits_none _ _ _ F He). now destruct (ue_args u). }
  destruct (texts_exist _ _ _ F Hp) as (ts & -> & Hlen).
  assert (H : format_macro (ue_fmt u) (c_base_url ctx :: map encode_path ts) <> None).
  { apply format_string_macro. cbn [length]. now rewrite map_length, Hlen. }
  destruct (format_macro _ _); eauto. easy.
Qed.

Lemma append_not_ill h hn t : append_header V h hn t <> Ill.
Proof. unfold append_header. destruct (header_value t); [destruct (header_name hn)|]; easy. Qed.

Lemma header_stmts_ok env G h l : env_fits env G -> Forall (header_stmt_ok has G) l -> eval_header_stmts V env h l <> Ill.
Proof.
  intros F H. revert h; induction H as [|s l Hs _ IH]; intro h; cbn [eval_header_stmts]; [easy|].
  assert (Hx : eval_header_stmt V env h s <> Ill).
  { destruct s as [hn x|hn x]; cbn in *.
    - destruct (prints_text _ _ _ F Hs) as (v & ->). apply append_not_ill.
    - destruct Hs as (t & E & _). destruct (fits_assoc _ _ _ _ F E) as (b & -> & Hf & _). inversion Hf; subst.
      destruct o; [apply append_not_ill|easy]. }
  destruct (eval_header_stmt V env h s); cbn [ebind]; easy.
Qed.

Lemma calls_ok env G l : env_fits env G -> Forall (call_ok has G) l -> forall b, eval_calls V ctx env b l <> Ill.
Proof.
  intros F. induction 1 as [|c l Hc _ IH]; intro b; cbn [eval_calls]; [easy|].
  assert (Hx : eval_call V ctx env b c <> Ill).
  { destruct c as [|mime| | |n x| |]; cbn in *; try easy.
    - destruct (fits_assoc _ _ _ _ F Hc) as (bd & E & Hf & _). unfold arg_body. rewrite E. inversion Hf; subst.
      destruct (header_value_static mime); easy.
    - destruct Hc as (t & Ea & _). destruct (fits_assoc _ _ _ _ F Ea) as (bd & E & Hf & _). unfold arg_body. rewrite E.
      inversion Hf; subst. easy.
    - destruct Hc as (t & Ea & _). destruct (fits_assoc _ _ _ _ F Ea) as (bd & E & Hf & _). unfold arg_body. rewrite E.
      inversion Hf; subst. destruct (urlencoded_to_string _); easy.
    - destruct Hc as (t & [Ea|Ea] & _); destruct (fits_assoc _ _ _ _ F Ea) as (bd & E & Hf & _); unfold arg_serde; rewrite E;
        inversion Hf; subst; [easy|]. destruct o; easy.
    - destruct (fits_assoc _ _ _ _ F Hc) as (bd & -> & Hf & _). inversion Hf; subst. easy. }
  destruct (eval_call V ctx env b c); cbn [ebind]; easy.
Qed.

Lemma request_ok env G m url l : env_fits env G -> startable m -> assoc url G = Some VtUrl -> Forall (call_ok has G) l ->
  eval_request V ctx env m url l <> Ill.
Proof.
  intros F Hm Hu Hc. unfold eval_request. rewrite (client_starts_true m Hm). cbn [negb].
  destruct (fits_assoc _ _ _ _ F Hu) as (b & -> & Hf & _). inversion Hf; subst.
  match goal with |- ebind (eval_calls V ctx env ?b0 l) _ <> _ => pose proof (calls_ok env G l F Hc b0) as H;
    destruct (eval_calls V ctx env b0 l) as [x| | |]; cbn [ebind]; try easy end.
  destruct x; easy.
Qed.

Lemma rhs_runs sk ek a r : rhs_ok has sk ek a -> eval_rhs V fs sk ek a r <> None.
Proof.
  intros [d H|d H|]; cbn; [| |easy]; destruct H; cbn; try easy; try (now destruct (from_response _ r));
    now destruct (upgrade r).
Qed.

Lemma body_runs sk ek G prog : body_ok has sk ek G prog -> forall env tr w, env_fits env G ->
  fst (fst (exec V ctx fs W ops sk ek prog env tr w)) <> DoesNotCompile.
Proof.
  pose proof fits_cons as Hb.
  induction 1 as [G x u rest Hf Hp He Hr IH|G hs rest Hh Hr IH|G x m url calls rest Hm Hu Hc Hr IH|G x rest Hx Hr IH
    |G x rest Hx Hr IH|G x q rest Hq Hr IH|G x rest Hx Hr IH|G x rest Hx Hr IH|G x r rest Hx Hr IH|G x arms Hx He Ha];
    intros env tr w F; cbn [exec].
  - destruct (url_expr_ok _ _ _ F Hf Hp He) as (s & ->). apply IH. apply Hb; [exact F|constructor|exact I].
  - unfold eval_headers. destruct (header_value_static _) as [ver|]; [|easy]. cbv zeta.
    pose proof (header_stmts_ok ((lit "header_map", BHeaders (h_append (lit "api-version") ver [])) :: env) _
      (h_append (lit "api-version") ver []) hs (Hb _ _ _ _ _ F (ft_headers _) I) Hh) as Hn.
    destruct (eval_header_stmts _ _ _ _); try easy. apply IH. apply Hb; [exact F|constructor|exact I].
  - pose proof (request_ok _ _ _ _ _ F Hm Hu Hc) as Hn. destruct (eval_request _ _ _ _ _ _); try easy.
    apply IH. apply Hb; [exact F|constructor|exact I].
  - destruct (fits_assoc _ _ _ _ F Hx) as (b & -> & Hf & _). inversion Hf; subst. now apply IH.
  - destruct (fits_assoc _ _ _ _ F Hx) as (b & Eb & Hf & _). rewrite Eb. inversion Hf; subst.
    destruct (w_pre_async ops q w) as [[q'|msg] w']; [|easy].
    apply IH. exact (fits_again _ _ _ _ _ F Hx (ft_request q') I).
  - destruct (fits_assoc _ _ _ _ F Hq) as (b & -> & Hf & _). inversion Hf; subst.
    destruct (w_execute ops q0 w) as [res w'] eqn:E. apply IH. apply Hb; [exact F|constructor|].
    destruct res as [r|e]; cbn; [exact (Hops _ _ _ _ E)|exact I].
  - destruct (fits_assoc _ _ _ _ F Hx) as (b & -> & Hf & _). inversion Hf; subst. now apply IH.
  - destruct (fits_assoc _ _ _ _ F Hx) as (b & -> & Hf & _). inversion Hf; subst.
    destruct (w_post_async ops r w) as [[msg|] w']; [easy|now apply IH].
  - destruct (fits_assoc _ _ _ _ F Hx) as (b & -> & Hf & Hs). inversion Hf; subst. destruct r0 as [r0|e]; [|easy].
    apply IH. apply Hb; [exact F|constructor; exact Hs|exact I].
  - destruct (fits_assoc _ _ _ _ F Hx) as (b & -> & Hf & _). inversion Hf as [| | | | | | |r Hs]; subst.
    destruct (proj2 (select_covers arms (r_status r)) (He _ Hs)) as (a & Ea). rewrite Ea.
    assert (Hra : rhs_ok has sk ek a).
    { clear -Ea Ha. induction Ha as [|[p b] l Hx Ha IH]; cbn in *; [easy|]. destruct (pat_matches p (r_status r)); auto.
      now injection Ea as <-. }
    pose proof (rhs_runs sk ek a r Hra) as Hn. destruct (eval_rhs _ _ _ _ _ _); easy.
Qed.
End Exec.

(** ** What the program of a method takes *)

Lemma assoc_head {A} x (v : A) l : assoc x ((x, v) :: l) = Some v.
Proof. cbn [assoc]. now rewrite str_eqb_refl. Qed.

Lemma body_cons_inv sk ek G s rest : body_ok has sk ek G (s :: rest) ->
  match s with
  | SLetUrl x u => format_string (ue_fmt u) (S (length (ue_args u))) /\ Forall (prints has G) (ue_args u)
      /\ (ue_args u = [] \/ assoc (lit "encode_path") G = None) /\ body_ok has sk ek ((x, VtUrl) :: G) rest
  | SLetHeaders hs => Forall (header_stmt_ok has ((lit "header_map", VtHeaders) :: G)) hs
      /\ body_ok has sk ek ((lit "header_map", VtHeaders) :: G) rest
  | SLetRequest x m url calls => startable m /\ assoc url G = Some VtUrl /\ Forall (call_ok has G) calls
      /\ body_ok has sk ek ((x, VtRequest) :: G) rest
  | SPreHook x | SPreHookAsync x => assoc x G = Some VtRequest /\ body_ok has sk ek G rest
  | SLetExecute x q => assoc q G = Some VtRequest /\ body_ok has sk ek ((x, VtResult) :: G) rest
  | SPostHook x | SPostHookAsync x => assoc x G = Some VtResult /\ body_ok has sk ek G rest
  | SLetTry x r => assoc r G = Some VtResult /\ body_ok has sk ek ((x, VtResponse) :: G) rest
  | SMatch x arms => assoc x G = Some VtResponse /\ exhaustive (map fst arms)
      /\ Forall (fun a => rhs_ok has sk ek (snd a)) arms /\ rest = []
  end.
Proof. intro H. inversion H; subst; auto. Qed.

Lemma tail_ok h sk ek G x y z arms :
  body_ok has sk ek ((x, VtRequest) :: G) (tail_prog h x y z arms)
  <-> exhaustive (map fst arms) /\ Forall (fun a => rhs_ok has sk ek (snd a)) arms.
Proof.
  unfold tail_prog.
  assert (Hend : forall G, body_ok has sk ek ((y, VtResult) :: G) [SLetTry z y; SMatch z arms]
    <-> exhaustive (map fst arms) /\ Forall (fun a => rhs_ok has sk ek (snd a)) arms).
  { intro G0. split.
    - intro H. apply body_cons_inv in H as (_ & H). apply body_cons_inv in H as (_ & H1 & H2 & _). auto.
    - intros (H1 & H2). apply bo_try; [apply assoc_head|]. apply bo_match; auto. apply assoc_head. }
  assert (Hpost : forall G, body_ok has sk ek ((y, VtResult) :: G)
      ((if has_post_hook h then [SPostHook y] else []) ++ (if has_post_hook_async h then [SPostHookAsync y] else [])
       ++ [SLetTry z y; SMatch z arms])
    <-> exhaustive (map fst arms) /\ Forall (fun a => rhs_ok has sk ek (snd a)) arms).
  { intro G0. rewrite <- (Hend G0). destruct (has_post_hook h), (has_post_hook_async h); cbn [app]; split; intro H; auto.
    - apply body_cons_inv in H as (_ & H). now apply body_cons_inv in H as (_ & H).
    - apply bo_post; [apply assoc_head|]. apply bo_post_async; [apply assoc_head|exact H].
    - now apply body_cons_inv in H as (_ & H).
    - apply bo_post; [apply assoc_head|exact H].
    - now apply body_cons_inv in H as (_ & H).
    - apply bo_post_async; [apply assoc_head|exact H]. }
  assert (Hexec : forall G, body_ok has sk ek ((x, VtRequest) :: G)
      ([SLetExecute y x] ++ (if has_post_hook h then [SPostHook y] else []) ++ (if has_post_hook_async h then [SPostHookAsync y] else [])
       ++ [SLetTry z y; SMatch z arms])
    <-> exhaustive (map fst arms) /\ Forall (fun a => rhs_ok has sk ek (snd a)) arms).
  { intro G0. rewrite <- (Hpost ((x, VtRequest) :: G0)). change ([?a] ++ ?l) with (a :: l). split; intro H.
    - now apply body_cons_inv in H as (_ & H).
    - apply bo_execute; auto. apply assoc_head. }
  rewrite <- (Hexec G). set (rest := [SLetExecute y x] ++ _). clearbody rest.
  destruct (has_pre_hook h), (has_pre_hook_async h); cbn [app]; split; intro H; auto.
  - apply body_cons_inv in H as (_ & H). now apply body_cons_inv in H as (_ & H).
  - apply bo_pre; [apply assoc_head|]. apply bo_pre_async; [apply assoc_head|exact H].
  - now apply body_cons_inv in H as (_ & H).
  - apply bo_pre; [apply assoc_head|exact H].
  - now apply body_cons_inv in H as (_ & H).
  - apply bo_pre_async; [apply assoc_head|exact H].
Qed.
End Fits.

(** ** Methods of a document *)

Section Params.
Context {snake pascal : str -> str} {ts : type_space} {comps : option components} {op : operation}
  {path method : str} {pp : list (ref_or parameter)} {m : op_method}.
Hypothesis Hp : process_operation snake pascal ts op comps path method pp = Ok m.

Lemma process_param_typ oid p q : process_param snake pascal ts oid p = Ok q ->
  (exists t, p_typ q = PType t) /\ non_body q.
Proof.
  intro H. pose proof (process_param_ok _ _ _ _ _ _ H) as (_ & _ & Hn & _). split; [|exact Hn].
  unfold process_param in H. destruct p as [d []|d|d []|d]; try easy.
  - apply obind_ok in H as (s & _ & H). apply obind_ok in H as (t & _ & H).
    apply obind_ok in H as ([t' r] & _ & H). injection H as <-. cbn. eauto.
  - apply obind_ok in H as (s & _ & H). apply obind_ok in H as (t & _ & H). injection H as <-. cbn. eauto.
  - destruct (negb (pd_required d)); [easy|]. apply obind_ok in H as (s & _ & H). apply obind_ok in H as (t & _ & H).
    injection H as <-. cbn. eauto.
Qed.

Lemma operation_typed : Forall (fun p => match p_kind p with KBody _ => p_name p = lit "body" | _ => exists t, p_typ p = PType t end)
  (m_params m).
Proof.
  destruct (process_operation_params _ _ _ _ _ _ _ _ _ Hp)
    as (oid & pi & ops & qs & body & _ & _ & _ & Hqs & Hb & _ & Hsort & Hpres & _).
  apply (sort_params_sorted _ _ _ Hpres) in Hsort as (Hperm & _).
  apply Forall_forall. intros p Hi. apply (Permutation_in _ Hperm) in Hi. apply in_app_or in Hi as [Hi|Hi].
  - destruct (forall2_In_r _ _ _ _ Hqs Hi) as (x & _ & Hx). apply process_param_typ in Hx as (Ht & Hn).
    unfold non_body in Hn. destruct (p_kind p); auto; easy.
  - destruct body as [b|]; [|easy]. destruct Hi as [<-|[]]. apply get_body_param_ok in Hb as (ct & Hk & Hnm & _).
    now rewrite Hk.
Qed.

Lemma operation_dispatch si sk ei ek eas :
  extract_responses m is_success_or_default = Ok (si, sk) -> extract_responses m is_error_or_default = Ok (ei, ek) ->
  concat_arms (mapM error_arm ei) = Ok eas ->
  forall s, exists x, select (map success_arm si ++ eas ++ default_arm (m_responses m)) s = Some x.
Proof.
  intros Hs He Ha s. destruct (process_operation_params _ _ _ _ _ _ _ _ _ Hp)
    as (oid & pi & ops & qs & body & Hid & _ & _ & _ & _ & _ & _ & _ & Hw & Hr & _).
  destruct (table_exists _ _ _ _ _ _ _ Hr) as (t & Ht).
  destruct (expected_total (m_websocket m) t s) as (a & Hx).
  assert (H1 : lists (m_websocket m) t (m_responses m)) by (eapply process_responses_lists; eauto).
  assert (H2 : m_websocket m = true -> exists pre, m_responses m = pre ++ [OpResponse (SCode 101) RUpgrade])
    by (intro H; eapply process_responses_last; eauto).
  assert (H3 : m_websocket m = false -> forall key k, In (key, k) t -> k <> RUpgrade) by (eapply table_no_upgrade; eauto).
  destruct (dispatch m (m_websocket m) t H1 H2 H3 si ei sk ek eas Hs He Ha s a Hx) as (x & E & _). eauto.
Qed.
End Params.

Section Exact.
Context (has : type_id -> rust_trait -> Prop).
Context {snake pascal : str -> str} {ts : type_space} {comps : option components} {op : operation}
  {ps : list piece} {method : str} {pp : list (ref_or parameter)} {h : hooks} {m : op_method} {sb : sig_body}.
Hypothesis Hp : process_operation snake pascal ts op comps (show ps) method pp = Ok m.
Hypothesis Hlax : lax ps.
Hypothesis Hsb : method_sig_body h m = Ok sb.

Lemma scope_names : map fst (scope m) = map p_name (m_params m).
Proof. unfold scope. now rewrite map_map. Qed.

Lemma scope_lookup p : NoDup (map p_name (m_params m)) -> In p (m_params m) -> assoc (p_name p) (scope m) = Some (variable_type p).
Proof.
  intros Hn Hi. apply assoc_nodup_In; [now rewrite scope_names|]. unfold scope. apply in_map_iff. now exists p.
Qed.

Lemma renames_params n x : In (n, x) (url_renames (m_params m)) ->
  exists p, In p (m_params m) /\ p_kind p = KPath /\ p_api_name p = n /\ p_name p = x.
Proof.
  unfold url_renames. rewrite in_flat_map. intros (p & Hi & Hx). destruct (p_kind p) eqn:Hk; try easy.
  destruct Hx as [[= <- <-]|[]]. eauto.
Qed.

Lemma compile_names rn p u : compile p rn = Ok u -> forall n, In n (names p) -> exists x, assoc_last n rn = Some x /\ In x (ue_args u).
Proof.
  intros H. unfold compile in H. apply obind_ok in H as (args & Ha & H). injection H as <-. cbn [ue_args].
  revert args Ha; induction p as [|[s|k] p IH]; cbn [compile_args]; intros args Ha n Hn; [easy|now apply (IH args)|].
  destruct (assoc_last k rn) as [x|] eqn:E; [|easy]. apply obind_ok in Ha as (l & Hl & Ha). injection Ha as <-.
  change (names (CParam k :: p)) with (k :: names p) in Hn. destruct Hn as [<-|Hn]; [exists x; split; [exact E|now left]|].
  destruct (IH l Hl n Hn) as (y & Ey & Hy). exists y. split; auto. now right.
Qed.

Lemma rename_lookup p : NoDup (map p_api_name (filter (fun p => match p_kind p with KPath => true | _ => false end) (m_params m))) ->
  In p (m_params m) -> p_kind p = KPath -> forall x, assoc_last (p_api_name p) (url_renames (m_params m)) = Some x -> x = p_name p.
Proof.
  intros Hn Hi Hk x E. apply assoc_last_In in E. apply renames_params in E as (q & Hq & Hkq & En & <-). f_equal.
  assert (forall a, In a (m_params m) -> p_kind a = KPath ->
    In a (filter (fun p => match p_kind p with KPath => true | _ => false end) (m_params m))) as Hf.
  { intros a Ha Hka. apply filter_In. split; auto. now rewrite Hka. }
  pose proof (Hf p Hi Hk) as H1. pose proof (Hf q Hq Hkq) as H2. revert Hn H1 H2 En. clear.
  generalize (filter (fun p => match p_kind p with KPath => true | _ => false end) (m_params m)) as l.
  induction l as [|a l IH]; cbn; intros Hn H1 H2 En; [easy|]. inversion Hn as [|? ? Hni Hn']; subst.
  destruct H1 as [->|H1], H2 as [->|H2]; auto; exfalso; apply Hni; [rewrite <- En|rewrite En]; now apply in_map.
Qed.

Lemma body_calls_in l bs : body_calls l = Ok bs -> forall p, In p l ->
  match p_kind p, p_typ p with
  | KBody OctetStream, PRawBody => In (CContentTypeBody (lit "application/octet-stream")) bs
  | KBody (Text mime), PRawBody => In (CContentTypeBody mime) bs
  | KBody Json, PType _ => In CJson bs
  | KBody FormUrlencoded, PType _ => In CForm bs
  | KBody _, _ => False
  | _, _ => True
  end.
Proof.
  revert bs; induction l as [|q l IH]; intros bs H p Hi; [easy|]. cbn [body_calls] in H. destruct Hi as [->|Hi].
  - destruct (p_kind p) as [| | |[| | |]], (p_typ p); try exact I; try easy;
      apply obind_ok in H as (t' & _ & H); injection H as <-; now left.
  - assert (Hw : exists t', body_calls l = Ok t' /\ incl t' bs).
    { destruct (p_kind q) as [| | |[| | |]], (p_typ q); try easy; try (exists bs; split; [exact H|apply incl_refl]);
        apply obind_ok in H as (t' & E & H); injection H as <-; exists t'; split; auto; now apply incl_tl, incl_refl. }
    destruct Hw as (t' & E & Hin). specialize (IH t' E p Hi).
    destruct (p_kind p) as [| | |[| | |]], (p_typ p); auto.
Qed.

Lemma body_calls_from l bs : body_calls l = Ok bs -> forall c, In c bs -> exists p ct, In p l /\ p_kind p = KBody ct /\
  match c with
  | CContentTypeBody _ => p_typ p = PRawBody
  | CJson | CForm => exists t, p_typ p = PType t
  | _ => False
  end.
Proof.
  revert bs; induction l as [|q l IH]; intros bs H c Hi; cbn [body_calls] in H; [injection H as <-; easy|].
  assert (Hrest : forall t', body_calls l = Ok t' -> In c t' -> exists p ct, In p (q :: l) /\ p_kind p = KBody ct /\
    match c with CContentTypeBody _ => p_typ p = PRawBody | CJson | CForm => exists t, p_typ p = PType t | _ => False end).
  { intros t' E Hc. destruct (IH t' E c Hc) as (p & ct & Hin & Hr). exists p, ct. split; [now right|exact Hr]. }
  destruct (p_kind q) as [| | |ct] eqn:Ek; try (exact (Hrest _ H Hi)).
  assert (Hh : exists c0 t', body_calls l = Ok t' /\ bs = c0 :: t' /\
    match c0 with CContentTypeBody _ => p_typ q = PRawBody | CJson | CForm => exists t, p_typ q = PType t | _ => False end).
  { destruct ct, (p_typ q) as [t|]; try easy; apply obind_ok in H as (t' & E & H); injection H as <-;
      do 2 eexists; (split; [exact E|]); (split; [reflexivity|]); cbn; eauto. }
  destruct Hh as (c0 & t' & E & -> & Hc0). destruct Hi as [->|Hi]; [|exact (Hrest _ E Hi)].
  exists q, ct. split; [now left|]. auto.
Qed.

(** The arms decode what is declared. *)
Lemma arms_ok si sk ei ek eas :
  extract_responses m is_success_or_default = Ok (si, sk) -> extract_responses m is_error_or_default = Ok (ei, ek) ->
  concat_arms (mapM error_arm ei) = Ok eas ->
  Forall (fun a => rhs_ok has sk ek (snd a)) (map success_arm si ++ eas ++ default_arm (m_responses m))
  <-> (forall t, sk = RType t -> has t TrDeserialize) /\ (forall t, ek = RType t -> has t TrDeserialize).
Proof.
  intros Hs He Ha. destruct (extract_ok _ _ _ _ Hs) as (_ & Ks & Es). destruct (extract_ok _ _ _ _ He) as (_ & Ke & Ee).
  destruct (error_arms_shape _ _ Ha) as (Hshape & _). split.
  - intro F. apply Forall_app in F as (F1 & F2). apply Forall_app in F2 as (F2 & _). rewrite Forall_forall in F1, F2. split.
    + intros t E. destruct si as [|r si]; [rewrite Es in E; easy|].
      specialize (F1 (success_arm r) (or_introl eq_refl)). cbn in F1. rewrite (Ks r (or_introl eq_refl)), E in F1. cbn in F1.
      inversion F1 as [d H| |]; subst. inversion H; subst; auto.
    + intros t E. destruct ei as [|r ei]; [rewrite Ee in E; easy|].
      pose proof (Ke r (or_introl eq_refl)) as Er.
      assert (Hin : exists p, In (p, RhsErr DFromResponse) eas).
      { rewrite Hshape. eexists. apply in_map_iff. exists r. split; [rewrite Er, E; reflexivity|].
        try (apply filter_In; split; [now left|now rewrite Er, E]). }
      destruct Hin as (p & Hin). apply F2 in Hin. cbn in Hin. rewrite E in Hin. inversion Hin as [|d H|]; subst.
      inversion H; subst; auto.
  - intros (Ds & De). assert (Hd : forall k, (forall t, k = RType t -> has t TrDeserialize) -> decodes has (decode_of k) k).
    { intros k Hk. destruct k; constructor. auto. }
    apply Forall_app. split; [|apply Forall_app; split].
    + apply Forall_forall. intros a Hi. apply in_map_iff in Hi as (r & <- & Hi). cbn. rewrite (Ks r Hi). constructor. now apply Hd.
    + apply Forall_forall. intros a Hi. rewrite Hshape in Hi. apply in_map_iff in Hi as (r & <- & Hi). cbn.
      rewrite (Ke r) by (try (apply filter_In in Hi as (Hi & _)); exact Hi). constructor. now apply Hd.
    + unfold default_arm. destruct (rev (m_responses m)); [repeat constructor|]. destruct (is_default _); repeat constructor.
Qed.

Lemma fresh_url : let url := unique_ident_from (lit "url") (map p_name (m_params m)) in
  ~ In url (map p_name (m_params m)) /\ url <> lit "header_map".
Proof.
  cbv zeta. destruct (unique_ident_spec (lit "url") (map p_name (m_params m))) as (k & -> & Hn & _). split; auto.
  intro E. change (lit "header_map") with (underscores 0 (lit "header_map")) in E. apply underscores_base in E; easy.
Qed.

Theorem method_ok_iff : method_ok has (scope m) sb <-> sound_operation has ps m sb.
Proof.
  pose proof Hsb as Hm. unfold method_sig_body in Hm. cbv zeta in Hm.
  set (names := map p_name (m_params m)) in *.
  destruct fresh_url as (Hfresh & Hnh). fold names in Hfresh, Hnh.
  set (url := unique_ident_from (lit "url") names) in *.
  set (xq := unique_ident_from (lit "request") names) in *.
  set (xs := unique_ident_from (lit "response") names) in *.
  set (xr := unique_ident_from (lit "result") names) in *.
  apply obind_ok in Hm as (u & Hu & Hm). apply obind_ok in Hm as (bs & Hbs & Hm).
  destruct (1 <? N.of_nat (length bs)) eqn:Hlen; [easy|].
  apply obind_ok in Hm as ([si sk] & Hs & Hm). apply obind_ok in Hm as ([ei ek] & He & Hm).
  apply obind_ok in Hm as (eas & Ha & Hm).
  set (arms := map success_arm si ++ eas ++ default_arm (m_responses m)) in *.
  set (calls := accept_calls sk ek ++ bs ++ _) in Hm.
  assert (Ebody : sb_body sb = SLetUrl url u :: SLetHeaders (header_stmts (m_params m))
    :: SLetRequest xq (m_method m) url calls :: tail_prog h xq xr xs arms) by (now injection Hm as <-).
  assert (Esk : sb_success sb = sk) by (now injection Hm as <-).
  assert (Eek : sb_error sb = ek) by (now injection Hm as <-). clear Hm.
  destruct (process_operation_params _ _ _ _ _ _ _ _ _ Hp)
    as (oid & pi & ops' & qs & body & _ & _ & _ & _ & _ & Hpa & _).
  destruct (compile_format ps _ _ u Hlax Hpa Hu) as (Hargs & Hfmt).
  pose proof (operation_typed Hp) as Hty. rewrite Forall_forall in Hty.
  assert (Hexh : exhaustive (map fst arms)).
  { intros n _. apply select_covers. exact (operation_dispatch Hp si sk ei ek eas Hs He Ha n). }
  pose proof (arms_ok si sk ei ek eas Hs He Ha) as Harms. fold arms in Harms.
  unfold method_ok. rewrite scope_names, Ebody, Esk, Eek. fold names. split.
  - intros (Hnd & Hb). apply body_cons_inv in Hb as (H1 & H2 & H3 & Hb).
    apply body_cons_inv in Hb as (H4 & Hb). apply body_cons_inv in Hb as (H5 & H6 & H7 & Hb).
    apply tail_ok in Hb as (_ & Hb). apply Harms in Hb as (Hds & Hde).
    pose proof (operation_well_named Hp Hnd) as (_ & Hapi & _).
    rewrite Forall_forall in H2, H4, H7.
    assert (Hlook : forall p, In p (m_params m) -> p_name p <> lit "header_map" ->
      assoc (p_name p) ((lit "header_map", VtHeaders) :: (url, VtUrl) :: scope m) = Some (variable_type p)).
    { intros p Hi Hne. cbn [assoc]. destruct (str_eqb (p_name p) (lit "header_map")) eqn:E1; [apply str_eqb_spec in E1; easy|].
      destruct (str_eqb (p_name p) url) eqn:E2; [|now apply scope_lookup]. apply str_eqb_spec in E2. exfalso. apply Hfresh.
      rewrite <- E2. now apply in_map. }
    constructor.
    + exact Hnd.
    + now apply Hfmt.
    + destruct H3 as [E|E].
      * left. rewrite E in Hargs. now destruct (vars ps).
      * right. apply assoc_None in E. now rewrite scope_names in E.
    + exact H5.
    + apply Forall_forall. intros p Hi. specialize (Hty p Hi). unfold usable.
      destruct (p_kind p) as [|r|r|ct] eqn:Ek.
      * destruct Hty as (t & Et). rewrite Et. intro Hv. rewrite <- (parse_names ps (m_path m) Hlax Hpa) in Hv.
        destruct (compile_names _ _ _ Hu _ Hv) as (x & Ex & Hx).
        apply (rename_lookup p Hapi Hi Ek) in Ex. subst x. destruct (H2 _ Hx) as (t' & Ea & Hd).
        rewrite (scope_lookup p Hnd Hi) in Ea. unfold variable_type in Ea. rewrite Et, Ek in Ea. cbn in Ea.
        injection Ea as ->. exact Hd.
      * destruct Hty as (t & Et). rewrite Et.
        assert (Hc : call_ok has ((lit "header_map", VtHeaders) :: (url, VtUrl) :: scope m) (CQuery (p_api_name p) (p_name p))).
        { apply H7. unfold calls. apply in_or_app. right. apply in_or_app. right. apply in_or_app. left.
          apply in_flat_map. exists p. split; auto. rewrite Ek. now left. }
        unfold call_ok in Hc. destruct Hc as (t' & Ea & Hd).
        assert (Hne : p_name p <> lit "header_map").
        { intro E. rewrite E in Ea. rewrite assoc_head in Ea. destruct Ea; easy. }
        split; [|exact Hne]. pose proof (Hlook p Hi Hne) as El. unfold variable_type in El. rewrite Et, Ek in El.
        rewrite El in Ea. destruct r; cbn in Ea; destruct Ea as [Ea|Ea]; try easy; now injection Ea as ->.
      * destruct Hty as (t & Et). rewrite Et.
        assert (Hc : header_stmt_ok has ((lit "header_map", VtHeaders) :: (url, VtUrl) :: scope m)
                       ((if r then HRequired else HOptional) (p_api_name p) (p_name p))).
        { apply H4. unfold header_stmts. apply in_flat_map. exists p. split; auto. rewrite Ek. destruct r; now left. }
        assert (Hne : p_name p <> lit "header_map").
        { intro E. destruct r; cbn -[assoc] in Hc; destruct Hc as (t' & Ea & _); rewrite E, assoc_head in Ea; easy. }
        split; [|exact Hne]. pose proof (Hlook p Hi Hne) as El. unfold variable_type in El. rewrite Et, Ek in El.
        destruct r; cbn -[assoc] in Hc, El; destruct Hc as (t' & Ea & Hd); rewrite El in Ea; now injection Ea as ->.
      * pose proof (body_calls_in _ _ Hbs p Hi) as Hbc. rewrite Ek in Hbc.
        destruct (p_typ p) as [t|] eqn:Et; [|exact I].
        assert (Hne : p_name p <> lit "header_map") by (rewrite Hty; easy).
        pose proof (Hlook p Hi Hne) as El. rewrite Hty in El. unfold variable_type in El. rewrite Et, Ek in El.
        assert (Hc : exists c, (c = CJson \/ c = CForm) /\ In c bs).
        { destruct ct; try easy; [exists CJson|exists CForm]; auto. }
        destruct Hc as (c & Hc & Hin).
        assert (Hok : call_ok has ((lit "header_map", VtHeaders) :: (url, VtUrl) :: scope m) c).
        { apply H7. unfold calls. apply in_or_app. right. apply in_or_app. now left. }
        destruct Hc as [-> | ->]; cbn -[assoc] in Hok, El; destruct Hok as (t' & Ea & Hd); rewrite El in Ea; now injection Ea as ->.
    + rewrite Esk. exact Hds.
    + rewrite Eek. exact Hde.
  - intros [Hnd Hst Hep Hver Hpar Hds Hde]. rewrite Esk in Hds. rewrite Eek in Hde. rewrite Forall_forall in Hpar. fold names in Hnd.
    split; [exact Hnd|].
    assert (Hlook : forall p, In p (m_params m) -> p_name p <> lit "header_map" ->
      assoc (p_name p) ((lit "header_map", VtHeaders) :: (url, VtUrl) :: scope m) = Some (variable_type p)).
    { intros p Hi Hne. cbn [assoc]. destruct (str_eqb (p_name p) (lit "header_map")) eqn:E1; [apply str_eqb_spec in E1; easy|].
      destruct (str_eqb (p_name p) url) eqn:E2; [|now apply scope_lookup]. apply str_eqb_spec in E2. exfalso. apply Hfresh.
      rewrite <- E2. now apply in_map. }
    apply bo_url; [now apply Hfmt| | |apply bo_headers; [|apply bo_request; [exact Hver| | |]]].
    + apply Forall_forall. intros x Hx. unfold compile in Hu. apply obind_ok in Hu as (args & Hca & Hu). injection Hu as <-.
      cbn [ue_args] in Hx. assert (Hn : exists n, In n (TemplateModel.names (m_path m)) /\ assoc_last n (url_renames (m_params m)) = Some x).
      { clear -Hca Hx. revert args Hca Hx; induction (m_path m) as [|[s|k] p IH]; cbn [compile_args]; intros args Hca Hx.
        - injection Hca as <-. easy.
        - eauto.
        - destruct (assoc_last k _) as [y|] eqn:E; [|easy]. apply obind_ok in Hca as (l & Hl & Hca). injection Hca as <-.
          change (TemplateModel.names (CParam k :: p)) with (k :: TemplateModel.names p).
          destruct Hx as [->|Hx]; [exists k; split; [now left|exact E]|]. destruct (IH l Hl Hx) as (n & Hn & En).
          exists n. split; [now right|exact En]. }
      destruct Hn as (n & Hn & En). rewrite (parse_names ps (m_path m) Hlax Hpa) in Hn.
      apply assoc_last_In, renames_params in En as (p & Hi & Hk & Hapi & <-).
      specialize (Hpar p Hi). specialize (Hty p Hi). unfold usable in Hpar. rewrite Hk in Hpar, Hty.
      destruct Hty as (t & Et). rewrite Et in Hpar. exists t. split; [|apply Hpar; congruence].
      rewrite (scope_lookup p Hnd Hi). unfold variable_type. now rewrite Et, Hk.
    + destruct Hep as [E|E].
      * left. rewrite E in Hargs. now destruct (ue_args u).
      * right. apply assoc_None. now rewrite scope_names.
    + apply Forall_forall. intros s Hin. unfold header_stmts in Hin. apply in_flat_map in Hin as (p & Hi & Hin).
      specialize (Hpar p Hi). specialize (Hty p Hi). unfold usable in Hpar.
      destruct (p_kind p) as [|r|r|ct] eqn:Ek; try easy. destruct Hty as (t & Et). rewrite Et in Hpar. destruct Hpar as (Hd & Hne).
      pose proof (Hlook p Hi Hne) as El. unfold variable_type in El. rewrite Et, Ek in El.
      destruct r; destruct Hin as [<-|[]]; exists t; split; auto.
    + cbn [assoc]. destruct (str_eqb url (lit "header_map")) eqn:E1; [apply str_eqb_spec in E1; easy|]. now rewrite str_eqb_refl.
    + apply Forall_forall. intros c Hin. unfold calls in Hin.
      apply in_app_or in Hin as [Hin|Hin].
      { unfold accept_calls in Hin. destruct sk; [destruct Hin as [<-|[]]; exact I| |easy|easy].
        destruct ek; try easy. destruct Hin as [<-|[]]; exact I. }
      apply in_app_or in Hin as [Hin|Hin].
      { destruct (body_calls_from _ _ Hbs c Hin) as (p & ct & Hi & Hk & Hc).
        specialize (Hpar p Hi). specialize (Hty p Hi). unfold usable in Hpar. rewrite Hk in Hpar, Hty.
        assert (Hne : p_name p <> lit "header_map") by (rewrite Hty; easy).
        pose proof (Hlook p Hi Hne) as El. rewrite Hty in El. unfold variable_type in El. rewrite Hk in El.
        destruct c; try easy; [rewrite Hc in El; exact El| |]; destruct Hc as (t & Et); rewrite Et in El, Hpar; exists t; auto. }
      apply in_app_or in Hin as [Hin|Hin].
      { unfold query_calls in Hin. apply in_flat_map in Hin as (p & Hi & Hin).
        specialize (Hpar p Hi). specialize (Hty p Hi). unfold usable in Hpar.
        destruct (p_kind p) as [|r|r|ct] eqn:Ek; try easy. destruct Hty as (t & Et). rewrite Et in Hpar. destruct Hpar as (Hd & Hne).
        pose proof (Hlook p Hi Hne) as El. unfold variable_type in El. rewrite Et, Ek in El.
        destruct Hin as [<-|[]]. exists t. split; [|exact Hd]. destruct r; [left|right]; exact El. }
      destruct Hin as [<-|Hin]; [apply assoc_head|]. destruct (m_websocket m); [|easy]. destruct Hin as [<-|[]]. exact I.
    + apply tail_ok. split; [exact Hexh|]. now apply Harms.
Qed.
End Exact.

(** Exact conditions for claims that hold only of some inputs: paths that compile, scalars in queries, names in mocks. *)
From Verif Require Import Base OasModel TemplateModel TemplateSpec TemplateProofs MethodModel OpModel BuilderModel SanitizeModel
  Utf8 SerdeModel QuerySpec QueryProofs ParamProofs GenerateCor MockModel MockSpec MockProofs MockDoc MockGen MockCompileSpec MockCompileProofs.
Local Open Scope N_scope.

(** ** Paths *)

Lemma lax_strict ps : lax ps -> no_stray ps -> strict ps.
Proof.
  intros ((r & E) & Hl) Hn. split; [eauto|]. clear E r. revert Hl. generalize false. induction ps as [|[c|n] ps IH]; intros b Hl.
  - constructor.
  - destruct Hl as (H1 & H2 & H3). constructor.
    + split; auto. intros ->. apply Hn. now left.
    + apply (IH ltac:(intro H; apply Hn; now right) false H3).
  - destruct Hl as (H1 & H2). constructor; auto. apply (IH ltac:(intro H; apply Hn; now right) true H2).
Qed.
Lemma strict_no_stray ps : strict ps -> no_stray ps.
Proof.
  intros (_ & H) Hi. rewrite Forall_forall in H. now apply H in Hi as (_ & Hi).
Qed.

Lemma url_compiles_iff ps p rename : lax ps -> parse (show ps) = Ok p ->
  ((exists u, compile p rename = Ok u /\ forall enc base env, exists url, eval_url enc base env u = Some url) <->
   strict ps /\ forall n, In n (vars ps) -> In n (map fst rename)).
Proof.
  intros Hl Hp. split.
  - intros (u & Hu & He). split.
    + apply lax_strict; auto. intro Hs.
      assert (Hns : ~ no_stray ps) by (intro H; now apply H).
      destruct (He (fun x => x) [] (fun _ => [])) as (url & E).
      rewrite (stray_never_compiles ps p rename u Hl Hns Hp Hu) in E. discriminate.
    + intros n Hn. destruct (in_dec str_eq_dec n (map fst rename)) as [|Hno]; auto. exfalso.
      destruct (proj2 (compile_panics_iff ps p rename Hl Hp)) as (m & Hm); [eauto|]. congruence.
  - intros (Hs & Hv). now apply (compile_compiles ps p rename).
Qed.

(** ** Queries *)

Lemma wrapped_scalar name v t ws : scalar_text v t ->
  query_param name (fold_right VNewtypeStruct v ws) = match ws with [] => Some [(name, t)] | _ => None end.
Proof.
  intro H. destruct ws as [|w ws]; [now apply scalar_query|]. cbn [fold_right]. unfold query_param. cbn [query_serializer].
  assert (Hu : forall ws, urlencoded (fold_right VNewtypeStruct v ws) = None)
    by (intro us; induction us as [|u us IH]; [destruct H; reflexivity|exact IH]).
  exact (Hu (w :: ws)).
Qed.

(** ** Mocks *)

Lemma upgrade_listed snake pascal ts op comps path method pp m :
  process_operation snake pascal ts op comps path method pp = Ok m -> m_websocket m = true ->
  exists l, map o_status (m_responses m) = map fst (documented op) ++ l ++ [SCode 101].
Proof.
  intros H Hw. destruct (process_operation_params _ _ _ _ _ _ _ _ _ H)
    as (oid & pi' & ops' & qs & body & _ & _ & _ & _ & _ & _ & _ & _ & _ & Hr & _).
  unfold process_responses in Hr. apply obind_ok in Hr as (rs & Hrs & Hr). injection Hr as <-.
  assert (E : map o_status rs = map fst (documented op)).
  { apply mapM_ok in Hrs. eapply Forall2_map_eq; [|exact Hrs]. intros a b Hab. cbn in Hab. unfold process_response in Hab.
    apply obind_ok in Hab as (doc & _ & Hab). apply obind_ok in Hab as (typ & _ & Hab). now injection Hab as <-. }
  rewrite !map_app, E, Hw. cbn. eauto.
Qed.

Lemma then_names_iff snake pascal ts op comps path method pp m types o :
  process_operation snake pascal ts op comps path method pp = Ok m ->
  httpmock_method unicode15 types m = Ok o ->
  NoDup (map fst (documented op)) ->
  (NoDup (lit "new" :: lit "into_inner" :: map tm_name (mo_then_methods o)) <->
   ~ (m_websocket m = true /\ In (SCode 101) (map fst (documented op)))).
Proof.
  intros Hp Ho Hd. split.
  - intros Hn (Hw & Hi). apply NoDup_cons_iff in Hn as (_ & Hn). apply NoDup_cons_iff in Hn as (_ & Hn).
    destruct (then_names _ _ _ Ho) as (E & _). rewrite E in Hn. apply NoDup_map_inv in Hn.
    destruct (upgrade_listed _ _ _ _ _ _ _ _ _ Hp Hw) as (l & El). rewrite El in Hn.
    apply NoDup_app_inv in Hn as (_ & _ & Hn). apply (Hn _ Hi). rewrite in_app_iff. cbn. auto.
  - intro Hn. eapply then_names_distinct; eauto.
Qed.

Lemma when_names_iff types m o : httpmock_method unicode15 types m = Ok o ->
  (NoDup (lit "new" :: lit "into_inner" :: map wm_name (mo_when_methods o)) <->
   NoDup (map p_name (m_params m)) /\ forall p, In p (m_params m) -> p_name p <> lit "new" /\ p_name p <> lit "into_inner").
Proof.
  intro Ho. destruct (mock_parts _ _ _ _ Ho) as (_ & _ & Hw & _).
  assert (Ewm : map wm_name (mo_when_methods o) = map p_name (m_params m)).
  { clear - Hw. induction Hw as [|p w ps ws H _ IH]; cbn; auto. f_equal; auto. eapply when_method_name. exact H. }
  rewrite Ewm.
  fold (wrapper_names_ok (map p_name (m_params m))). rewrite (wrapper_names (map p_name (m_params m))). split.
  - intros (H1 & H2 & H3). split; auto. intros p Hi. apply (in_map p_name) in Hi. split; intro E; rewrite E in Hi; auto.
  - intros (H1 & H2). split; auto. split; intro Hi; apply in_map_iff in Hi as (p & E & Hi); now destruct (H2 p Hi).
Qed.

(** Which command line interfaces compile: whole documents, and what that means for runs. *)
From Verif Require Import Base OasModel TemplateModel TemplateSpec SanitizeModel ClientModel MethodModel OpModel RunModel BuilderModel FutureModel StreamModel
  GenerateModel RequestSpec BuilderSpec GenerateSpec PageSpec BuilderProofs ValidateProofs GenerateProofs GenerateCor
  CompileSpec CompileItemSpec CompileProofs CompileItemProofs CompileRunProofs CompileClientProofs CompileCor NameCor CliModel CliSpec CliProofs CliRun CliCor
  CliCompileSpec CliCompileProofs.
Local Open Scope N_scope.

(** What [cli] makes of the operations. *)
Lemma cli_parts U ctypes parse_path add_ref_types d crate k ts l ms :
  cli U ctypes parse_path add_ref_types d crate = Ok k -> operations_in_order d l ->
  add_ref_types (match oa_components d with Some c => co_schemas c | None => [] end) = Ok ts ->
  Forall2 (processed U ts d) l ms ->
  Forall2 (fun m o => cli_method U ctypes m = Ok o) ms (cc_operations k)
  /\ cc_variants k = map (fun m => pascal U (m_operation_id m)) ms
  /\ cc_commands k = map (fun m => (pascal U (m_operation_id m), lit "cli_" ++ snake U (m_operation_id m))) ms
  /\ cc_executes k = map (fun m => (pascal U (m_operation_id m), lit "execute_" ++ snake U (m_operation_id m))) ms.
Proof.
  unfold cli. intros H Hl Ht F. apply obind_ok in H as ([] & Hv & H).
  apply obind_ok in H as (ts' & Ht' & H). rewrite Ht in Ht'. injection Ht' as <-. apply obind_ok in H as (groups & Hg & H). cbv zeta in H.
  apply obind_ok in H as (os & Ho & H). destruct (parse_path crate); [|discriminate]. injection H as <-.
  assert (F' : Forall2 (processed U ts d) l (concat groups)) by (rewrite (in_order_unique d l Hl); now apply (process_paths U)).
  rewrite (processed_unique _ _ _ _ _ _ F F'). apply mapM_ok in Ho.
  assert (Ec : forall (A : Type) (f g : A -> str) xs, combine (map f xs) (map g xs) = map (fun x => (f x, g x)) xs).
  { intros A f g xs. induction xs; cbn; congruence. }
  cbn [cc_operations cc_variants cc_commands cc_executes]. rewrite !Ec. repeat split; try reflexivity. exact Ho.
Qed.

(** A client and its command line interface are made from the same document (lib.rs and cli.rs: both begin with the schemas). *)
Lemma cor_cli (has : str -> cli_trait -> Prop) sets ctypes hasr types parse_path add_ref_types s d crate g k ts l ms :
  has (lit "::std::path::PathBuf") TcStored -> has (lit "::std::path::PathBuf") TcParsed ->
  generate_tokens unicode15 add_ref_types types s d = Ok g ->
  cli unicode15 ctypes parse_path add_ref_types d crate = Ok k -> operations_in_order d l ->
  add_ref_types (match oa_components d with Some c => co_schemas c | None => [] end) = Ok ts ->
  Forall2 (processed unicode15 ts d) l ms ->
  se_interface s = Builder -> file_ok hasr ts g ->
  cli_compiles has sets ctypes ts k g <-> sound_cli has sets ctypes unicode15 types s ms.
Proof.
  intros P1 P2 Hg Hk Hl Ht F Hi Hf. destruct (types_run _ _ _ _ _ _ _ Hg Ht) as (ms' & R).
  pose proof (processed_unique _ _ _ _ _ _ F (ro_ops _ _ _ _ _ _ _ R l Hl)) as E. subst ms'.
  destruct (cli_parts _ _ _ _ _ _ _ _ _ _ Hk Hl Ht F) as (C1 & C2 & C3 & C4).
  exact (cli_iff has sets ctypes hasr types unicode15 cases15 unicode15_dash token_unicode15 (conj P1 P2) s d g ts ms l k R F Hi Hf C1 C2 C3 C4).
Qed.

(** ** Runs *)

Section Runs.
Variables (has : str -> cli_trait -> Prop) (sets : type_id -> str -> str -> Prop) (ctypes : type_id -> option cli_type)
  (hasr : type_id -> rust_trait -> Prop) (ts : type_space).
Variables (o : cli_operation) (c : builder_code).
Hypothesis Hoc : operation_compiles has sets ctypes ts o c.
Hypothesis Hbc : builder_code_ok hasr ts c.

Section World.
Variable B : Type.
Variable b_default : type_id -> B.
Variable b_from : type_id -> value -> B.
Variable b_try_from : type_id -> B -> result value str.
Variable b_set : str -> value -> B -> B.
Variable read_json : str -> value -> option value.
Variable nonzero : value -> N.
Variable override : matches -> list (setter_call B) -> result (list (setter_call B)) str.
Variable V : Type.
Variable page_items : V -> list V.
Variable page_next : V -> option value.
Variable ctx : context.
Variable from_slice : type_id -> list N -> result V jerr.
Variable W : Type.
Variable ops : world_ops W.
Hypothesis Hops : forall q w r w', w_execute ops q w = (ROk r, w') -> r_status r < 65536.
Hypothesis Hover : forall ms cs cs', override ms cs = ROk cs' -> Forall (offered c) cs -> Forall (offered c) cs'.

Lemma list_loop_runs {S X E} (p : poller S (result X E) W) eo pf fuel : forall s w, fst (fst (list_loop p eo pf fuel s w)) <> CfDoesNotCompile.
Proof.
  induction fuel as [|n IH]; intros s w; cbn [list_loop]; [discriminate|].
  destruct (p pf s w) as [[[v|e]|] s' w'|w'|]; try discriminate; [|destruct eo; discriminate].
  specialize (IH s' w'). destruct (list_loop p eo pf n s' w') as ((f & cbs) & w''). exact IH.
Qed.

Lemma setter_offered n ty conv : has_setter ctypes c n ty -> offered (B := B) c (CallSet n conv).
Proof.
  intros (f & t & Hf & En & _). cbn [offered]. apply in_map_iff. exists f. split; [|exact Hf]. unfold setter_name in En.
  pose proof (bk_setters _ _ _ Hbc) as Hs. rewrite Forall_forall in Hs. specialize (Hs f Hf).
  destruct (bf_setter f) eqn:Es; try exact En. inversion Hs. congruence.
Qed.

Lemma consumed_offered ms cs : consumed B b_set read_json ms (co_args o) = Some cs -> Forall (offered c) cs.
Proof.
  intro H. unfold consumed in H. destruct (consume_all B b_set ms (cg_consumers (co_args o))) as [x|] eqn:Ex; [|discriminate].
  destruct (consume_json B read_json ms (cg_json (co_args o))) as [y|] eqn:Ey; [|discriminate]. injection H as <-. apply Forall_app. split.
  - pose proof (oo_consumers _ _ _ _ _ _ Hoc) as Hc. revert x Ex. induction Hc as [|co cos Hco _ IH]; intros x Ex; cbn [consume_all] in Ex.
    + injection Ex as <-. constructor.
    + destruct (consume B b_set ms co) as [a|] eqn:Ea; [|discriminate]. destruct (consume_all B b_set ms cos) as [b|]; [|discriminate].
      injection Ex as <-. apply Forall_app. split; [|now apply IH].
      destruct Hco as [ty id n _ Hset|ty id n f t msg _ Hf Es _]; cbn [consume] in Ea; destruct (get_one ms ty id); try discriminate; injection Ea as <-; constructor; try constructor.
      * exact (setter_offered n ty _ Hset).
      * cbn [offered]. eauto.
  - unfold consume_json in Ey. destruct (cg_json (co_args o)) as [ty|] eqn:Ej; [|injection Ey as <-; constructor].
    destruct (get_one _ _ _); [injection Ey as <-; constructor| |discriminate].
    destruct (read_json ty v); [|discriminate]. injection Ey as <-. constructor; [|constructor].
    exact (setter_offered _ ty _ (proj2 (oo_json _ _ _ _ _ _ Hoc ty Ej))).
Qed.

Lemma execute_runs ms pf fuel w :
  fst (fst (execute B b_default b_from b_try_from b_set read_json nonzero override V page_items page_next ctx from_slice W ops o c ms pf fuel w))
  <> CfDoesNotCompile.
Proof.
  unfold execute. destruct (consumed B b_set read_json ms (co_args o)) as [cs|] eqn:Ec; [|discriminate].
  destruct (override ms cs) as [cs'|] eqn:Eo; [|discriminate].
  pose proof (Hover _ _ _ Eo (consumed_offered ms cs Ec)) as Hcs.
  destruct (build_fits hasr ts B b_default b_from c Hbc cs' Hcs) as (st & Est & _). rewrite Est.
  destruct (co_output o) as [so eo|ty eo] eqn:Eout.
  - unfold one_shot. pose proof (builder_runs hasr ts B b_default b_from b_try_from c Hbc V ctx from_slice W ops Hops cs' st w Hcs Est) as Hr.
    destruct (send B b_try_from V ctx from_slice W ops c st w) as ((f & ?) & w'). cbn [fst] in Hr.
    destruct f as [[rv|e]| |]; [destruct so|destruct eo| |]; try discriminate. now destruct Hr.
  - pose proof (oo_output _ _ _ _ _ _ Hoc) as Hout. rewrite Eout in Hout. inversion Hout as [|? ? ? ? Hst _ _ _ _ _]. subst.
    unfold listing. destruct (bc_stream c) as [resets|]; [|now destruct Hst]. destruct (limit_of nonzero ms) as [n|]; [|discriminate].
    match goal with |- context[list_loop ?p ?e ?a ?b ?s ?v] => pose proof (list_loop_runs p e a b s v) as Hr; destruct (list_loop p e a b s v) as ((f & cbs) & w') end.
    exact Hr.
Qed.
End World.
End Runs.

(** Proofs about parsing command lines and executing commands. *)
From Verif Require Import Base ClientModel MethodModel OpModel RunModel BuilderModel BuilderSpec SanitizeModel
  SanitizeSpec ParamProofs CliModel CliSpec CliProofs.
From Coq Require Import Permutation Sorted.
Local Open Scope N_scope.

(** ** clap *)

Section Clap.
Variable parse_value : value_parser -> str -> option value.

Lemma find_arg_some args n a : find_arg args n = Some a -> In a args /\ cl_id a = n.
Proof. intro H. apply find_some in H as [H1 H2]. apply str_eqb_spec in H2. auto. Qed.

Lemma find_arg_in args a : NoDup (map cl_id args) -> In a args -> find_arg args (cl_id a) = Some a.
Proof.
  unfold find_arg. induction args as [|b args IH]; cbn; [easy|]. intros Hn [->|Hi].
  - now rewrite str_eqb_refl.
  - inversion Hn; subst. destruct (str_eqb (cl_id b) (cl_id a)) eqn:E; auto.
    apply str_eqb_spec in E. exfalso. apply H1. rewrite E. now apply in_map.
Qed.

Lemma given_ids_in {A} (l : list (str * A)) n : given_ids l n = true <-> In n (map fst l).
Proof.
  unfold given_ids. destruct (assoc n l) eqn:E.
  - split; auto. intros _. apply assoc_In in E. apply (in_map fst) in E. exact E.
  - apply assoc_none_in in E. split; [discriminate|easy].
Qed.

Lemma parse_given_ids args given : forall ms, parse_given parse_value args given = Some ms ->
  map fst ms = map fst given /\ NoDup (map fst given).
Proof.
  induction given as [|[n text] r IH]; intros ms H; cbn [parse_given] in H.
  - injection H as <-. split; auto. constructor.
  - destruct (find_arg args n) as [a|]; [|discriminate]. destruct (parse_given parse_value args r) as [ms'|]; [|discriminate].
    destruct (given_ids r n) eqn:E; [discriminate|]. destruct (parse_value (cl_parser a) text) as [v|]; [|discriminate].
    injection H as <-. destruct (IH _ eq_refl) as [H1 H2]. cbn. split; [now f_equal|]. constructor; auto.
    intro Hi. apply given_ids_in in Hi. congruence.
Qed.

Lemma parse_given_found args given : forall ms, parse_given parse_value args given = Some ms ->
  forall n ty v, In (n, (ty, v)) ms -> supplies parse_value args given n ty v.
Proof.
  induction given as [|[n text] r IH]; intros ms H; cbn [parse_given] in H.
  - injection H as <-. easy.
  - destruct (find_arg args n) as [a|] eqn:Ea; [|discriminate]. destruct (parse_given parse_value args r) as [ms'|]; [|discriminate].
    destruct (given_ids r n) eqn:E; [discriminate|]. destruct (parse_value (cl_parser a) text) as [v|] eqn:Ev; [|discriminate].
    injection H as <-. intros n' ty v' [[= <- <- <-]|Hi].
    + apply find_arg_some in Ea as [Ha1 Ha2]. exists a, text. repeat split; auto. now left.
    + destruct (IH _ eq_refl _ _ _ Hi) as (b & t & H1 & H2 & H3 & H4 & H5). exists b, t. repeat split; auto. now right.
Qed.

Lemma parse_given_total args given : NoDup (map cl_id args) -> NoDup (map fst given) ->
  (forall n text, In (n, text) given -> exists ty v, supplies parse_value args given n ty v) ->
  exists ms, parse_given parse_value args given = Some ms.
Proof.
  intros Hargs Hn Hs.
  assert (Hs' : forall n text, In (n, text) given -> exists a v, In a args /\ cl_id a = n /\ parse_value (cl_parser a) text = Some v).
  { intros n text Hi. destruct (Hs n text Hi) as (ty & v & a & t & H1 & H2 & H3 & H4 & _). exists a, v. repeat split; auto.
    replace text with t; auto. apply (assoc_nodup_In n given t) in H3; auto. apply (assoc_nodup_In n given text) in Hi; auto. congruence. }
  clear Hs. revert Hn Hs'. induction given as [|[n text] r IH]; intros Hn Hs; [eexists; reflexivity|].
  cbn in Hn. inversion Hn as [|? ? Hni Hn']; subst.
  destruct IH as (ms & Ems); auto. { intros n' t' Hi. apply Hs. now right. }
  destruct (Hs n text (or_introl eq_refl)) as (a & v & Ha & En & Ev). cbn [parse_given].
  rewrite <- En, (find_arg_in _ _ Hargs Ha), Ems.
  replace (given_ids r (cl_id a)) with false.
  2:{ symmetry. destruct (given_ids r (cl_id a)) eqn:E; auto. apply given_ids_in in E. now rewrite En in E. }
  rewrite Ev. eauto.
Qed.

Lemma clap_parse_iff args given : NoDup (map cl_id args) ->
  ((exists ms, clap_parse parse_value args given = Some ms) <-> acceptable_line parse_value args given).
Proof.
  intro Hargs. unfold clap_parse. split.
  - intros (ms & H). destruct (parse_given parse_value args given) as [ms'|] eqn:E; [|discriminate].
    destruct (forallb (satisfied ms') args) eqn:F; [|discriminate].
    rewrite forallb_forall in F. pose proof (parse_given_ids _ _ _ E) as [H1 H2].
    split; auto. split; [|split].
    + intros n text Hi. assert (Hn : In n (map fst ms')). { rewrite H1. now apply (in_map fst) in Hi. }
      apply in_map_iff in Hn as ((n' & ty & v) & E' & Hn). cbn in E'. subst n'.
      exists ty, v. now apply (parse_given_found _ _ _ E).
    + intros a Ha Ev. apply F in Ha. unfold satisfied in Ha. rewrite Ev in Ha. rewrite <- H1. now apply given_ids_in.
    + intros a Ha Ev. apply F in Ha. unfold satisfied in Ha. rewrite Ev in Ha. rewrite <- H1.
      apply orb_true_iff in Ha as [Ha|Ha]; apply given_ids_in in Ha; auto.
  - intros (H1 & H2 & H3 & H4). destruct (parse_given_total args given Hargs H1 H2) as (ms & E). rewrite E.
    replace (forallb (satisfied ms) args) with true; [eauto|]. symmetry. apply forallb_forall. intros a Ha.
    pose proof (parse_given_ids _ _ _ E) as [H5 _]. unfold satisfied. destruct (cl_vol a) eqn:Ev; auto.
    + apply given_ids_in. rewrite H5. auto.
    + apply orb_true_iff. rewrite !given_ids_in, H5. auto.
Qed.

Lemma clap_parse_found args given ms n ty v : NoDup (map cl_id args) -> clap_parse parse_value args given = Some ms ->
  (assoc n ms = Some (ty, v) <-> supplies parse_value args given n ty v).
Proof.
  intros Hargs H. unfold clap_parse in H. destruct (parse_given parse_value args given) as [ms'|] eqn:E; [|discriminate].
  destruct (forallb _ _); [|discriminate]. injection H as ->. pose proof (parse_given_ids _ _ _ E) as [H1 H2].
  pose proof (parse_given_found _ _ _ E) as Hf. split.
  - intro Ha. apply assoc_In in Ha. auto.
  - intros (a & text & Ha & En & Hi & Ev & ->). assert (Hn : In n (map fst ms)). { rewrite H1. now apply (in_map fst) in Hi. }
    apply in_map_iff in Hn as ((n' & ty & v') & E' & Hn). cbn in E'. subst n'.
    destruct (Hf _ _ _ Hn) as (b & text' & Hb & Eb & Hi' & Ev' & Ety).
    assert (a = b). { pose proof (find_arg_in _ _ Hargs Ha) as F1. pose proof (find_arg_in _ _ Hargs Hb) as F2. congruence. }
    subst b. assert (text = text'). { apply (assoc_nodup_In n given text) in Hi; auto. apply (assoc_nodup_In n given text') in Hi'; auto. congruence. }
    subst text'. rewrite Ev in Ev'. injection Ev' as <-. subst ty. apply assoc_nodup_In; auto. now rewrite H1.
Qed.

Lemma clap_parse_required args given ms a : clap_parse parse_value args given = Some ms -> In a args ->
  cl_vol a = VoRequired -> assoc (cl_id a) ms <> None.
Proof.
  intros H Ha Ev. unfold clap_parse in H. destruct (parse_given parse_value args given) as [ms'|]; [|discriminate].
  destruct (forallb (satisfied ms') args) eqn:F; [|discriminate]. injection H as ->. rewrite forallb_forall in F.
  apply F in Ha. unfold satisfied in Ha. rewrite Ev in Ha. unfold given_ids in Ha. destruct (assoc _ _); easy.
Qed.

(** The value found has the type of its argument. *)
Lemma clap_parse_type args given ms a ty v : NoDup (map cl_id args) -> clap_parse parse_value args given = Some ms ->
  In a args -> assoc (cl_id a) ms = Some (ty, v) -> ty = parser_type (cl_parser a).
Proof.
  intros Hargs H Ha E. apply (clap_parse_found _ _ _ _ _ _ Hargs H) in E as (b & text & Hb & Eb & _ & _ & ->).
  pose proof (find_arg_in _ _ Hargs Ha) as F1. pose proof (find_arg_in _ _ Hargs Hb) as F2. congruence.
Qed.
End Clap.

Lemma get_one_typed ms ty n : (forall ty' v, assoc n ms = Some (ty', v) -> ty' = ty) ->
  get_one ms ty n = match option_map snd (assoc n ms) with Some v => GotSome v | None => GotNone end.
Proof.
  intro H. unfold get_one. destruct (assoc n ms) as [[ty' v]|] eqn:E; auto. cbn.
  rewrite (H _ _ eq_refl), str_eqb_refl. reflexivity.
Qed.

Lemma parser_type_of n vol desc ct : parser_type (cl_parser (make_clap_arg n vol desc ct)) = ct_ident ct.
Proof. cbn. destruct (simple_variants _); reflexivity. Qed.

Lemma sorted_perm_unique {A} (R : A -> A -> Prop) : (forall x, ~ R x x) -> (forall x y z, R x y -> R y z -> R x z) ->
  forall l l', Permutation l l' -> StronglySorted R l -> StronglySorted R l' -> l = l'.
Proof.
  intros Hi Ht. induction l as [|x l IH]; intros l' Hp H1 H2.
  - apply Permutation_nil in Hp. now subst.
  - destruct l' as [|y l']; [now apply Permutation_sym, Permutation_nil in Hp|].
    inversion H1 as [|? ? H1' F1]; inversion H2 as [|? ? H2' F2]; subst. rewrite Forall_forall in F1, F2.
    assert (x = y).
    { assert (Hx : In x (y :: l')) by (apply (Permutation_in _ Hp); now left).
      assert (Hy : In y (x :: l)) by (apply (Permutation_in _ (Permutation_sym Hp)); now left).
      destruct Hx as [|Hx]; auto. destruct Hy as [|Hy]; auto. exfalso. apply (Hi x). apply (Ht x y x); auto. }
    subst y. f_equal. apply IH; auto. now apply Permutation_cons_inv in Hp.
Qed.

(** ** Consumers *)

Section Run.
Variable U : unicode.
Variable types : type_id -> option type_info.
Variable ctypes : type_id -> option cli_type.
Hypothesis Hcases : forall c, lowercase U c = true -> uppercase U c = false.
Hypothesis Hdash : alphanumeric U (ch "-") = false.
Variable parse_value : value_parser -> str -> option value.
Variable B : Type.
Variable b_default : type_id -> B.
Variable b_from : type_id -> value -> B.
Variable b_try_from : type_id -> B -> result value str.
Variable b_set : str -> value -> B -> B.
Variable read_json : str -> value -> option value.
Notation kebab := (to_kebab_case U).

(** What a well-typed statement does. *)
Definition consumer_id (c : consumer) : str := match c with CoParam _ id _ => id | CoProp _ id _ => id end.
Definition consumer_type (c : consumer) : str := match c with CoParam ty _ _ => ty | CoProp ty _ _ => ty end.
Definition calls_of (ms : list (str * (str * value))) (c : consumer) : list (setter_call B) :=
  match option_map snd (assoc (consumer_id c) ms) with
  | None => []
  | Some v => match c with
              | CoParam _ _ fn => [CallSet fn (ROk v)]
              | CoProp _ _ fn => [CallBodyMap (b_set fn v)]
              end
  end.

Lemma consume_calls ms c : (forall ty v, assoc (consumer_id c) ms = Some (ty, v) -> ty = consumer_type c) ->
  consume B b_set ms c = Some (calls_of ms c).
Proof.
  intro H. unfold calls_of. destruct c as [ty id fn|ty id fn]; cbn in *; rewrite get_one_typed by exact H;
    destruct (option_map snd (assoc id ms)); reflexivity.
Qed.

Lemma consume_all_calls ms cs :
  (forall c, In c cs -> forall ty v, assoc (consumer_id c) ms = Some (ty, v) -> ty = consumer_type c) ->
  consume_all B b_set ms cs = Some (flat_map (calls_of ms) cs).
Proof.
  induction cs as [|c r IH]; intro H; cbn; auto. rewrite consume_calls, IH; auto.
  - intros c' Hc'. apply H. now right.
  - apply H. now left.
Qed.

Lemma calls_set ms cs n conv : In (CallSet n conv) (flat_map (calls_of ms) cs) ->
  exists ty id v, In (CoParam ty id n) cs /\ option_map snd (assoc id ms) = Some v /\ conv = ROk v.
Proof.
  rewrite in_flat_map. intros (c & Hc & Hi). unfold calls_of in Hi.
  destruct (option_map snd (assoc (consumer_id c) ms)) as [v|] eqn:E; [|easy].
  destruct c as [ty id fn|ty id fn]; destruct Hi as [Hi|[]]; [|discriminate]. injection Hi as <- <-. exists ty, id, v. auto.
Qed.

Lemma flat_map_nil {A C} (f : A -> list C) l : (forall a, In a l -> f a = []) -> flat_map f l = [].
Proof. induction l as [|a l IH]; cbn; auto. intro H. rewrite H, IH; auto. Qed.

(** The only statement for the setter [fn] is [c]. *)
Lemma latest_param ms cs ty id fn extra :
  In (CoParam ty id fn) cs ->
  (forall ty' id', In (CoParam ty' id' fn) cs -> id' = id) ->
  NoDup (map consumer_id cs) ->
  (forall conv, ~ In (CallSet fn conv) extra) ->
  latest fn (flat_map (calls_of ms) cs ++ extra)
    (option_map (fun v => ROk v) (option_map snd (assoc id ms))).
Proof.
  intros Hi Hu Hn He. apply in_split in Hi as (a & b & ->). rewrite map_app in Hn. cbn in Hn.
  assert (Ha : forall ty', ~ In (CoParam ty' id fn) (a ++ b)).
  { intros ty' H. apply NoDup_remove_2 in Hn. apply Hn. rewrite <- map_app. now apply (in_map consumer_id) in H. }
  assert (Hno : forall l, incl l (a ++ b) -> forall conv, ~ In (CallSet fn conv) (flat_map (calls_of ms) l)).
  { intros l Hl conv H. apply calls_set in H as (ty' & id' & v & Hc & _ & _). apply Hl in Hc.
    assert (id' = id). { apply (Hu ty'). apply in_app_iff in Hc. apply in_app_iff. cbn. tauto. } subst id'. now apply (Ha ty'). }
  rewrite flat_map_app. cbn [flat_map]. unfold calls_of at 2. cbn [consumer_id].
  destruct (option_map snd (assoc id ms)) as [v|]; cbn [option_map app].
  - rewrite <- app_assoc. cbn [app]. apply la_last. intros conv' H. apply in_app_iff in H as [H|H].
    + now apply (Hno b (incl_appr _ (incl_refl _)) conv').
    + now apply (He conv').
  - apply la_never. intros conv H. rewrite !in_app_iff in H. destruct H as [[H|H]|H].
    + now apply (Hno a (incl_appl _ (incl_refl _)) conv).
    + now apply (Hno b (incl_appr _ (incl_refl _)) conv).
    + now apply (He conv).
Qed.

Lemma latest_none ms cs fn extra : (forall ty id, ~ In (CoParam ty id fn) cs) -> (forall conv, ~ In (CallSet fn conv) extra) ->
  latest fn (flat_map (calls_of ms) cs ++ extra) None.
Proof.
  intros Hc He. apply la_never. intros conv H. apply in_app_iff in H as [H|H]; [|now apply (He conv)].
  apply calls_set in H as (ty & id & v & H & _). now apply (Hc ty id).
Qed.

Lemma mapped_app (a b : list (setter_call B)) x : mapped (a ++ b) x = mapped b (mapped a x).
Proof. revert x. induction a as [|[n c|f] a IH]; intro x; cbn; auto. Qed.

(** ** An accepted command line *)

Section Accepted.
Variable m : op_method.
Variable a : cli_args.
Variable given : list (str * str).
Variable ms : list (str * (str * value)).
Hypothesis Hargs : cli_method_args U ctypes m = Ok a.
Hypothesis Hok : cli_ok U types ctypes m a.
Hypothesis Hms : clap_parse parse_value (cg_parsers a) given = Some ms.

Definition typed_consumer (c : consumer) : Prop :=
  exists b, In b (cg_parsers a) /\ cl_id b = consumer_id c /\ parser_type (cl_parser b) = consumer_type c.

Inductive statement (params : list op_param) (own : list prop_info) : consumer -> Prop :=
| sm_param p ct t : In p params -> p_typ p = PType t -> ctypes t = Some ct ->
    statement params own (CoParam (ct_ident ct) (kebab (p_name p)) (p_name p))
| sm_prop pr ct : In pr own -> value_type ctypes (pr_type pr) ct ->
    statement params own (CoProp (ct_ident ct) (kebab (pr_name pr)) (sanitize U (pr_name pr) Snake)).

(** The statements, with the parameters and properties they come from. *)
Lemma statements : exists params own props rest taken,
  kept (has_argument m) (m_params m) params /\ Forall2 (fun p n => argument_name U (p_name p) n) params taken
  /\ body_properties ctypes m props /\ divided U ctypes taken props own rest
  /\ NoDup (map consumer_id (cg_consumers a))
  /\ Forall typed_consumer (cg_consumers a)
  /\ Forall (statement params own) (cg_consumers a)
  /\ (forall p, In p params -> exists t ct, p_typ p = PType t /\ ctypes t = Some ct
        /\ In (CoParam (ct_ident ct) (kebab (p_name p)) (p_name p)) (cg_consumers a)
        /\ exists b, In b (cg_parsers a) /\ argument_for U ctypes m p b /\ cl_id b = kebab (p_name p))
  /\ exists own', Permutation own' own /\ StronglySorted (by_argument U) own' /\
       Forall2 (fun pr c => exists ct, value_type ctypes (pr_type pr) ct /\
                  c = CoProp (ct_ident ct) (kebab (pr_name pr)) (sanitize U (pr_name pr) Snake))
         own' (filter (fun c => match c with CoProp _ _ _ => true | _ => false end) (cg_consumers a)).
Proof.
  destruct (cli_method_args_ok U ctypes Hcases Hdash m a Hargs) as [params props own rest newp newpr args body H1 H2 H3 H4 H5 H6 H7 H8 H9 _].
  exists params, own, props, rest, (map fst newp). split; auto. split.
  { clear - H2 Hcases Hdash. induction H2 as [|p e ps es (t & ct & _ & _ & ->) _ IH]; constructor; auto. cbn. now apply (kebab_name U Hcases Hdash). }
  split; auto. split; auto.
  assert (Hpar : forall e, In e newp -> exists p, In p params /\ param_made U ctypes m p e).
  { clear - H2. intros e He. induction H2 as [|p e' ps es Hp _ IH]; [easy|]. destruct He as [<-|He].
    - exists p. split; auto. now left.
    - destruct (IH He) as (q & Hq & Hm). exists q. split; auto. now right. }
  assert (Hpr : forall e, In e newpr -> exists pr, In pr own /\ prop_made U ctypes pr e).
  { clear - H5. intros e He. induction H5 as [|p e' ps es Hp _ IH]; [easy|]. destruct He as [<-|He].
    - exists p. split; auto. now left.
    - destruct (IH He) as (q & Hq & Hm). exists q. split; auto. now right. }
  assert (Hpin : forall p, In p params -> In p (m_params m) /\ has_argument m p). { intros p Hp. now apply (kept_in _ _ _ p H1) in Hp. }
  assert (Hst : forall e, In e args -> statement params own (ca_consumer (snd e))
    /\ consumer_id (ca_consumer (snd e)) = fst e /\ cl_id (ca_parser (snd e)) = fst e
    /\ parser_type (cl_parser (ca_parser (snd e))) = consumer_type (ca_consumer (snd e))).
  { intros e He. apply (Permutation_in _ H6) in He. apply in_app_iff in He as [He|He].
    - destruct (Hpar e He) as (p & Hp & t & ct & Et & Ec & ->). cbn -[cl_parser].
      rewrite (ck_names _ _ _ _ _ Hok p) by (now apply Hpin). split; [now apply (sm_param params own p ct t)|].
      split; auto. split; auto. apply parser_type_of.
    - destruct (Hpr e He) as (pr & Hp & ct & Et & Ec & ->). cbn -[cl_parser]. split; [now apply sm_prop|].
      split; auto. split; auto. apply parser_type_of. }
  rewrite H9. split; [|split; [|split; [|split]]].
  - rewrite map_map. rewrite (map_ext_in _ fst).
    + now apply sorted_nodup.
    + intros e He. now apply Hst.
  - apply Forall_map, Forall_forall. intros e He. exists (ca_parser (snd e)). destruct (Hst e He) as (_ & E1 & E2 & E3).
    split; [|split]; auto; [|congruence]. rewrite H8. apply in_app_iff. left. now apply in_map with (f := fun ka => ca_parser (snd ka)).
  - apply Forall_map, Forall_forall. intros e He. now apply Hst.
  - intros p Hp. assert (He : exists e, In e newp /\ param_made U ctypes m p e).
    { clear - H2 Hp. induction H2 as [|q e' ps es Hq _ IH]; [easy|]. destruct Hp as [->|Hp].
      - exists e'. split; auto. now left.
      - destruct (IH Hp) as (e & He & Hm). exists e. split; auto. now right. }
    destruct He as (e & He & Hm). destruct (Hpin p Hp) as [Hpm Hha].
    assert (Hb := made_argument U ctypes Hcases Hdash m p e (proj1 Hha) Hm). destruct Hb as [Hb1 Hb2].
    destruct Hm as (t & ct & Et & Ec & Ee). exists t, ct. split; auto. split; auto.
    assert (Hea : In e args). { apply (Permutation_in _ (Permutation_sym H6)). apply in_app_iff. auto. }
    split.
    + apply in_map_iff. exists e. split; auto. rewrite Ee. cbn. now rewrite (ck_names _ _ _ _ _ Hok p).
    + exists (ca_parser (snd e)). split; [|split]; auto.
      * rewrite H8. apply in_app_iff. left. now apply in_map with (f := fun ka => ca_parser (snd ka)).
      * rewrite Hb2, Ee. reflexivity.
  - assert (Hf : Permutation (filter (fun e : str * cli_arg => match ca_consumer (snd e) with CoProp _ _ _ => true | _ => false end) args) newpr).
    { rewrite (filter_perm _ _ _ H6), filter_app.
      replace (filter _ newp) with (@nil (str * cli_arg)).
      2:{ clear - H2. induction H2 as [|p e ps es (t & ct & _ & _ & ->) _ IH]; auto. }
      replace (filter _ newpr) with newpr; [reflexivity|].
      clear - H5. induction H5 as [|p e ps es (t & _ & _ & ->) _ IH]; auto. cbn. now f_equal. }
    assert (Hp2 : forall l l', Permutation l l' -> forall o, Forall2 (prop_made U ctypes) o l' ->
      exists o', Permutation o' o /\ Forall2 (prop_made U ctypes) o' l).
    { clear. induction 1 as [|x l l' Hp IH|x y l|l l' l'' Hp1 IH1 Hp2 IH2]; intros o Ho.
      - inversion Ho; subst. exists []. auto.
      - inversion Ho as [|q ? o1 ? Hq Ho1]; subst. destruct (IH _ Ho1) as (o' & G1 & G2). exists (q :: o'). auto.
      - inversion Ho as [|q ? o1 ? Hq Ho1]; subst. inversion Ho1 as [|q' ? o2 ? Hq' Ho2]; subst.
        exists (q' :: q :: o2). split; [apply perm_swap|]. auto.
      - destruct (IH2 _ Ho) as (o1 & G1 & G2). destruct (IH1 _ G2) as (o2 & G3 & G4). exists o2. split; auto. now rewrite G3. }
    destruct (Hp2 _ _ Hf own H5) as (own' & G1 & G2). exists own'. split; auto. rewrite and_comm.
    assert (Ef : filter (fun c => match c with CoProp _ _ _ => true | _ => false end) (map (fun ka : str * cli_arg => ca_consumer (snd ka)) args)
      = map (fun ka => ca_consumer (snd ka)) (filter (fun e : str * cli_arg => match ca_consumer (snd e) with CoProp _ _ _ => true | _ => false end) args)).
    { clear. induction args as [|e r IH]; cbn; auto. rewrite IH. destruct (ca_consumer (snd e)) eqn:Ee; cbn; rewrite ?Ee; reflexivity. }
    rewrite Ef. split.
    2:{ assert (Hsf : StronglySorted key_lt (filter (fun e : str * cli_arg => match ca_consumer (snd e) with CoProp _ _ _ => true | _ => false end) args)).
      { clear - H7. induction H7 as [|e l _ IH Hall]; cbn; [constructor|]. destruct (ca_consumer (snd e)); auto. constructor; auto.
        rewrite Forall_forall in *. intros x Hx. apply filter_In in Hx as [Hx _]. auto. }
      clear - G2 Hsf Hcases Hdash. induction G2 as [|pr e o l (ct & Hv & _ & ->) G2 IH]; [constructor|].
      inversion Hsf as [|? ? Hsf' Hall]; subst. constructor; auto. clear - Hall G2 Hcases Hdash.
      induction G2 as [|pr' e' o l (ct' & Hv' & _ & ->) G2 IH]; constructor.
      - inversion Hall as [|? ? Hlt _]; subst. exists (kebab (pr_name pr)), (kebab (pr_name pr')).
        split; [now apply (kebab_name U Hcases Hdash)|]. split; [now apply (kebab_name U Hcases Hdash)|]. exact Hlt.
      - apply IH. now inversion Hall. }
    clear - G2. induction G2 as [|pr e o l (ct & Hv & _ & ->) _ IH]; cbn; auto. constructor; auto. exists ct. auto.
Qed.

(** The value of the argument [n] on this command line. *)
Notation arg n := (option_map snd (assoc n ms)).

Lemma line_arg n : on_line parse_value (cg_parsers a) given n (arg n).
Proof.
  destruct (assoc n ms) as [[ty v]|] eqn:E; cbn.
  - apply (clap_parse_found _ _ _ _ _ _ _ (ck_ids _ _ _ _ _ Hok) Hms) in E. now apply (ol_given _ _ _ _ ty).
  - apply ol_absent. unfold clap_parse in Hms. destruct (parse_given parse_value (cg_parsers a) given) as [ms'|] eqn:Eg; [|discriminate].
    destruct (forallb _ _); [|discriminate]. injection Hms as ->. apply parse_given_ids in Eg as [Eg _]. rewrite <- Eg.
    now apply assoc_none_in.
Qed.

Lemma line_unique n o : on_line parse_value (cg_parsers a) given n o -> o = arg n.
Proof.
  intros [ty v Hs|Hn].
  - apply (clap_parse_found _ _ _ _ _ _ _ (ck_ids _ _ _ _ _ Hok) Hms) in Hs. now rewrite Hs.
  - pose proof (line_arg n) as H. inversion H as [ty v (b & text & _ & _ & Hi & _) E|_ E]; auto.
    exfalso. apply Hn. now apply (in_map fst) in Hi.
Qed.

(** What [--json-body] is read as. *)
Definition json_value : option value :=
  match cg_json a, arg (lit "json-body") with
  | Some ty, Some path => read_json ty path
  | _, _ => None
  end.
Definition json_calls : list (setter_call B) :=
  match json_value with Some v => [CallSet (lit "body") (ROk v)] | None => [] end.
(** The file can be read. *)
Hypothesis Hread : forall ty path, cg_json a = Some ty -> arg (lit "json-body") = Some path -> read_json ty path <> None.

Lemma json_parser ty : cg_json a = Some ty -> exists b t ct, In b (cg_parsers a) /\ cl_id b = lit "json-body"
  /\ cl_parser b = VpType (lit "::std::path::PathBuf") /\ body_of m (Some (PType t)) /\ ctypes t = Some ct /\ ty = ct_ident ct
  /\ ((forall prs, ct_details ct <> CdStruct prs) -> cl_vol b = VoRequired).
Proof.
  intro E. destruct (cli_method_args_ok U ctypes Hcases Hdash m a Hargs) as [params props own rest newp newpr args body H1 H2 H3 H4 H5 H6 H7 H8 H9 H10].
  destruct (body_type_id m) as [t|] eqn:Eb.
  - destruct H10 as (ct & Et & Ej & Hn & Hr). apply body_type_spec in Eb. assert (ty = ct_ident ct) by congruence.
    destruct body; [easy| |].
    + eexists (ClapArg _ _ _ _), t, ct. split; [rewrite H8; apply in_app_iff; right; left; reflexivity|]. cbn. repeat split; auto.
    + eexists (ClapArg _ _ _ _), t, ct. split; [rewrite H8; apply in_app_iff; right; left; reflexivity|]. cbn. repeat split; auto.
      intro Hns. exfalso. assert (BaOptional = BaRequired) by (apply Hr; auto). discriminate.
  - destruct H10 as (_ & Ej). congruence.
Qed.

Lemma consumed_calls : consumed B b_set read_json ms a = Some (flat_map (calls_of ms) (cg_consumers a) ++ json_calls).
Proof.
  destruct statements as (params & own & props & rest & taken & _ & HT & _ & _ & _ & H5 & _).
  unfold consumed. rewrite consume_all_calls.
  - unfold consume_json, json_calls, json_value. destruct (cg_json a) as [ty|] eqn:Ej; auto.
    rewrite get_one_typed.
    + pose proof (Hread ty) as Hr. destruct (arg (lit "json-body")) as [path|] eqn:Ea; auto.
      destruct (read_json ty path) eqn:Er; auto. exfalso. apply (Hr path); auto.
    + intros ty' v E. destruct (json_parser ty Ej) as (b & t & ct & Hb & Eb & Ep & _).
      rewrite <- Eb in E. rewrite (clap_parse_type _ _ _ _ _ _ _ (ck_ids _ _ _ _ _ Hok) Hms Hb E), Ep. reflexivity.
  - intros c Hc ty v E. rewrite Forall_forall in H5. destruct (H5 c Hc) as (b & Hb & Eb & Et).
    rewrite <- Eb in E. rewrite <- Et. now apply (clap_parse_type _ _ _ _ _ _ _ (ck_ids _ _ _ _ _ Hok) Hms Hb E).
Qed.

Notation cs := (flat_map (calls_of ms) (cg_consumers a) ++ json_calls).

Lemma not_nested p : (forall ct, p_kind p <> KBody ct) -> forall t, ~ nested types p t.
Proof. intros Hk t ((ct & E) & _). now apply (Hk ct). Qed.

Lemma json_body_param v : json_value = Some v -> exists p t ct, In p (m_params m) /\ p_kind p = KBody ct /\ p_typ p = PType t /\ p_name p = lit "body".
Proof.
  unfold json_value. destruct (cg_json a) as [ty|] eqn:Ej; [|discriminate]. intros _.
  destruct (json_parser ty Ej) as (b & t & ct & _ & _ & _ & Hb & _).
  inversion Hb as [|pre p post k E Ek Hpre Et]. exists p, t, k. assert (Hi : In p (m_params m)) by (rewrite E; apply in_app_iff; right; now left).
  repeat split; auto. now apply (ck_body _ _ _ _ _ Hok p k).
Qed.

Lemma named_unique p q : In p (m_params m) -> In q (m_params m) -> p_name p = p_name q -> p = q.
Proof.
  intros Hp Hq E. destruct (ck_builder _ _ _ _ _ Hok) as [Hnd _]. revert Hp Hq E Hnd. generalize (m_params m) as l. clear.
  induction l as [|x l IH]; cbn; [easy|]. intros Hp Hq E Hnd. inversion Hnd as [|? ? Hn Hnd']; subst.
  destruct Hp as [->|Hp], Hq as [->|Hq]; auto.
  - exfalso. apply Hn. rewrite E. now apply in_map.
  - exfalso. apply Hn. rewrite <- E. now apply in_map.
Qed.

Lemma json_calls_other p : In p (m_params m) -> (forall ct, p_kind p <> KBody ct) -> forall conv, ~ In (CallSet (p_name p) conv) json_calls.
Proof.
  intros Hp Hk conv. unfold json_calls. destruct json_value as [v|] eqn:E; [|easy]. intros [H|[]]. injection H as En _.
  destruct (json_body_param v E) as (q & t & ct & Hq & Ek & _ & Eq). assert (p = q). { apply named_unique; auto. congruence. }
  subst q. now apply (Hk ct).
Qed.

Lemma legal_calls : Forall (legal_call types m) cs.
Proof.
  destruct statements as (params & own & props & rest & taken & H1 & HT & H2 & H3 & _ & _ & H6 & _).
  apply Forall_app. split.
  - apply Forall_forall. intros c Hc. apply in_flat_map in Hc as (s & Hs & Hc). rewrite Forall_forall in H6. apply H6 in Hs.
    unfold calls_of in Hc. destruct Hs as [p ct t Hp _ _|pr ct Hp Hv]; cbn [consumer_id] in Hc.
    + destruct (arg (kebab (p_name p))); [|easy]. destruct Hc as [<-|[]]. cbn. apply in_map. now apply (kept_in _ _ _ p H1) in Hp.
    + destruct (arg (kebab (pr_name pr))); [|easy]. destruct Hc as [<-|[]]. cbn. assert (Hne : props <> []). { intros ->. inversion H3; subst. easy. }
      destruct H2 as [t ct' prs Hb Et Ed|t ct' Hb Et Hn|Hb|Hb]; try easy.
      inversion Hb as [|pre p post k E Ek Hpre Ep]. exists p, t. assert (Hi : In p (m_params m)) by (rewrite E; apply in_app_iff; right; now left).
      split; auto. split; [eauto|]. split; auto. destruct (ck_types _ _ _ _ _ Hok t ct' Et) as (i & Ei & Hbi). exists i. split; auto. apply Hbi. eauto.
  - unfold json_calls. destruct json_value as [v|] eqn:E; constructor; [|constructor]. cbn.
    destruct (json_body_param v E) as (p & t & ct & Hp & _ & _ & <-). now apply in_map.
Qed.

(** A parameter with an argument gets what the argument is given. *)
Lemma param_gives p n : In p (m_params m) -> has_argument m p -> argument_name U (p_name p) n ->
  gives types b_default b_from b_try_from cs p (ROk (arg n)).
Proof.
  intros Hp Hh Hn. apply (kebab_name U Hcases Hdash) in Hn as <-.
  destruct statements as (params & own & props & rest & taken & H1 & HT & _ & _ & H4 & _ & H6 & H7 & _).
  assert (Hpk : In p params). { now apply (kept_in _ _ _ p H1). }
  destruct (H7 p Hpk) as (t & ct & Et & Ec & Hc & b & Hb & Ha & Eb).
  assert (Hl : latest (p_name p) cs (option_map (fun v => ROk v) (arg (kebab (p_name p))))).
  { apply (latest_param ms _ (ct_ident ct) (kebab (p_name p)) (p_name p)); auto.
    - intros ty' id' Hi. rewrite Forall_forall in H6. apply H6 in Hi. inversion Hi as [q ? ? Hq|]; subst.
    match goal with E : p_name q = _ |- _ => rename E into E3 end.
      now rewrite E3.
    - apply json_calls_other; auto. apply Hh. }
  destruct (arg (kebab (p_name p))) as [v|] eqn:Ea; cbn [option_map] in Hl.
  - apply gi_value; auto. apply not_nested, Hh.
  - destruct (is_optional (p_kind p)) eqn:Eo.
    + apply gi_absent; auto. apply not_nested, Hh.
    + exfalso. assert (Hr : api_requires m p).
      { unfold is_optional in Eo. apply negb_false_iff in Eo. destruct Hh as [Hk _]. unfold api_requires.
        destruct (p_kind p) as [|[]|[]|k]; cbn in Eo; auto; try discriminate. now destruct (Hk k). }
      apply (af_required _ _ _ _ _ Ha) in Hr. apply (clap_parse_required _ _ _ _ _ Hms Hb) in Hr. rewrite Eb in Hr.
      destruct (assoc (kebab (p_name p)) ms); [discriminate|easy].
Qed.

(** An optional parameter without one gets nothing. *)
Lemma param_gives_nothing p : In p (m_params m) -> (forall ct, p_kind p <> KBody ct) -> ~ has_argument m p -> is_optional (p_kind p) = true ->
  gives types b_default b_from b_try_from cs p (ROk None).
Proof.
  intros Hp Hk Hh Ho.
  destruct statements as (params & own & props & rest & taken & H1 & HT & _ & _ & H4 & _ & H6 & H7 & _).
  apply gi_absent; auto; [now apply not_nested|]. apply latest_none.
  - intros ty id Hi. rewrite Forall_forall in H6. apply H6 in Hi. inversion Hi as [q ? ? Hq|]; subst.
    match goal with E : p_name q = _ |- _ => rename E into E3 end.
    apply (kept_in _ _ _ q H1) in Hq as [Hq Hhq]. apply Hh. replace p with q; auto. now apply named_unique.
  - now apply json_calls_other.
Qed.

(** The body. *)
Lemma body_param p t : In p (m_params m) -> (exists k, p_kind p = KBody k) -> p_typ p = PType t -> body_of m (Some (PType t)).
Proof.
  intros Hp (k & Ek) Et. pose proof (body_of_cases m) as H. destruct (find _ _) as [q|] eqn:E.
  - apply find_some in E as [Hq Eq]. destruct (p_kind q) as [| | |k'] eqn:Ekq; try discriminate.
    assert (p = q). { apply named_unique; auto. rewrite (ck_body _ _ _ _ _ Hok p k), (ck_body _ _ _ _ _ Hok q k'); auto. }
    subst q. now rewrite Et in H.
  - exfalso. now apply (find_body_none _ E p k).
Qed.

Lemma body_json p t ct : In p (m_params m) -> (exists k, p_kind p = KBody k) -> p_typ p = PType t -> ctypes t = Some ct ->
  cg_json a = Some (ct_ident ct).
Proof.
  intros Hp Hk Et Ec. pose proof (body_param p t Hp Hk Et) as Hb. apply body_type_spec in Hb.
  destruct (cli_method_args_ok U ctypes Hcases Hdash m a Hargs) as [params props own rest newp newpr args body _ _ _ _ _ _ _ _ _ H10].
  rewrite Hb in H10. destruct H10 as (ct' & Ec' & Ej & _). congruence.
Qed.

Lemma no_body_setter p k : In p (m_params m) -> p_kind p = KBody k -> forall ty id, ~ In (CoParam ty id (lit "body")) (cg_consumers a).
Proof.
  intros Hp Ek ty id Hi.
  destruct statements as (params & own & props & rest & taken & H1 & HT & _ & _ & _ & _ & H6 & _).
  rewrite Forall_forall in H6. apply H6 in Hi. inversion Hi as [q ? ? Hq|]; subst.
    match goal with E : p_name q = _ |- _ => rename E into E3 end.
  apply (kept_in _ _ _ q H1) in Hq as [Hq [Hkq _]]. assert (p = q). { apply named_unique; auto. rewrite (ck_body _ _ _ _ _ Hok p k); auto. }
  subst q. now apply (Hkq k).
Qed.

Lemma body_given_struct p t ct path v : In p (m_params m) -> nested types p t -> ctypes t = Some ct ->
  arg (lit "json-body") = Some path -> read_json (ct_ident ct) path = Some v ->
  body_after types b_default b_from p t cs (ROk (b_from t v)).
Proof.
  intros Hp (Hk & Et & _) Ec Ea Er. unfold json_calls, json_value. rewrite (body_json p t ct), Ea, Er by auto.
  exact (ba_set types b_default b_from p t _ v [] (fun _ H => H)).
Qed.

Lemma body_given_plain p t ct path v : In p (m_params m) -> (exists k, p_kind p = KBody k) -> p_typ p = PType t -> (forall t', ~ nested types p t') -> ctypes t = Some ct ->
  arg (lit "json-body") = Some path -> read_json (ct_ident ct) path = Some v ->
  gives types b_default b_from b_try_from cs p (ROk (Some v)).
Proof.
  intros Hp Hk Et Hn Ec Ea Er. apply gi_value; auto. destruct Hk as (k & Ek). unfold json_calls, json_value.
  rewrite (body_json p t ct), Ea, Er by eauto. rewrite (ck_body _ _ _ _ _ Hok p k) by auto.
  exact (la_last (lit "body") _ (ROk v) [] (fun _ H => H)).
Qed.

(** Without it, a body that is no structure would be missing, so it is required. *)
Lemma body_plain_given p t ct : In p (m_params m) -> (exists k, p_kind p = KBody k) -> p_typ p = PType t -> ctypes t = Some ct ->
  (forall prs, ct_details ct <> CdStruct prs) -> exists path v, arg (lit "json-body") = Some path /\ read_json (ct_ident ct) path = Some v.
Proof.
  intros Hp Hk Et Ec Hn. pose proof (body_json p t ct Hp Hk Et Ec) as Ej.
  destruct (json_parser _ Ej) as (b & t' & ct' & Hb & Eb & _ & Hbo & Ec' & _ & Hr).
  assert (t' = t). { pose proof (body_of_unique m _ _ Hbo (body_param p t Hp Hk Et)) as E. congruence. } subst t'.
  assert (ct' = ct) by congruence. subst ct'. apply Hr in Hn. apply (clap_parse_required _ _ _ _ _ Hms Hb) in Hn. rewrite Eb in Hn.
  destruct (assoc (lit "json-body") ms) as [[ty path]|] eqn:Ea; [|easy]. exists path. cbn.
  destruct (read_json (ct_ident ct) path) as [v|] eqn:Er.
  { eauto. } exfalso. now apply (Hread (ct_ident ct) path).
Qed.

(** Without it, the properties with arguments are set. *)
Definition set_given (b : B) (pr : prop_info) : B :=
  match arg (kebab (pr_name pr)) with
  | Some v => b_set (sanitize U (pr_name pr) Snake) v b
  | None => b
  end.

Lemma filled_set prs : forall b, filled U (on_line parse_value (cg_parsers a) given) b_set prs b (fold_left set_given prs b).
Proof.
  induction prs as [|pr prs IH]; intro b; cbn [fold_left]; [constructor|]. unfold set_given at 2.
  destruct (arg (kebab (pr_name pr))) as [v|] eqn:E.
  - apply (fl_given _ _ _ pr (kebab (pr_name pr)) v); auto; [now apply (kebab_name U Hcases Hdash)|]. rewrite <- E. apply line_arg.
  - apply (fl_absent _ _ _ pr (kebab (pr_name pr))); auto; [now apply (kebab_name U Hcases Hdash)|]. rewrite <- E. apply line_arg.
Qed.

Lemma mapped_props own' cons :
  Forall2 (fun pr c => exists ct, value_type ctypes (pr_type pr) ct /\
                  c = CoProp (ct_ident ct) (kebab (pr_name pr)) (sanitize U (pr_name pr) Snake))
         own' (filter (fun c => match c with CoProp _ _ _ => true | _ => false end) cons) ->
  forall b, mapped (flat_map (calls_of ms) cons) b = fold_left set_given own' b.
Proof.
  revert own'. induction cons as [|[ty id fn|ty id fn] cons IH]; intros own' H b; cbn [filter flat_map] in *.
  - inversion H; subst. reflexivity.
  - rewrite mapped_app. unfold calls_of at 2. cbn [consumer_id]. destruct (arg id); cbn [mapped]; auto.
  - inversion H as [|pr c o l (ct & _ & Ec) H']; subst. injection Ec as -> -> ->. rewrite mapped_app. cbn [fold_left].
    rewrite <- (IH o) by auto. f_equal. unfold calls_of, set_given. cbn [consumer_id]. destruct (arg (kebab (pr_name pr))); reflexivity.
Qed.

Lemma body_not_given p t : In p (m_params m) -> nested types p t -> arg (lit "json-body") = None ->
  exists own rest own' b, own_properties U ctypes m own rest /\ Permutation own' own /\ StronglySorted (by_argument U) own'
    /\ filled U (on_line parse_value (cg_parsers a) given) b_set own' (b_default t) b
    /\ body_after types b_default b_from p t cs (ROk b).
Proof.
  intros Hp ((k & Ek) & Et & _) Ea. pose proof (no_body_setter p k Hp Ek) as Hno.
  destruct statements as (params & own & props & rest & taken & H1 & HT & H2 & H3 & H4 & _ & H6 & H7 & own' & H8 & HS & H9).
  exists own, rest, own', (fold_left set_given own' (b_default t)). split; [|split; [|split; [|split]]]; auto.
  { now apply (op_intro _ _ _ _ _ params taken props). }
  { apply filled_set. }
  rewrite <- (mapped_props own' (cg_consumers a) H9).
  assert (E : json_calls = []). { unfold json_calls, json_value. rewrite Ea. destruct (cg_json a); reflexivity. }
  rewrite E, app_nil_r. apply ba_never. intros conv Hi. apply calls_set in Hi as (ty & id & v & Hi & _). now apply (Hno ty id).
Qed.

(** *** All parameters *)

Lemma by_argument_irrefl pr : ~ by_argument U pr pr.
Proof.
  intros (na & nb & H1 & H2 & H3). apply (kebab_name U Hcases Hdash) in H1, H2. subst. now rewrite str_cmp_refl in H3.
Qed.
Lemma by_argument_trans x y z : by_argument U x y -> by_argument U y z -> by_argument U x z.
Proof.
  intros (nx & ny & H1 & H2 & H3) (ny' & nz & H4 & H5 & H6). exists nx, nz. split; auto. split; auto.
  apply (kebab_name U Hcases Hdash) in H2, H4. rewrite <- H4, H2 in H6. exact (str_cmp_lt_trans _ _ _ H3 H6).
Qed.

Lemma filled_unique prs : forall b b1 b2, filled U (on_line parse_value (cg_parsers a) given) b_set prs b b1 ->
  filled U (on_line parse_value (cg_parsers a) given) b_set prs b b2 -> b1 = b2.
Proof.
  induction prs as [|pr prs IH]; intros b b1 b2 H1 H2; inversion H1 as [|? n1 v1 ? ? ? N1 O1 F1|? n1 ? ? ? N1 O1 F1];
    inversion H2 as [|? n2 v2 ? ? ? N2 O2 F2|? n2 ? ? ? N2 O2 F2]; subst; auto;
    apply (kebab_name U Hcases Hdash) in N1, N2; apply line_unique in O1, O2; subst n1 n2; rewrite <- O1 in O2; try discriminate.
  - injection O2 as ->. eauto.
  - eauto.
Qed.

Lemma body_properties_unique x y : body_properties ctypes m x -> body_properties ctypes m y -> x = y.
Proof.
  intros [t ct prs Hb Et Ed|t ct Hb Et Hn|Hb|Hb] [t' ct' prs' Hb' Et' Ed'|t' ct' Hb' Et' Hn'|Hb'|Hb'];
    pose proof (body_of_unique m _ _ Hb Hb') as E; try discriminate; try injection E as <-; auto; try congruence;
    rewrite Et in Et'; injection Et' as <-; exfalso; eauto.
Qed.

Lemma divided_unique prs : forall taken own rest own' rest', divided U ctypes taken prs own rest -> divided U ctypes taken prs own' rest' -> own = own' /\ rest = rest'.
Proof.
  induction prs as [|pr prs IH]; intros taken own rest own' rest' H1 H2;
    inversion H1 as [|? n1 ? ? ? S1 N1 I1 D1|? n1 ? ? ? N1 I1 D1]; inversion H2 as [|? n2 ? ? ? S2 N2 I2 D2|? n2 ? ? ? N2 I2 D2]; subst; auto;
    apply (kebab_name U Hcases Hdash) in N1, N2; subst n1 n2.
  - destruct (IH _ _ _ _ _ D1 D2) as [-> ->]. auto.
  - tauto.
  - tauto.
  - destruct (IH _ _ _ _ _ D1 D2) as [-> ->]. auto.
Qed.

Lemma kept_unique {A} (P : A -> Prop) l : forall x y, kept P l x -> kept P l y -> x = y.
Proof.
  induction l as [|e l IH]; intros x y Hx Hy; inversion Hx; inversion Hy; subst; auto; try easy. f_equal. auto.
Qed.

Lemma own_properties_unique own rest own' rest' : own_properties U ctypes m own rest -> own_properties U ctypes m own' rest' -> own = own'.
Proof.
  intros [params taken props K T P D] [params' taken' props' K' T' P' D'].
  pose proof (kept_unique _ _ _ _ K K') as E. subst params'. pose proof (body_properties_unique _ _ P P') as E. subst props'.
  assert (taken = taken').
  { clear - T T' Hcases Hdash. revert taken' T'. induction T as [|p n ps ns N _ IH]; intros ns' T'; inversion T' as [|? n' ? ? N' T1]; subst; auto.
    apply (kebab_name U Hcases Hdash) in N, N'. subst. f_equal. auto. }
  subst taken'. now apply (divided_unique _ _ _ _ _ _ D D').
Qed.

Lemma line_gives_gives p o : In p (m_params m) -> (forall q, In q (m_params m) -> p_name q = lit "page_token" -> m_paginated m <> None -> is_optional (p_kind q) = true) ->
  line_gives U ctypes b_default b_from b_try_from b_set read_json parse_value m (cg_parsers a) given p o ->
  gives types b_default b_from b_try_from cs p (ROk o).
Proof.
  intros Hp Htok [n o' Hh Hn Ho|Hk Hh|k t ct path v Ek Et Ec Hns Ho Er|k t ct prs path v v' Ek Et Ec Ed Ho Er Ev|k t ct prs own rest own' b v Ek Et Ec Ed Ho Hpr Hperm Hsort Hfill Ev].
  - rewrite (line_unique _ _ Ho). now apply param_gives.
  - apply param_gives_nothing; auto. unfold has_argument in Hh.
    destruct (list_eq_dec N.eq_dec (p_name p) (lit "page_token")) as [En|En]; [|exfalso; tauto].
    apply Htok; auto. intro E. apply Hh. split; auto. intros [Hc _]. auto.
  - apply line_unique in Ho. apply (body_given_plain p t ct path v); eauto.
    intros t' (_ & Et' & i & Ei & Eb). rewrite Et in Et'. injection Et' as <-.
    destruct (ck_types _ _ _ _ _ Hok t ct Ec) as (i' & Ei' & Hi). rewrite Ei in Ei'. injection Ei' as <-.
    apply Hi in Eb as (prs & Eb). now apply (Hns prs).
  - apply line_unique in Ho. assert (Hn : nested types p t).
    { split; [eauto|]. split; auto. destruct (ck_types _ _ _ _ _ Hok t ct Ec) as (i & Ei & Hi). exists i. split; auto. apply Hi. eauto. }
    apply (gi_body _ _ _ _ _ _ t (b_from t v)); auto. apply (body_given_struct p t ct path); auto.
  - apply line_unique in Ho. assert (Hn : nested types p t).
    { split; [eauto|]. split; auto. destruct (ck_types _ _ _ _ _ Hok t ct Ec) as (i & Ei & Hi). exists i. split; auto. apply Hi. eauto. }
    destruct (body_not_given p t Hp Hn (eq_sym Ho)) as (own1 & rest1 & own1' & b1 & G1 & G2 & G3 & G4 & G5).
    rewrite (own_properties_unique _ _ _ _ G1 Hpr) in G2.
    assert (own1' = own').
    { apply (sorted_perm_unique (by_argument U)); auto using by_argument_irrefl; [apply by_argument_trans|now rewrite G2, Hperm]. }
    subst own1'. rewrite (filled_unique _ _ _ _ G4 Hfill) in G5. now apply (gi_body _ _ _ _ _ _ t b).
Qed.

(** A raw body is never given. *)
Lemma raw_body_missing p k : In p (m_params m) -> p_kind p = KBody k -> p_typ p = PRawBody ->
  gives types b_default b_from b_try_from cs p (RErr (lit "body was not initialized")).
Proof.
  intros Hp Ek Et. change (lit "body was not initialized") with (lit "body" ++ lit " was not initialized").
  rewrite <- (ck_body _ _ _ _ _ Hok p k Hp Ek). apply gi_missing.
  - intros t (_ & Et' & _). congruence.
  - apply latest_none.
    + rewrite (ck_body _ _ _ _ _ Hok p k Hp Ek). now apply (no_body_setter p k).
    + intros conv. unfold json_calls. destruct json_value as [v|] eqn:E; [|easy]. intros [H|[]].
      destruct (json_body_param v E) as (q & t & k' & Hq & Ekq & Etq & Eq). assert (p = q).
      { apply named_unique; auto. rewrite (ck_body _ _ _ _ _ Hok p k), Eq; auto. }
      subst q. congruence.
  - now rewrite Ek.
Qed.
End Accepted.
End Run.

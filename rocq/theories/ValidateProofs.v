(** Proofs about the operations of a document and its validation. *)
From Coq Require Import Sorted.
From Verif Require Import Base OasModel MethodModel OpModel SanitizeModel GenerateModel GenerateSpec.

(** ** Listing the operations *)

Definition verbs : list http_method := [Get; Put; Post; Delete; Options; Head; Patch; Trace].

Definition item_ops (k : nat) (path : str) (i : path_item) : list doc_op :=
  flat_map (fun m => match operation_at i m with
                     | Some o => [DocOp k path m o (pi_parameters i)] | None => [] end) verbs.

Lemma path_item_iter_ops k path i :
  path_item_iter i = map (fun e => (http_method_str (do_method e), do_op e)) (item_ops k path i).
Proof.
  unfold path_item_iter, item_ops.
  change [(lit "get", pi_get i); (lit "put", pi_put i); (lit "post", pi_post i);
     (lit "delete", pi_delete i); (lit "options", pi_options i); (lit "head", pi_head i);
     (lit "patch", pi_patch i); (lit "trace", pi_trace i)]
    with (map (fun m => (http_method_str m, operation_at i m)) verbs).
  induction verbs as [|m l IH]; auto. cbn [map flat_map fst snd].
  rewrite IH, map_app. f_equal. now destruct (operation_at i m).
Qed.

Lemma in_verbs m : In m verbs.
Proof. destruct m; cbn; auto 20. Qed.

Lemma in_item_ops k path i e : In e (item_ops k path i) <->
  do_index e = k /\ do_path e = path /\ operation_at i (do_method e) = Some (do_op e)
  /\ do_params e = pi_parameters i.
Proof.
  unfold item_ops. rewrite in_flat_map. split.
  - intros (m & _ & H). destruct (operation_at i m) eqn:E; [|easy].
    destruct H as [<-|[]]. now repeat split.
  - intros (H1 & H2 & H3 & H4). exists (do_method e). split; [apply in_verbs|].
    rewrite H3. left. destruct e; cbn in *; congruence.
Qed.

Lemma sorted_verbs : StronglySorted (fun m n => verb_rank m < verb_rank n) verbs.
Proof.
  repeat (apply SSorted_cons; [|repeat (apply Forall_cons; [cbn; lia|]); apply Forall_nil]).
  apply SSorted_nil.
Qed.

Lemma strongly_app {A} (R : A -> A -> Prop) l1 l2 :
  StronglySorted R l1 -> StronglySorted R l2 ->
  (forall a b, In a l1 -> In b l2 -> R a b) -> StronglySorted R (l1 ++ l2).
Proof.
  induction 1 as [|a l1 H IH Ha]; cbn; auto. intros H2 Hc. constructor.
  - apply IH; auto.
  - apply Forall_app. split; auto. apply Forall_forall. auto.
Qed.

Lemma strongly_flat_map {A B} (R : A -> A -> Prop) (S : B -> B -> Prop) (f : A -> list B) l :
  StronglySorted R l -> (forall a, StronglySorted S (f a)) ->
  (forall a b x y, R a b -> In x (f a) -> In y (f b) -> S x y) -> StronglySorted S (flat_map f l).
Proof.
  intros H Hf Hc. induction H as [|a l H IH Ha]; cbn; [constructor|].
  apply strongly_app; auto. intros x y Hx Hy. apply in_flat_map in Hy as (b & Hb & Hy).
  rewrite Forall_forall in Ha. eauto.
Qed.

Lemma sorted_item_ops k path i : StronglySorted before (item_ops k path i).
Proof.
  unfold item_ops. eapply strongly_flat_map; [exact sorted_verbs| |].
  - intro m. destruct (operation_at i m); repeat constructor.
  - intros m n x y Hr Hx Hy. cbn in Hr.
    destruct (operation_at i m); [|easy]. destruct (operation_at i n); [|easy].
    destruct Hx as [<-|[]], Hy as [<-|[]]. right. auto.
Qed.

Fixpoint doc_ops (k : nat) (paths : list (str * ref_or path_item)) : list doc_op :=
  match paths with
  | [] => []
  | (_, Ref _) :: r => doc_ops (S k) r
  | (path, Item i) :: r => item_ops k path i ++ doc_ops (S k) r
  end.

Lemma in_doc_ops paths : forall k e, In e (doc_ops k paths) <->
  exists j i, do_index e = k + j /\ nth_error paths j = Some (do_path e, Item i)
              /\ operation_at i (do_method e) = Some (do_op e) /\ do_params e = pi_parameters i.
Proof.
  induction paths as [|[path [r|i]] l IH]; intros k e; cbn [doc_ops].
  - split; [easy|]. intros ([|j] & i & _ & H & _); discriminate.
  - rewrite IH. split.
    + intros (j & i & H1 & H2). exists (S j), i. split; [lia|auto].
    + intros ([|j] & i & H1 & H2 & H3); [discriminate|]. exists j, i. split; [lia|auto].
  - rewrite in_app_iff, IH, in_item_ops. split.
    + intros [(H1 & H2 & H3)|(j & i' & H1 & H2)].
      * exists O, i. cbn. split; [lia|]. split; [congruence|auto].
      * exists (S j), i'. split; [lia|auto].
    + intros ([|j] & i' & H1 & H2 & H3).
      * left. cbn in H2. injection H2 as <- <-. split; [lia|auto].
      * right. exists j, i'. split; [lia|auto].
Qed.

Lemma doc_ops_index paths k e : In e (doc_ops k paths) -> k <= do_index e.
Proof. intro H. apply in_doc_ops in H as (j & i & H & _). lia. Qed.

Lemma sorted_doc_ops paths : forall k, StronglySorted before (doc_ops k paths).
Proof.
  induction paths as [|[path [r|i]] l IH]; intros k; cbn [doc_ops]; auto; [constructor|].
  apply strongly_app; auto using sorted_item_ops. intros a b Ha Hb.
  apply in_item_ops in Ha as (Ha & _). apply doc_ops_index in Hb. left. lia.
Qed.

Lemma doc_ops_in_order d : operations_in_order d (doc_ops 0 (oa_paths d)).
Proof.
  split; [|apply sorted_doc_ops]. intro e. rewrite in_doc_ops. unfold in_document. split.
  - intros (j & i & H1 & H2 & H3). exists i. cbn in H1. subst j. auto.
  - intros (i & H). exists (do_index e), i. auto.
Qed.

(** The order determines the list. *)
Lemma before_irrefl e : ~ before e e.
Proof. unfold before. lia. Qed.
Lemma before_trans e f g : before e f -> before f g -> before e g.
Proof. unfold before. lia. Qed.

Lemma sorted_unique {A} (R : A -> A -> Prop) (Hi : forall a, ~ R a a)
    (Ht : forall a b c, R a b -> R b c -> R a c) : forall l1 l2,
  StronglySorted R l1 -> StronglySorted R l2 -> (forall x, In x l1 <-> In x l2) -> l1 = l2.
Proof.
  induction l1 as [|a l1 IH]; intros l2 H1 H2 Heq.
  - destruct l2 as [|b l2]; auto. destruct (proj2 (Heq b)); now left.
  - destruct l2 as [|b l2]; [destruct (proj1 (Heq a)); now left|].
    inversion H1 as [|? ? S1 F1]; subst. inversion H2 as [|? ? S2 F2]; subst.
    rewrite Forall_forall in F1, F2.
    assert (a = b) as ->.
    { destruct (proj1 (Heq a) (or_introl eq_refl)) as [|Ha]; auto.
      destruct (proj2 (Heq b) (or_introl eq_refl)) as [|Hb]; auto.
      exfalso. apply (Hi a). eauto. }
    f_equal. apply IH; auto. intro x. split; intro Hx.
    + destruct (proj1 (Heq x) (or_intror Hx)) as [<-|]; auto. exfalso. apply (Hi b). auto.
    + destruct (proj2 (Heq x) (or_intror Hx)) as [<-|]; auto. exfalso. apply (Hi b). auto.
Qed.

Lemma in_order_unique d l : operations_in_order d l -> l = doc_ops 0 (oa_paths d).
Proof.
  intros [H1 H2]. destruct (doc_ops_in_order d) as [H3 H4].
  apply (sorted_unique before before_irrefl before_trans); auto.
  intro x. rewrite H1, H3. reflexivity.
Qed.

(** ** The version *)

Section Validate.
Variable U : unicode.

Lemma trim_start_spec s : exists ws, s = ws ++ trim_start U s
  /\ Forall (fun c => whitespace U c = true) ws
  /\ match trim_start U s with c :: _ => whitespace U c = false | [] => True end.
Proof.
  induction s as [|c s (ws & H1 & H2 & H3)]; cbn.
  - exists []. auto.
  - destruct (whitespace U c) eqn:E.
    + exists (c :: ws). cbn. rewrite <- H1. auto.
    + exists []. cbn. rewrite E. auto.
Qed.

Lemma starts_with_spec p s : starts_with p s = true <-> exists r, s = p ++ r.
Proof.
  revert s; induction p as [|x p IH]; intros s; cbn.
  - split; eauto.
  - destruct s as [|y s]; [split; [easy|intros [r [=]]]|].
    rewrite andb_true_iff, N.eqb_eq, IH. split.
    + intros [-> [r ->]]. eauto.
    + intros [r [= -> ->]]. eauto.
Qed.

Definition trim_end (s : str) : str := rev (trim_start U (rev s)).

Lemma trim_end_spec s : exists ws, s = trim_end s ++ ws
  /\ Forall (fun c => whitespace U c = true) ws.
Proof.
  unfold trim_end. destruct (trim_start_spec (rev s)) as (ws & H1 & H2 & _).
  exists (rev ws). split; [|now apply Forall_rev].
  rewrite <- rev_app_distr, <- H1. now rewrite rev_involutive.
Qed.

Lemma trim_start_ws ws s : Forall (fun c => whitespace U c = true) ws ->
  trim_start U (ws ++ s) = trim_start U s.
Proof. induction 1 as [|c ws H _ IH]; cbn; auto. now rewrite H. Qed.

Lemma trim_start_app s t : (exists c, In c s /\ whitespace U c = false) ->
  trim_start U (s ++ t) = trim_start U s ++ t.
Proof.
  induction s as [|c s IH]; intros (x & Hx & Hw); [easy|]. cbn.
  destruct (whitespace U c) eqn:E; auto. apply IH.
  destruct Hx as [<-|Hx]; [congruence|eauto].
Qed.

Hypothesis space3 : whitespace U (ch "3") = false.
Hypothesis space_dot : whitespace U (ch ".") = false.

Lemma version_ok v : starts_with (lit "3.0.") (trim U v) = true <-> supported_version U v.
Proof.
  rewrite starts_with_spec. unfold supported_version. split.
  - intros [r H]. destruct (trim_start_spec v) as (ws & H1 & H2 & _).
    destruct (trim_end_spec (trim_start U v)) as (ws' & H3 & _).
    unfold trim in H. fold (trim_end (trim_start U v)) in H. rewrite H in H3.
    exists ws, (r ++ ws'). split; auto. rewrite H1 at 1. rewrite H3. now rewrite <- app_assoc.
  - intros (ws & rest & -> & Hws). unfold trim. rewrite trim_start_ws by auto.
    change (lit "3.0." ++ rest) with (ch "3" :: lit ".0." ++ rest). cbn [trim_start].
    rewrite space3. change (ch "3" :: lit ".0." ++ rest) with ((lit "3.0" ++ [ch "."]) ++ rest).
    rewrite rev_app_distr.
    destruct (trim_start_spec (rev rest)) as (ws' & E1 & E2 & E3).
    rewrite E1, <- app_assoc, trim_start_ws by auto.
    destruct (trim_start U (rev rest)) as [|c t] eqn:Et.
    + cbn [app]. rewrite rev_app_distr. cbn [rev app trim_start]. rewrite space_dot.
      exists []. reflexivity.
    + cbn [app trim_start]. rewrite E3. exists (rev (c :: t)).
      change (c :: t ++ ?x) with ((c :: t) ++ x). rewrite rev_app_distr, rev_involutive.
      reflexivity.
Qed.

(** ** Paths and operations *)

Inductive event := EvRef (k : nat) (path : str) | EvOp (e : doc_op).

Fixpoint check (evs : list event) (seen : list str) : outcome (list str) :=
  match evs with
  | [] => Ok seen
  | EvRef _ path :: _ =>
      Err (UnexpectedFormat (lit "path " ++ path ++ lit " uses reference, unsupported"))
  | EvOp e :: r =>
      match op_id (do_op e) with
      | Some x => if mem x seen then Err (UnexpectedFormat (lit "duplicate operation ID: " ++ x))
                  else check r (x :: seen)
      | None => Err (UnexpectedFormat (lit "path " ++ do_path e ++ lit " is missing operation ID"))
      end
  end.

Fixpoint events (k : nat) (paths : list (str * ref_or path_item)) : list event :=
  match paths with
  | [] => []
  | (path, Ref _) :: r => EvRef k path :: events (S k) r
  | (path, Item i) :: r => map EvOp (item_ops k path i) ++ events (S k) r
  end.

Lemma check_app l1 : forall l2 seen,
  check (l1 ++ l2) seen = do s <- check l1 seen; check l2 s.
Proof.
  induction l1 as [|[k p|e] l1 IH]; intros l2 seen; cbn; auto.
  destruct (op_id (do_op e)) as [x|]; auto. destruct (mem x seen); auto.
Qed.

Lemma validate_operations_check path l : forall seen, Forall (fun e => do_path e = path) l ->
  validate_operations path (map (fun e => (http_method_str (do_method e), do_op e)) l) seen
  = check (map EvOp l) seen.
Proof.
  induction l as [|e l IH]; intros seen H; cbn; auto. inversion H as [|? ? He Hl]; subst.
  destruct (op_id (do_op e)) as [x|]; auto. destruct (mem x seen); auto.
Qed.

Lemma validate_paths_check paths : forall k seen,
  validate_paths paths seen = check (events k paths) seen.
Proof.
  induction paths as [|[path [r|i]] l IH]; intros k seen; cbn [validate_paths events]; auto.
  rewrite check_app, (path_item_iter_ops k path), validate_operations_check.
  - destruct (check (map EvOp (item_ops k path i)) seen); cbn; auto.
  - apply Forall_forall. intros e H. apply in_item_ops in H. tauto.
Qed.

Definition ev_pos (ev : event) : nat * nat :=
  match ev with EvRef k _ => (k, O) | EvOp e => (do_index e, verb_rank (do_method e)) end.
Definition ev_lt (a b : event) : Prop :=
  fst (ev_pos a) < fst (ev_pos b)
  \/ fst (ev_pos a) = fst (ev_pos b) /\ snd (ev_pos a) < snd (ev_pos b).

Lemma in_events_op paths : forall k e, In (EvOp e) (events k paths) <-> In e (doc_ops k paths).
Proof.
  induction paths as [|[path [r|i]] l IH]; intros k e; cbn [events doc_ops]; [reflexivity| |].
  - cbn. rewrite IH. split; [intros [H|H]; [discriminate|auto]|auto].
  - rewrite !in_app_iff, IH, in_map_iff. split; intros [H|H]; auto.
    + destruct H as (x & [= ->] & H). auto.
    + left. eauto.
Qed.

Lemma in_events_ref paths : forall k n path, In (EvRef n path) (events k paths) <->
  exists j r, n = k + j /\ nth_error paths j = Some (path, Ref r).
Proof.
  induction paths as [|[p [r|i]] l IH]; intros k n path; cbn [events].
  - split; [easy|]. intros ([|j] & r & _ & H); discriminate.
  - cbn. rewrite IH. split.
    + intros [[= <- <-]|(j & r' & -> & H)].
      * exists O, r. split; [lia|auto].
      * exists (S j), r'. split; [lia|auto].
    + intros ([|j] & r' & -> & H).
      * left. injection H as -> ->. f_equal. lia.
      * right. exists j, r'. split; [lia|auto].
  - rewrite in_app_iff, IH. split.
    + intros [H|(j & r' & -> & H)].
      * apply in_map_iff in H as (x & [=] & _).
      * exists (S j), r'. split; [lia|auto].
    + intros ([|j] & r' & -> & H); [discriminate|].
      right. exists j, r'. split; [lia|auto].
Qed.

Lemma events_index paths k ev : In ev (events k paths) -> k <= fst (ev_pos ev).
Proof.
  destruct ev as [n p|e]; intro H.
  - apply in_events_ref in H as (j & r & -> & _). cbn. lia.
  - apply in_events_op, doc_ops_index in H. auto.
Qed.

Lemma sorted_events paths : forall k, StronglySorted ev_lt (events k paths).
Proof.
  induction paths as [|[path [r|i]] l IH]; intros k; cbn [events]; [constructor| |].
  - constructor; auto. apply Forall_forall. intros x Hx. apply events_index in Hx.
    left. cbn. lia.
  - apply strongly_app; auto.
    + generalize (sorted_item_ops k path i). generalize (item_ops k path i).
      induction 1 as [|a l' H IH' Ha]; cbn; constructor; auto.
      apply Forall_map. eapply Forall_impl; [|exact Ha]. intros b Hb. exact Hb.
    + intros a b Ha Hb. apply in_map_iff in Ha as (x & <- & Hx).
      apply in_item_ops in Hx as (Hx & _). apply events_index in Hb. left. cbn. lia.
Qed.

Lemma check_ok evs : forall seen out, check evs seen = Ok out ->
  (forall k p, ~ In (EvRef k p) evs)
  /\ (forall e, In (EvOp e) evs -> exists x, op_id (do_op e) = Some x /\ In x out)
  /\ (forall x, In x seen -> In x out)
  /\ (forall x, In x out -> In x seen \/ exists e, In (EvOp e) evs /\ op_id (do_op e) = Some x).
Proof.
  induction evs as [|[k p|e] evs IH]; intros seen out H; cbn in H; [|discriminate|].
  - injection H as <-. repeat split; auto; try (intros; easy).
  - destruct (op_id (do_op e)) as [x|] eqn:Ex; [|discriminate].
    destruct (mem x seen) eqn:Em; [discriminate|].
    destruct (IH _ _ H) as (H1 & H2 & H3 & H4). split; [|split; [|split]].
    + intros k p [Hk|Hk]; [discriminate|firstorder].
    + intros e' [[= <-]|He]; eauto. exists x. split; auto. apply H3. now left.
    + intros y Hy. apply H3. now right.
    + intros y Hy. destruct (H4 y Hy) as [[<-|Hs]|(e' & He & Hx)]; auto.
      * right. exists e. split; [now left|auto].
      * right. exists e'. split; [now right|auto].
Qed.

Lemma check_no_dup evs : forall seen out, check evs seen = Ok out ->
  forall pre e post, evs = pre ++ EvOp e :: post -> forall x, op_id (do_op e) = Some x ->
  ~ In x seen /\ forall f, In (EvOp f) pre -> op_id (do_op f) <> Some x.
Proof.
  intros seen out H pre e post -> x Hx. rewrite check_app in H.
  destruct (check pre seen) as [s| |] eqn:E; try discriminate. cbn in H. rewrite Hx in H.
  destruct (mem x s) eqn:Em; [discriminate|].
  assert (Hn : ~ In x s).
  { intro Hi. unfold mem in Em. rewrite <- not_true_iff_false in Em. apply Em.
    apply existsb_exists. exists x. split; auto. apply str_eqb_refl. }
  destruct (check_ok _ _ _ E) as (_ & H2 & H3 & _). split; auto.
  intros f Hf Hxf. destruct (H2 f Hf) as (y & Hy & Hi). congruence.
Qed.

Lemma check_err evs : forall seen e, check evs seen = Err e ->
  exists pre ev post out msg, evs = pre ++ ev :: post /\ check pre seen = Ok out
    /\ check [ev] out = Err e /\ e = UnexpectedFormat msg.
Proof.
  induction evs as [|ev evs IH]; intros seen e H; [discriminate|].
  destruct ev as [k p|d].
  - exists [], (EvRef k p), evs, seen. eexists. cbn in H. injection H as <-. auto.
  - cbn in H. destruct (op_id (do_op d)) as [x|] eqn:Ex.
    + destruct (mem x seen) eqn:Em.
      * exists [], (EvOp d), evs, seen. eexists. injection H as <-. cbn. rewrite Ex, Em. auto.
      * destruct (IH _ _ H) as (pre & ev & post & out & msg & -> & H1 & H2 & H3).
        exists (EvOp d :: pre), ev, post, out, msg. cbn. rewrite Ex, Em. auto.
    + exists [], (EvOp d), evs, seen. eexists. injection H as <-. cbn. rewrite Ex. auto.
Qed.

Lemma check_no_panic evs : forall seen m, check evs seen <> Panic m.
Proof.
  induction evs as [|[k p|e] evs IH]; intros seen m; cbn; try easy.
  destruct (op_id (do_op e)); [|easy]. destruct (mem _ _); easy.
Qed.

Lemma mem_spec x l : mem x l = true <-> In x l.
Proof.
  unfold mem. rewrite existsb_exists. split.
  - intros (y & Hy & E). apply str_eqb_spec in E. congruence.
  - intro H. exists x. split; auto. apply str_eqb_refl.
Qed.

Section Doc.
Variable d : openapi.
Let evs := events 0 (oa_paths d).

Lemma in_evs_op e : In (EvOp e) evs <-> in_document d e.
Proof. unfold evs. rewrite in_events_op. apply doc_ops_in_order. Qed.
Lemma in_evs_ref k path : In (EvRef k path) evs <-> exists r, nth_error (oa_paths d) k = Some (path, Ref r).
Proof.
  unfold evs. rewrite in_events_ref. split.
  - intros (j & r & -> & H). eauto.
  - intros (r & H). exists k, r. auto.
Qed.

Lemma sorted_split pre ev post : evs = pre ++ ev :: post ->
  (forall a, In a pre -> ev_lt a ev) /\ (forall b, In b post -> ev_lt ev b).
Proof.
  intro E. pose proof (sorted_events (oa_paths d) 0) as H. fold evs in H. rewrite E in H.
  clear E. induction pre as [|a pre IH]; cbn in H; inversion H as [|? ? S F]; subst.
  - split; [easy|]. now apply Forall_forall.
  - destruct (IH S) as [H1 H2]. split; auto. intros b [<-|Hb]; auto.
    rewrite Forall_forall in F. apply F. apply in_app_iff. right. now left.
Qed.

Lemma ev_lt_irrefl a : ~ ev_lt a a.
Proof. unfold ev_lt. lia. Qed.
Lemma ev_lt_asym a b : ev_lt a b -> ~ ev_lt b a.
Proof. unfold ev_lt. lia. Qed.

(** Something before [ev] in the document is in the part of the list before it. *)
Lemma earlier pre ev post a : evs = pre ++ ev :: post -> In a evs -> ev_lt a ev -> In a pre.
Proof.
  intros E Ha Hl. destruct (sorted_split _ _ _ E) as [_ H2]. rewrite E in Ha.
  apply in_app_iff in Ha as [|[<-|Hb]]; auto.
  - now apply ev_lt_irrefl in Hl.
  - apply H2 in Hb. now apply ev_lt_asym in Hb.
Qed.

Lemma fault_event k r msg : fault d k r msg -> exists ev, In ev evs /\ ev_pos ev = (k, r)
  /\ forall pre post out, evs = pre ++ ev :: post -> check pre [] = Ok out ->
     check [ev] out = Err (UnexpectedFormat msg).
Proof.
  intros [k' path r' H|e H1 H2|e f x H1 H2 H3 H4 H5].
  - exists (EvRef k' path). split; [apply in_evs_ref; eauto|]. split; auto.
  - exists (EvOp e). split; [now apply in_evs_op|]. split; auto. intros. cbn. now rewrite H2.
  - exists (EvOp e). split; [now apply in_evs_op|]. split; auto. intros pre post out E Hp. cbn.
    rewrite H4.
    assert (Hf : In (EvOp f) pre) by (eapply earlier; [exact E|now apply in_evs_op|exact H3]).
    destruct (check_ok _ _ _ Hp) as (_ & Ho & _). destruct (Ho f Hf) as (y & Hy & Hi).
    assert (Em : mem x out = true) by (apply mem_spec; congruence). now rewrite Em.
Qed.

Lemma event_fault pre ev post out msg : evs = pre ++ ev :: post -> check pre [] = Ok out ->
  check [ev] out = Err (UnexpectedFormat msg) -> fault d (fst (ev_pos ev)) (snd (ev_pos ev)) msg.
Proof.
  intros E Hp Hev. assert (Hi : In ev evs) by (rewrite E; apply in_app_iff; right; now left).
  destruct ev as [k p|e]; cbn in Hev.
  - injection Hev as <-. apply in_evs_ref in Hi as (r & Hi). now apply fault_ref with r.
  - apply in_evs_op in Hi. destruct (op_id (do_op e)) as [x|] eqn:Ex.
    + destruct (mem x out) eqn:Em; [|discriminate]. injection Hev as <-.
      apply mem_spec in Em. destruct (check_ok _ _ _ Hp) as (_ & _ & _ & Hs).
      destruct (Hs x Em) as [[]|(f & Hf & Hx)].
      apply fault_duplicate with f; auto.
      * apply in_evs_op. rewrite E. apply in_app_iff. auto.
      * destruct (sorted_split _ _ _ E) as [H1 _]. exact (H1 _ Hf).
    + injection Hev as <-. now apply fault_missing.
Qed.

Lemma check_ok_no_fault out : check evs [] = Ok out -> forall k r msg, ~ fault d k r msg.
Proof.
  intros H k r msg Hf. destruct (fault_event _ _ _ Hf) as (ev & Hi & _ & Hb).
  apply in_split in Hi as (pre & post & E). rewrite E in H.
  rewrite check_app in H. destruct (check pre []) as [s| |] eqn:Es; try discriminate. cbn [obind] in H.
  change (ev :: post) with ([ev] ++ post) in H. rewrite check_app in H.
  rewrite (Hb pre post s E Es) in H. discriminate.
Qed.

Lemma check_err_first e : check evs [] = Err e -> exists k r msg, e = UnexpectedFormat msg
  /\ fault d k r msg /\ forall k' r' msg', fault d k' r' msg' -> k < k' \/ k = k' /\ r <= r'.
Proof.
  intro H. destruct (check_err _ _ _ H) as (pre & ev & post & out & msg & E & Hp & He & ->).
  exists (fst (ev_pos ev)), (snd (ev_pos ev)), msg. split; auto. split; [eauto using event_fault|].
  intros k' r' msg' Hf. destruct (fault_event _ _ _ Hf) as (ev' & Hi & Hpos & Hb).
  rewrite E in Hi. destruct (sorted_split _ _ _ E) as [_ Hs].
  replace k' with (fst (ev_pos ev')) by now rewrite Hpos.
  replace r' with (snd (ev_pos ev')) by now rewrite Hpos.
  apply in_app_iff in Hi as [Hi|[<-|Hi]].
  - exfalso. apply in_split in Hi as (p1 & p2 & ->).
    rewrite check_app in Hp. destruct (check p1 []) as [s| |] eqn:Es; try discriminate. cbn [obind] in Hp.
    change (ev' :: p2) with ([ev'] ++ p2) in Hp. rewrite check_app in Hp.
    rewrite (Hb p1 (p2 ++ ev :: post) s) in Hp; [discriminate| |auto].
    rewrite E, <- app_assoc. reflexivity.
  - right. auto.
  - apply Hs in Hi. unfold ev_lt in Hi. lia.
Qed.

Lemma fault_same k r m1 m2 : fault d k r m1 -> fault d k r m2 -> m1 = m2.
Proof.
  intros H1 H2.
  assert (Hu : forall e f, in_document d e -> in_document d f -> do_index e = do_index f ->
            verb_rank (do_method e) = verb_rank (do_method f) -> e = f).
  { intros e f (i & A1 & A2 & A3) (j & B1 & B2 & B3) Hk Hr.
    rewrite Hk, B1 in A1. injection A1 as A1 ->.
    assert (do_method e = do_method f) as Hm
      by (destruct (do_method e), (do_method f); cbn in Hr; congruence).
    destruct e, f; cbn in *; congruence. }
  assert (Hr : forall e k path r', in_document d e -> nth_error (oa_paths d) k = Some (path, Ref r') ->
            do_index e <> k).
  { intros e k0 path r' (i & A & _) B Hk. congruence. }
  inversion H1 as [k1 p1 r1 A|e1 A1 A2 A3 A4|e1 f1 x1 A1 A2 A3 A4 A5 A6 A7]; subst;
  inversion H2 as [k2 p2 r2 B|e2 B1 B2 B3 B4|e2 f2 x2 B1 B2 B3 B4 B5 B6 B7]; subst;
  try congruence;
  try (exfalso; eapply Hr; [|eassumption|reflexivity]; assumption);
  try (exfalso; eapply Hr; [|eassumption|eassumption]; assumption);
  try (assert (e1 = e2) as <- by (apply Hu; congruence); congruence).
Qed.
End Doc.

Lemma no_fault_valid d : supported_version U (oa_openapi d) ->
  (forall k r msg, ~ fault d k r msg) -> valid_document U d.
Proof.
  intros Hv Hn. split; auto.
  - intros path r Hi. apply In_nth_error in Hi as (k & Hk). eapply Hn. eapply fault_ref, Hk.
  - intros e He Hid. eapply Hn. eapply fault_missing; eauto.
  - intros e f He Hf Hid.
    destruct (op_id (do_op e)) as [x|] eqn:Ee; [|exfalso; eapply Hn; eapply fault_missing; eauto].
    assert (Hc : before e f \/ before f e \/ (do_index e = do_index f
                 /\ verb_rank (do_method e) = verb_rank (do_method f))) by (unfold before; lia).
    destruct Hc as [Hc|[Hc|[Hk Hr]]].
    + exfalso. apply (Hn _ _ _ (fault_duplicate d f e x Hf He Hc (eq_sym Hid) Ee)).
    + exfalso. apply (Hn _ _ _ (fault_duplicate d e f x He Hf Hc Ee (eq_sym Hid))).
    + destruct He as (i & A1 & A2 & A3), Hf as (j & B1 & B2 & B3).
      rewrite Hk, B1 in A1. injection A1 as A1 ->.
      assert (do_method e = do_method f) as Hm
        by (destruct (do_method e), (do_method f); cbn in Hr; congruence).
      destruct e, f; cbn in *; congruence.
Qed.

Lemma valid_no_fault d : valid_document U d -> forall k r msg, ~ fault d k r msg.
Proof.
  intros [V1 V2 V3 V4] k r msg [k' path r' H|e H1 H2|e f x H1 H2 H3 H4 H5].
  - apply nth_error_In in H. exact (V2 _ _ H).
  - exact (V3 _ H1 H2).
  - assert (e = f) as -> by (apply V4; congruence). now apply before_irrefl in H3.
Qed.

Theorem validate_iff d : validate_openapi U d = Ok tt <-> valid_document U d.
Proof.
  unfold validate_openapi, validate_openapi_spec_version.
  rewrite (validate_paths_check (oa_paths d) 0).
  destruct (starts_with (lit "3.0.") (trim U (oa_openapi d))) eqn:Ev; cbn [obind].
  - destruct (check (events 0 (oa_paths d)) []) as [out|e|m] eqn:Ec; cbn [obind].
    + split; auto. intros _. apply no_fault_valid; [now apply version_ok|].
      eapply check_ok_no_fault, Ec.
    + split; [discriminate|]. intro H.
      destruct (check_err_first _ _ Ec) as (k & r & msg & _ & Hf & _).
      now apply (valid_no_fault d H) in Hf.
    + now apply check_no_panic in Ec.
  - split; [discriminate|]. intros [V _ _ _]. apply version_ok in V. congruence.
Qed.

Theorem validate_reports d e : validate_openapi U d = Err e <->
  exists msg, e = UnexpectedFormat msg /\ reported U d msg.
Proof.
  unfold validate_openapi, validate_openapi_spec_version.
  rewrite (validate_paths_check (oa_paths d) 0).
  destruct (starts_with (lit "3.0.") (trim U (oa_openapi d))) eqn:Ev; cbn [obind].
  - assert (Hv : supported_version U (oa_openapi d)) by now apply version_ok.
    destruct (check (events 0 (oa_paths d)) []) as [out|e'|m] eqn:Ec; cbn [obind].
    + split; [discriminate|]. intros (msg & -> & [Hr|k r msg' _ Hf _]); [easy|].
      exfalso. eapply check_ok_no_fault; eauto.
    + destruct (check_err_first _ _ Ec) as (k & r & msg & -> & Hf & Hmin). split.
      * intros [= <-]. exists msg. split; auto. eapply reported_fault; eauto.
      * intros (msg' & -> & Hr). inversion Hr as [Hn|k' r' m' _ Hf' Hmin']; subst; [easy|].
        pose proof (Hmin _ _ _ Hf') as A. pose proof (Hmin' _ _ _ Hf) as B.
        assert (k = k' /\ r = r') as [-> ->] by lia.
        now rewrite (fault_same d k' r' msg msg' Hf Hf').
    + now apply check_no_panic in Ec.
  - assert (Hv : ~ supported_version U (oa_openapi d))
      by (rewrite <- version_ok; congruence).
    split.
    + intros [= <-]. eexists. split; [reflexivity|]. now apply reported_version.
    + intros (msg & -> & Hr). now inversion Hr; subst.
Qed.

Theorem validate_no_panic d m : validate_openapi U d <> Panic m.
Proof.
  unfold validate_openapi, validate_openapi_spec_version.
  rewrite (validate_paths_check (oa_paths d) 0).
  destruct (starts_with _ _); cbn; [|easy].
  destruct (check (events 0 (oa_paths d)) []) eqn:E; cbn; try easy. now apply check_no_panic in E.
Qed.
End Validate.

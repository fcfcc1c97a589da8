(** Proofs about MockModel: regular expressions and the templates they come from. *)
From Coq Require Import ZifyBool ZifyN.
From Verif Require Import Base TemplateModel TemplateSpec TemplateProofs EncodeSpec EncodeProofs MethodModel RunModel
  SanitizeModel MockModel MockSpec.
Local Open Scope N_scope.

(** ** Parsing *)

Definition chars (s : str) : list rx_item := map (fun c => RxOne (RcChar c)) s.
Definition anything : rx_item := RxStar (RcNone [47]).
Definition dots : rx_item := RxStar RcDot.

Lemma plain_step acc c : plain_char c -> rx_step (RmTop, acc) c = Some (RmTop, RxOne (RcChar c) :: acc).
Proof.
  unfold plain_char. change (lit "\.+*?()|[{^$") with [92; 46; 43; 42; 63; 40; 41; 124; 91; 123; 94; 36].
  intro H. cbn in H. unfold rx_step.
  repeat match goal with
  | |- context [c =? ?x] => destruct (N.eqb_spec c x) as [E|_]; [exfalso; apply H; rewrite E; repeat (first [left; reflexivity | right])|]
  end.
  destruct (has_char c (lit "(){|")) eqn:E; [|reflexivity].
  apply has_char_spec in E. change (lit "(){|") with [40; 41; 123; 124] in E. exfalso. apply H. cbn in E. tauto.
Qed.

Lemma rx_steps_plain s r acc : plain_text s ->
  rx_steps (RmTop, acc) (s ++ r) = rx_steps (RmTop, rev (chars s) ++ acc) r.
Proof.
  intro H. revert acc. induction H as [|c s Hc _ IH]; intro acc; [reflexivity|].
  cbn [app rx_steps]. rewrite plain_step by assumption. rewrite IH. cbn [chars map rev].
  now rewrite <- app_assoc.
Qed.

Lemma rx_steps_anything r acc : rx_steps (RmTop, acc) (lit "[^/]*" ++ r) = rx_steps (RmTop, anything :: acc) r.
Proof. reflexivity. Qed.

Lemma rx_steps_dots r acc : rx_steps (RmTop, acc) (lit ".*" ++ r) = rx_steps (RmTop, dots :: acc) r.
Proof. reflexivity. Qed.

(** The text and the items of a template, given those of its placeholders. *)
Definition texts (f : str -> str) (ps : list piece) : str :=
  flat_map (fun p => match p with PLit c => [c] | PVar n => f n end) ps.
Definition item_list (f : str -> list rx_item) (ps : list piece) : list rx_item :=
  flat_map (fun p => match p with PLit c => [RxOne (RcChar c)] | PVar n => f n end) ps.

Lemma rx_steps_texts f g ps : plain_template ps ->
  (forall n r acc, In n (vars ps) -> rx_steps (RmTop, acc) (f n ++ r) = rx_steps (RmTop, rev (g n) ++ acc) r) ->
  forall r acc, rx_steps (RmTop, acc) (texts f ps ++ r) = rx_steps (RmTop, rev (item_list g ps) ++ acc) r.
Proof.
  intros Hp Hf. induction ps as [|[c|n] ps IH]; intros r acc; [reflexivity| |].
  - cbn [texts flat_map item_list app rx_steps]. rewrite plain_step by (apply Hp; now left).
    change (flat_map _ ps) with (texts f ps) at 1. rewrite IH.
    + unfold item_list. cbn [rev]. now rewrite <- app_assoc.
    + intros x Hx. apply Hp. now right.
    + exact Hf.
  - cbn [texts flat_map item_list app]. rewrite <- app_assoc. rewrite Hf by (now left).
    change (flat_map _ ps) with (texts f ps) at 1. rewrite IH.
    + rewrite rev_app_distr. now rewrite <- app_assoc.
    + intros x Hx. apply Hp. now right.
    + intros. apply Hf. now right.
Qed.

Lemma regex_texts f g ps : plain_template ps ->
  (forall n r acc, In n (vars ps) -> rx_steps (RmTop, acc) (f n ++ r) = rx_steps (RmTop, rev (g n) ++ acc) r) ->
  regex_new (lit "^" ++ texts f ps ++ lit "$") = Some (RxBegin :: item_list g ps ++ [RxEnd]).
Proof.
  intros Hp Hf. unfold regex_new.
  change (rx_steps (RmTop, []) (lit "^" ++ ?x)) with (rx_steps (RmTop, [RxBegin]) x).
  rewrite (rx_steps_texts f g ps Hp Hf).
  change (rx_steps (RmTop, ?a) (lit "$")) with (Some (RmTop, RxEnd :: a)). cbn iota.
  cbn [rev]. rewrite rev_app_distr, rev_involutive. cbn [rev app]. reflexivity.
Qed.

(** ** Matching *)

Lemma rx_many_spec k next start s : rx_many k next start s = true <->
  exists v r, s = v ++ r /\ Forall (fun x => rc_has k x = true) v
    /\ next (match v with [] => start | _ => false end) r = true.
Proof.
  revert start. induction s as [|x s IH]; intro start; cbn [rx_many].
  - rewrite orb_false_r. split.
    + intro H. exists [], []. auto.
    + intros (v & r & E & _ & H). symmetry in E. apply app_eq_nil in E as (-> & ->). exact H.
  - rewrite orb_true_iff, andb_true_iff, IH. split.
    + intros [H|(H & v & r & -> & Hv & Hn)].
      * exists [], (x :: s). auto.
      * exists (x :: v), r. repeat split; auto. now destruct v.
    + intros (v & r & E & Hv & Hn). destruct v as [|y v]; cbn in E.
      * subst r. now left.
      * injection E as <- ->. inversion Hv; subst. right. split; auto. exists v, r. repeat split; auto.
        now destruct v.
Qed.

(** A text made of the literals of a template and some texts for its placeholders. *)
Fixpoint fits (P : str -> str -> Prop) (ps : list piece) (s : str) : Prop :=
  match ps with
  | [] => s = []
  | PLit c :: r => exists t, s = c :: t /\ fits P r t
  | PVar n :: r => exists v t, s = v ++ t /\ P n v /\ fits P r t
  end.

(** The items of a placeholder match the texts of [P] and nothing else, wherever they are. *)
Definition matches (g : list rx_item) (Q : str -> Prop) : Prop :=
  forall l start s, (forall b b' t, rx_here l b t = rx_here l b' t) ->
    (rx_here (g ++ l) start s = true <-> exists v t, s = v ++ t /\ Q v /\ rx_here l false t = true).

Lemma matches_star k : matches [RxStar k] (Forall (fun x => rc_has k x = true)).
Proof.
  intros l start s Hl. cbn [app rx_here]. rewrite rx_many_spec. split.
  - intros (v & r & -> & Hv & Hn). exists v, r. repeat split; auto. now rewrite (Hl _ (match v with [] => start | _ => false end)).
  - intros (v & t & -> & Hv & Hn). exists v, t. repeat split; auto. now rewrite (Hl _ false).
Qed.

Lemma matches_chars w : matches (chars w) (eq w).
Proof.
  intros l start s Hl. revert start s. induction w as [|c w IH]; intros start s; cbn [chars map app rx_here].
  - split.
    + intro H. exists [], s. repeat split; auto. now rewrite (Hl _ start).
    + intros (v & t & -> & <- & H). cbn. now rewrite (Hl _ false).
  - unfold rx_once. destruct s as [|x s].
    + split; [discriminate|]. intros (v & t & E & <- & _). discriminate.
    + change (map (fun c => RxOne (RcChar c)) w) with (chars w). rewrite andb_true_iff, IH. cbn [rc_has]. rewrite N.eqb_eq. split.
      * intros (-> & v & t & -> & <- & H). exists (c :: w), t. auto.
      * intros (v & t & E & <- & H). injection E as -> ->. split; auto. exists w, t. auto.
Qed.

Lemma start_irrelevant f ps l : (forall b b' t, rx_here l b t = rx_here l b' t) ->
  (forall n, In n (vars ps) -> exists Q, matches (f n) Q) ->
  forall b b' t, rx_here (item_list f ps ++ l) b t = rx_here (item_list f ps ++ l) b' t.
Proof.
  intros Hl Hf. induction ps as [|[c|n] ps IH]; intros b b' t; [apply Hl| |].
  - reflexivity.
  - cbn [item_list flat_map]. rewrite <- app_assoc. change (flat_map _ ps) with (item_list f ps).
    destruct (Hf n) as (Q & HQ); [now left|].
    assert (HI : forall b b' t, rx_here (item_list f ps ++ l) b t = rx_here (item_list f ps ++ l) b' t).
    { apply IH. intros; apply Hf; now right. }
    apply Bool.eq_iff_eq_true. rewrite (HQ _ b t HI), (HQ _ b' t HI). reflexivity.
Qed.

Lemma items_fit f P ps : (forall n, In n (vars ps) -> matches (f n) (P n)) ->
  forall start s, rx_here (item_list f ps ++ [RxEnd]) start s = true <-> fits P ps s.
Proof.
  intro Hf. induction ps as [|[c|n] ps IH]; intros start s.
  - cbn. destruct s; split; auto; discriminate.
  - cbn [item_list flat_map app rx_here fits]. change (flat_map _ ps) with (item_list f ps). unfold rx_once.
    destruct s as [|x s].
    + split; [discriminate|]. intros (t & E & _). discriminate.
    + cbn [rc_has]. rewrite andb_true_iff, N.eqb_eq, IH by exact Hf. split.
      * intros (-> & H). eauto.
      * intros (t & E & H). injection E as -> ->. auto.
  - cbn [item_list flat_map fits]. rewrite <- app_assoc. change (flat_map _ ps) with (item_list f ps).
    etransitivity; [apply (Hf n (or_introl eq_refl))|].
    { apply start_irrelevant; [intros b b' [|]; reflexivity|].
        intros m Hm. exists (P m). apply Hf. now right. }
    split; intros (v & t & -> & Hv & H); exists v, t; repeat split; auto.
    + apply (IH (fun m Hm => Hf m (or_intror Hm)) false). exact H.
    + apply (IH (fun m Hm => Hf m (or_intror Hm)) false). exact H.
Qed.

Lemma search_begin l s : rx_search (RxBegin :: l) false s = false.
Proof. induction s; cbn; auto. Qed.

Lemma is_match_begin l s : is_match (RxBegin :: l) s = rx_here l true s.
Proof.
  unfold is_match. destruct s as [|x s]; cbn [rx_search rx_here andb].
  - now rewrite orb_false_r.
  - now rewrite search_begin, orb_false_r.
Qed.

(** ** Valuations *)

Lemma fits_expand (P : str -> str -> Prop) ps val : (forall n, In n (vars ps) -> P n (val n)) -> fits P ps (expand val ps).
Proof.
  induction ps as [|[c|n] ps IH]; intro H; cbn [fits expand flat_map].
  - reflexivity.
  - eexists. split; [reflexivity|]. apply IH. exact H.
  - exists (val n), (expand val ps). split; [reflexivity|]. split; [apply H; now left|]. apply IH. intros; apply H; now right.
Qed.

Lemma expand_ext val val' ps : (forall n, In n (vars ps) -> val n = val' n) -> expand val ps = expand val' ps.
Proof.
  induction ps as [|[c|n] ps IH]; intro H; cbn [expand flat_map]; auto.
  - f_equal. apply IH. exact H.
  - rewrite (H n) by now left. f_equal. apply IH. intros; apply H; now right.
Qed.

Lemma fits_valuation (P : str -> str -> Prop) ps s : NoDup (vars ps) -> fits P ps s ->
  exists val, (forall n, In n (vars ps) -> P n (val n)) /\ s = expand val ps.
Proof.
  revert s. induction ps as [|[c|n] ps IH]; intros s Hnd H; cbn [fits] in H.
  - subst. exists (fun _ => []). split; [intros n []|reflexivity].
  - destruct H as (t & -> & H). destruct (IH t Hnd H) as (val & Hv & ->). exists val. auto.
  - destruct H as (v & t & -> & Hv & H). cbn [vars flat_map app] in Hnd.
    change (flat_map _ ps) with (vars ps) in Hnd. inversion Hnd as [|? ? Hn Hnd']; subst.
    destruct (IH t Hnd' H) as (val & Hval & ->).
    exists (fun m => if str_eqb m n then v else val m). split.
    + intros m [<-|Hm].
      * now rewrite str_eqb_refl.
      * destruct (str_eqb m n) eqn:E; [apply str_eqb_spec in E; subst; contradiction|auto].
    + cbn [expand flat_map]. rewrite str_eqb_refl. f_equal. apply expand_ext. intros m Hm.
      destruct (str_eqb m n) eqn:E; [apply str_eqb_spec in E; subst; contradiction|auto].
Qed.

Lemma fits_iff (P : str -> str -> Prop) ps s : NoDup (vars ps) ->
  (fits P ps s <-> exists val, (forall n, In n (vars ps) -> P n (val n)) /\ s = expand val ps).
Proof.
  intro H. split; [apply fits_valuation, H|]. intros (val & Hv & ->). now apply fits_expand.
Qed.

(** ** The two patterns *)

Lemma wildcard_texts p : as_wildcard p = lit "^" ++ texts (fun _ => lit "[^/]*") (pieces_of p) ++ lit "$".
Proof.
  unfold as_wildcard. f_equal. f_equal. induction p as [|[s|n] p IH]; cbn [flat_map pieces_of pieces_of_component]; auto.
  - rewrite IH. unfold texts, pieces_of. rewrite flat_map_app. f_equal.
    induction s as [|x s IHs]; [reflexivity|]. cbn. now rewrite <- IHs.
  - rewrite IH. reflexivity.
Qed.

Lemma wildcard_param_texts p n : as_wildcard_param p n
  = lit "^" ++ texts (fun q => if str_eqb q n then lit "{}" else lit ".*") (pieces_of p) ++ lit "$".
Proof.
  unfold as_wildcard_param. f_equal. f_equal. induction p as [|[s|m] p IH]; cbn [flat_map pieces_of pieces_of_component]; auto.
  - rewrite IH. unfold texts, pieces_of. rewrite flat_map_app. f_equal.
    induction s as [|x s IHs]; [reflexivity|]. cbn. now rewrite <- IHs.
  - rewrite IH. reflexivity.
Qed.

Lemma texts_lit f c ps : texts f (PLit c :: ps) = c :: texts f ps.
Proof. reflexivity. Qed.
Lemma texts_var f n ps : texts f (PVar n :: ps) = f n ++ texts f ps.
Proof. reflexivity. Qed.

Definition no_braces (ps : list piece) : Prop := forall c, In (PLit c) ps -> c <> ch "{" /\ c <> ch "}".

Lemma format_texts n v ps f g : no_braces ps -> format_macro f [] = Some g ->
  format_macro (texts (fun q => if str_eqb q n then lit "{}" else lit ".*") ps ++ f)
    (map (fun _ => v) (filter (fun q => str_eqb q n) (vars ps)))
  = Some (texts (fun q => if str_eqb q n then v else lit ".*") ps ++ g).
Proof.
  intros Hb Hf. induction ps as [|[c|m] ps IH].
  - exact Hf.
  - rewrite !texts_lit. change (vars (PLit c :: ps)) with (vars ps). cbn [app format_macro].
    destruct (Hb c) as (H1 & H2); [now left|]. apply N.eqb_neq in H1, H2. rewrite H1, H2.
    rewrite IH by (intros x Hx; apply Hb; now right). reflexivity.
  - rewrite !texts_var. change (vars (PVar m :: ps)) with (m :: vars ps). cbn [filter]. rewrite <- !app_assoc.
    destruct (str_eqb m n); cbn [map].
    + change (format_macro (lit "{}" ++ ?x) (?a :: ?l)) with (option_map (app a) (format_macro x l)).
      rewrite IH by (intros x Hx; apply Hb; now right). reflexivity.
    + change (format_macro (lit ".*" ++ ?x) ?l) with (option_map (cons 46) (option_map (cons 42) (format_macro x l))).
      rewrite IH by (intros x Hx; apply Hb; now right). reflexivity.
Qed.

Lemma filter_once n l : NoDup l -> In n l -> filter (fun q => str_eqb q n) l = [n].
Proof.
  induction l as [|m l IH]; intros Hnd Hin; [easy|]. inversion Hnd; subst. cbn.
  destruct (str_eqb m n) eqn:E.
  - apply str_eqb_spec in E. subst m. f_equal.
    destruct (filter (fun q => str_eqb q n) l) as [|x r] eqn:F; auto.
    assert (Hx : In x (x :: r)) by now left. rewrite <- F in Hx. apply filter_In in Hx as (Hx & Hx').
    apply str_eqb_spec in Hx'. subst. contradiction.
  - destruct Hin as [->|Hin]; [now rewrite str_eqb_refl in E|auto].
Qed.

Lemma formatted n v ps : no_braces ps -> NoDup (vars ps) -> In n (vars ps) ->
  format_macro (lit "^" ++ texts (fun q => if str_eqb q n then lit "{}" else lit ".*") ps ++ lit "$") [v]
  = Some (lit "^" ++ texts (fun q => if str_eqb q n then v else lit ".*") ps ++ lit "$").
Proof.
  intros Hb Hnd Hin.
  change (format_macro (lit "^" ++ ?x) [v]) with (option_map (cons 94) (format_macro x [v])).
  replace [v] with (map (fun _ : list N => v) (filter (fun q => str_eqb q n) (vars ps))) by now rewrite filter_once.
  rewrite (format_texts n v ps (lit "$") (lit "$") Hb eq_refl). reflexivity.
Qed.

(** ** Slashes *)

Fixpoint slashes (s : str) : nat :=
  match s with [] => 0 | c :: r => (if N.eqb c 47 then 1 else 0) + slashes r end.
Lemma slashes_app a b : slashes (a ++ b) = (slashes a + slashes b)%nat.
Proof. induction a; cbn; lia. Qed.
Lemma slashes_zero s : slashes s = 0%nat <-> ~ In (ch "/") s.
Proof.
  change (ch "/") with 47. induction s as [|c s IH]; cbn; [tauto|].
  destruct (N.eqb_spec c 47); [subst; split; [discriminate|tauto]|]. rewrite Nat.add_0_l, IH. intuition.
Qed.

Fixpoint own_slashes (ps : list piece) : nat :=
  match ps with
  | [] => 0
  | PLit c :: r => (if N.eqb c 47 then 1 else 0) + own_slashes r
  | PVar _ :: r => own_slashes r
  end.
Lemma slashes_expand val ps :
  slashes (expand val ps) = (own_slashes ps + list_sum (map (fun n => slashes (val n)) (vars ps)))%nat.
Proof.
  induction ps as [|[c|n] ps IH]; cbn [expand flat_map own_slashes]; auto.
  - cbn [slashes app]. change (flat_map _ ps) with (expand val ps). rewrite IH. cbn [vars flat_map app]. fold (vars ps). lia.
  - rewrite slashes_app. change (flat_map _ ps) with (expand val ps). rewrite IH. cbn [vars flat_map app map list_sum fold_right].
    fold (vars ps). unfold list_sum. lia.
Qed.
Lemma sum_zero l : list_sum l = 0%nat <-> Forall (fun n => n = 0%nat) l.
Proof.
  unfold list_sum. induction l as [|x l IH]; cbn; [split; auto|]. rewrite Forall_cons_iff, <- IH. lia.
Qed.
Lemma slash_free_count val ps : slash_free ps val <-> slashes (expand val ps) = own_slashes ps.
Proof.
  rewrite slashes_expand. transitivity (list_sum (map (fun n => slashes (val n)) (vars ps)) = 0)%nat; [|lia].
  rewrite sum_zero, Forall_map, Forall_forall. unfold slash_free. split; intros H n Hn; apply slashes_zero; auto.
Qed.

Lemma not_slash_class v : Forall (fun x => rc_has (RcNone [47]) x = true) v <-> ~ In (ch "/") v.
Proof.
  change (ch "/") with 47. rewrite Forall_forall. cbn. split.
  - intros H Hin. specialize (H _ Hin). cbn in H. discriminate.
  - intros H x Hx. destruct (N.eqb_spec x 47); [subst; contradiction|reflexivity].
Qed.

Lemma dot_class v : Forall (fun x => rc_has RcDot x = true) v <-> ~ In 10 v.
Proof.
  rewrite Forall_forall. cbn. split.
  - intros H Hin. specialize (H _ Hin). discriminate.
  - intros H x Hx. destruct (N.eqb_spec x 10); [subst; contradiction|reflexivity].
Qed.

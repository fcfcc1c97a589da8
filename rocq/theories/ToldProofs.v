(** C98: what a request tells of the arguments of a call. *)
From Verif Require Import Base Utf8 Utf8Proofs SerdeModel OasModel HeaderModel ClientModel TemplateModel TemplateSpec TemplateProofs
  EncodeModel EncodeSpec EncodeProofs QuerySpec QueryProofs MethodModel OpModel BuilderModel RunModel RequestSpec
  RequestProofs ParamSpec ParamProofs DocSpec DocProofs DocCor EpisodeProofs SanitizeModel MockModel MockSpec MockProofs
  MockCor MockDoc MockEpisode MockApartSpec MockApart ResponseProofs ToldSpec.
Local Open Scope N_scope.

(** ** Paths *)

Lemma segment_inj val val' s n : (length (vars s) <= 1)%nat -> In n (vars s) -> expand val s = expand val' s -> val n = val' n.
Proof.
  induction s as [|[c|m] s IH]; cbn [vars flat_map]; intros Hl Hn E; [easy| |].
  - cbn [app] in Hl, Hn. cbn [expand flat_map app] in E. injection E as E. now apply IH.
  - assert (Hv : vars s = []).
    { change (vars s = []). fold (vars s) in Hl. destruct (vars s); [auto|cbn in Hl; lia]. }
    fold (vars s) in Hn. rewrite Hv in Hn. destruct Hn as [<-|[]].
    cbn [expand flat_map] in E. fold (expand val s) in E. fold (expand val' s) in E.
    rewrite (expand_const val val' s Hv) in E. now apply app_inv_tail in E.
Qed.

Lemma one_each_inj ps val val' :
  (forall n, In n (vars ps) -> no_slash (val n)) -> (forall n, In n (vars ps) -> no_slash (val' n)) -> one_each ps ->
  expand val (squeeze_pieces false ps) = expand val' (squeeze_pieces false ps) -> forall n, In n (vars ps) -> val n = val' n.
Proof.
  intros Hv Hv' H1 E n Hn. rewrite !expand_split in E. fold (segments ps) in E.
  apply join_inj in E; [|apply map_segments_nonempty|apply map_segments_nonempty|now apply segments_no_slash|now apply segments_no_slash].
  rewrite <- (vars_squeeze false), <- split_vars in Hn. apply in_flat_map in Hn as (s & Hs & Hn). fold (segments ps) in Hs.
  apply (segment_inj val val' s n); auto.
  - unfold one_each in H1. rewrite Forall_forall in H1. now apply H1.
  - clear - E Hs. induction (segments ps) as [|x l IH]; [easy|]. cbn in E. injection E as E1 E2. destruct Hs as [->|Hs]; auto.
Qed.

Lemma expand_agree val val' s : (forall n, In n (vars s) -> val n = val' n) -> expand val s = expand val' s.
Proof.
  intro H. unfold expand. induction s as [|[c|n] s IH]; auto; cbn [flat_map].
  - f_equal. apply IH. intros n Hn. now apply H.
  - rewrite H by now left. f_equal. apply IH. intros m Hm. apply H. now right.
Qed.

(** A segment with two placeholders has two neighbouring ones. *)
Lemma two_vars s : (2 <= length (vars s))%nat ->
  exists pre a sep b post, s = pre ++ PVar a :: map PLit sep ++ PVar b :: post.
Proof.
  intro H. assert (Hs : forall s a, (1 <= length (vars s))%nat ->
    exists sep b post, PVar a :: s = PVar a :: map PLit sep ++ PVar b :: post).
  { clear. intros s a. induction s as [|[c|n] s IH]; cbn [vars flat_map length]; intro H; [lia| |].
    - cbn [app] in H. destruct (IH H) as (sep & b & post & E). injection E as ->. exists (c :: sep), b, post. reflexivity.
    - exists [], n, s. reflexivity. }
  induction s as [|[c|n] s IH]; cbn [vars flat_map] in H; [cbn in H; lia| |].
  - cbn [app] in H. destruct (IH H) as (pre & a & sep & b & post & ->). exists (PLit c :: pre), a, sep, b, post. reflexivity.
  - destruct (Hs s n) as (sep & b & post & E); [cbn in H; fold (vars s) in H; lia|]. exists [], n, sep, b, post. exact E.
Qed.

Lemma vars_app a b : vars (a ++ b) = vars a ++ vars b.
Proof. apply flat_map_app. Qed.
Lemma expand_app val a b : expand val (a ++ b) = expand val a ++ expand val b.
Proof. apply flat_map_app. Qed.
Lemma vars_lits l : vars (map PLit l) = [].
Proof. induction l; auto. Qed.
Lemma expand_lits val l : expand val (map PLit l) = l.
Proof. induction l as [|c l IH]; auto. cbn. f_equal. exact IH. Qed.

Lemma squeeze_incl ps : forall b p, In p (squeeze_pieces b ps) -> In p ps.
Proof.
  induction ps as [|[c|n] ps IH]; intros b p Hp; cbn in Hp; [easy| |].
  - destruct (N.eqb c (ch "/")); [destruct b|]; try (destruct Hp as [<-|Hp]; [now left|]); right; eauto.
  - destruct Hp as [<-|Hp]; [now left|right; eauto].
Qed.

Theorem template_iff ps : NoDup (vars ps) -> plain_literals ps -> (unambiguous ps <-> one_each ps).
Proof.
  intros Hnd Hpl. split.
  - intro HU. apply Forall_forall. intros s Hs. destruct (Nat.le_gt_cases (length (vars s)) 1) as [|Hl]; auto. exfalso.
    destruct (two_vars s Hl) as (pre & a & sep & b & post & Es).
    assert (Hsep : Forall (fun c => delimiter c = false /\ c <> ch "%") sep).
    { apply Forall_forall. intros c Hc. destruct (in_split_slash _ _ (PLit c) Hs) as (Hp & Hne).
      { rewrite Es. apply in_or_app. right. right. apply in_or_app. left. now apply in_map. }
      apply squeeze_incl in Hp. apply Hpl in Hp. unfold plain_literal in Hp.
      apply andb_prop in Hp as [Hp _]. apply andb_prop in Hp as [Hp1 Hp2].
      apply negb_true_iff in Hp2. apply N.eqb_neq in Hp2. split; auto.
      destruct (delimiter c); auto. cbn [andb] in Hp1. apply negb_true_iff, negb_false_iff, N.eqb_eq in Hp1.
      subst c. now elim Hne. }
    set (w := match sep with [] => lit "x" | _ => sep end).
    assert (Hw : encode_path w = w).
    { apply encode_path_id. unfold w. destruct sep; auto. repeat constructor; easy. }
    assert (Hc : w ++ sep = sep ++ w) by (unfold w; destruct sep; auto).
    assert (Hw0 : w <> []) by (unfold w; destruct sep; easy).
    assert (Hwv : valid_str w).
    { unfold w. destruct sep as [|c sep]; [repeat constructor|]. clear - Hsep.
      eapply Forall_impl; [|exact Hsep]. intros x (Hx & _). unfold delimiter in Hx.
      apply orb_false_elim in Hx as [Hx _]. apply orb_false_elim in Hx as [_ Hx]. apply N.ltb_ge in Hx.
      unfold scalar. apply orb_true_intro. left. apply N.ltb_lt. lia. }
    set (val := fun n => if str_eqb n a then w else []).
    set (val' := fun n => if str_eqb n b then w else []).
    apply in_split in Hs as (l1 & l2 & El).
    assert (Hv : vars ps = flat_map vars l1 ++ (vars pre ++ a :: b :: vars post) ++ flat_map vars l2).
    { rewrite <- (vars_squeeze false), <- split_vars. fold (segments ps). rewrite El, flat_map_app. cbn [flat_map].
      rewrite Es, !vars_app. cbn [vars flat_map app]. fold (vars (map PLit sep ++ PVar b :: post)).
      rewrite vars_app, vars_lits. reflexivity. }
    rewrite Hv in Hnd.
    assert (Ha : ~ In a (flat_map vars l1 ++ vars pre ++ vars post ++ flat_map vars l2)
                 /\ ~ In b (flat_map vars l1 ++ vars pre ++ vars post ++ flat_map vars l2) /\ a <> b).
    { rewrite <- app_assoc in Hnd. cbn [app] in Hnd. rewrite app_assoc in Hnd.
      pose proof (NoDup_remove_2 _ _ _ Hnd) as H2. pose proof (NoDup_remove_1 _ _ _ Hnd) as H1.
      apply NoDup_remove_2 in H1. rewrite !in_app_iff in *. cbn [In] in H2. rewrite !in_app_iff in H2.
      repeat split; [tauto|tauto|]. intros ->. tauto. }
    destruct Ha as (Ha & Hb & Hab). rewrite !in_app_iff in Ha, Hb.
    assert (Hagree : forall s, (forall n, In n (vars s) -> n <> a /\ n <> b) ->
      expand (fun n => encode_path (val n)) s = expand (fun n => encode_path (val' n)) s).
    { intros s' Hs'. apply expand_agree. intros n Hn. apply Hs' in Hn as [Hn1 Hn2]. unfold val, val'.
      destruct (str_eqb n a) eqn:E1; [now apply str_eqb_spec in E1|].
      destruct (str_eqb n b) eqn:E2; [now apply str_eqb_spec in E2|]. reflexivity. }
    assert (Hmap : forall l, (forall n, In n (flat_map vars l) -> n <> a /\ n <> b) ->
      map (expand (fun n => encode_path (val n))) l = map (expand (fun n => encode_path (val' n))) l).
    { intros l Hl'. apply map_ext_in. intros s' Hs'. apply Hagree. intros n Hn. apply Hl'. apply in_flat_map. eauto. }
    assert (E : val a = val' a).
    { apply HU.
      - intros n _. unfold val, val'. split; [destruct (str_eqb n a)|destruct (str_eqb n b)]; auto; constructor.
      - rewrite !expand_split. fold (segments ps). f_equal. rewrite El, !map_app. cbn [map]. f_equal; [|f_equal].
        + apply Hmap. intros n Hn. split; intros ->; tauto.
        + rewrite Es, !expand_app. rewrite (Hagree pre) by (intros n Hn; split; intros ->; tauto). f_equal.
          cbn [expand flat_map]. fold (expand (fun n => encode_path (val n)) (map PLit sep ++ PVar b :: post)).
          fold (expand (fun n => encode_path (val' n)) (map PLit sep ++ PVar b :: post)).
          rewrite !expand_app, !expand_lits. cbn [expand flat_map].
          fold (expand (fun n => encode_path (val n)) post). fold (expand (fun n => encode_path (val' n)) post).
          rewrite (Hagree post) by (intros n Hn; split; intros ->; tauto).
          unfold val, val'. rewrite !str_eqb_refl.
          assert (str_eqb b a = false) as -> by (destruct (str_eqb b a) eqn:X; auto; apply str_eqb_spec in X; congruence).
          assert (str_eqb a b = false) as -> by (destruct (str_eqb a b) eqn:X; auto; apply str_eqb_spec in X; congruence).
          rewrite Hw. change (encode_path []) with (@nil N). cbn [app]. rewrite !app_assoc. now rewrite Hc.
        + apply Hmap. intros n Hn. split; intros ->; tauto.
      - rewrite Hv. rewrite !in_app_iff. cbn [In]. tauto. }
    unfold val, val' in E. rewrite str_eqb_refl in E.
    assert (str_eqb a b = false) as X by (destruct (str_eqb a b) eqn:X; auto; apply str_eqb_spec in X; congruence).
    rewrite X in E. now apply Hw0.
  - intros H1 val val' Hval E n Hn.
    assert (Hs : forall f, (forall n, In n (vars ps) -> valid_str (f n)) -> forall n, In n (vars ps) -> no_slash (encode_path (f n))).
    { intros f Hf m Hm Hin. apply encode_path_safe in Hin; auto. discriminate Hin. }
    apply encode_path_inj; try now apply Hval.
    apply (one_each_inj ps (fun n => encode_path (val n)) (fun n => encode_path (val' n))); auto.
    + apply (Hs val). intros m Hm. now apply Hval.
    + apply (Hs val'). intros m Hm. now apply Hval.
Qed.

(** ** Queries *)

Lemma simple_param n v ts : simple_form v ts -> query_param n v = Some (map (pair n) ts).
Proof.
  intro H. apply form_explode_sound. induction H as [v t Ht| |v ts _ IH|vs ts Hts]; try (constructor; auto; fail).
  replace (map (pair n) (flat_map (fun t => match t with Some t => [t] | None => [] end) ts)) with (flat_map (pairs_of n) ts).
  - now constructor.
  - clear. induction ts as [|[t|] ts IH]; auto. cbn. f_equal. exact IH.
Qed.

Lemma pair_inj (n : str) (ts ts' : list str) : map (pair n) ts = map (pair n) ts' -> ts = ts'.
Proof. revert ts'. induction ts as [|t ts IH]; intros [|t' ts'] E; try discriminate E; auto. cbn in E. injection E as -> E. f_equal. auto. Qed.

(** What one name contributes. *)
Definition under (n : str) (l : list (str * str)) : list (str * str) := filter (fun kv => str_eqb (fst kv) n) l.

Lemma under_other n m ts : m <> n -> under n (map (pair m) ts) = [].
Proof.
  intro Hn. unfold under. induction ts as [|t ts IH]; auto. cbn [map filter fst].
  destruct (str_eqb m n) eqn:E; [now apply str_eqb_spec in E|exact IH].
Qed.
Lemma under_own n ts : under n (map (pair n) ts) = map (pair n) ts.
Proof. unfold under. induction ts as [|t ts IH]; auto. cbn [map filter fst]. rewrite str_eqb_refl. f_equal. exact IH. Qed.

Lemma under_concat (l : list (str * list str)) n ts : NoDup (map fst l) -> In (n, ts) l ->
  under n (concat (map (fun x => map (pair (fst x)) (snd x)) l)) = map (pair n) ts.
Proof.
  assert (Hno : forall l, ~ In n (map fst l) -> under n (concat (map (fun x : str * list str => map (pair (fst x)) (snd x)) l)) = []).
  { clear. induction l as [|[m us] l IH]; auto. cbn [map concat fst snd In]. intro Hn. unfold under. rewrite filter_app.
    fold (under n (map (pair m) us)). rewrite under_other by (intros ->; apply Hn; now left). apply IH. intro. apply Hn. now right. }
  induction l as [|[m us] l IH]; intros Hnd Hin; [easy|]. cbn [map concat fst snd] in *. inversion Hnd as [|? ? Hm Hl]; subst.
  unfold under. rewrite filter_app. fold (under n (map (pair m) us)).
  fold (under n (concat (map (fun x : str * list str => map (pair (fst x)) (snd x)) l))).
  destruct Hin as [E|Hin].
  - injection E as -> ->. rewrite under_own, Hno by auto. apply app_nil_r.
  - rewrite under_other, IH; auto. intros ->. apply Hm. apply in_map_iff. now exists (n, ts).
Qed.

Definition sent_as (p : op_param) (o : option value) : sval :=
  match p_kind p, o with
  | KQuery true, Some v => v_serde v
  | _, Some v => VSome (v_serde v)
  | _, None => VNone
  end.

Lemma sent_param p o r ts : p_kind p = KQuery r -> query_texts o ts ->
  query_param (p_api_name p) (sent_as p o) = Some (map (pair (p_api_name p)) ts).
Proof.
  intros Hk Ht. unfold sent_as. rewrite Hk. apply simple_param. destruct o as [v|]; cbn in Ht.
  - destruct r; auto. now constructor.
  - subst ts. destruct r; constructor.
Qed.

Lemma in_query_arguments p o r args : p_kind p = KQuery r -> In (p, o) args -> In (p_api_name p, sent_as p o) (query_arguments args).
Proof.
  intros Hk Hin. unfold query_arguments. apply in_flat_map. exists (p, o). split; auto. cbn [fst snd]. unfold sent_as. rewrite Hk.
  destruct r, o; now left.
Qed.

Lemma simple_entries args : simple_queries args -> exists l,
  map fst l = map fst (query_arguments args)
  /\ Forall2 (fun kv p => query_param (fst kv) (snd kv) = Some p) (query_arguments args) (map (fun x : str * list str => map (pair (fst x)) (snd x)) l)
  /\ forall p o r ts, In (p, o) args -> p_kind p = KQuery r -> query_texts o ts -> In (p_api_name p, ts) l.
Proof.
  intros (_ & Hs).
  induction args as [|[p o] args IH].
  - exists []. repeat split; [constructor|easy].
  - destruct IH as (l & E & HF & Hin); [intros p' o' r' Hp'; apply (Hs p' o' r'); now right|].
    destruct (p_kind p) as [|r|r|ct] eqn:Hk.
    + exists l. unfold query_arguments in *. cbn [flat_map fst snd]. rewrite Hk. repeat split; auto.
      intros p' o' r' ts [E'|Hp'] Hk'; [injection E' as -> ->; congruence|eauto].
    + destruct (Hs p o r (or_introl eq_refl) Hk) as (ts & Hts). exists ((p_api_name p, ts) :: l).
      assert (Eq : query_arguments ((p, o) :: args) = (p_api_name p, sent_as p o) :: query_arguments args).
      { unfold query_arguments, sent_as. cbn [flat_map fst snd]. rewrite Hk. destruct r, o; reflexivity. }
      rewrite Eq. cbn [map fst snd]. repeat split.
      * now f_equal.
      * constructor; auto. cbn [fst snd]. now apply (sent_param p o r).
      * intros p' o' r' us [E'|Hp'] Hk' Hus; [|right; eauto]. injection E' as -> ->. left. f_equal.
        pose proof (sent_param p' o' r' us Hk' Hus) as E1. rewrite (sent_param p' o' r ts Hk Hts) in E1.
        injection E1 as E1. now apply pair_inj in E1.
    + exists l. unfold query_arguments in *. cbn [flat_map fst snd]. rewrite Hk. repeat split; auto.
      intros p' o' r' ts [E'|Hp'] Hk'; [injection E' as -> ->; congruence|eauto].
    + exists l. unfold query_arguments in *. cbn [flat_map fst snd]. rewrite Hk. repeat split; auto.
      intros p' o' r' ts [E'|Hp'] Hk'; [injection E' as -> ->; congruence|eauto].
Qed.

(** ** Two calls *)

Section Two.
Context {V W : Type} (e e' : episode V W).
Hypothesis H : happens e.
Hypothesis H' : happens e'.
Variable q : request.
Hypothesis Hq : first_request (e_trace e) q.
Hypothesis Hq' : first_request (e_trace e') q.

Lemma path_told p v v' : e_client e' = e_client e -> e_path e' = e_path e ->
  url_kept (e_client e) (e_path e) (e_args e) -> url_kept (e_client e') (e_path e') (e_args e') ->
  proper_texts (e_args e) -> proper_texts (e_args e') -> one_each (e_path e) ->
  In (p, Some v) (e_args e) -> In (p, Some v') (e_args e') -> p_kind p = KPath -> In (p_api_name p) (vars (e_path e)) ->
  v_text v = v_text v'.
Proof.
  intros Ec Ep Hk Hk' Hp Hp' H1 Hin Hin' Hkind Hn.
  destruct (request_seen e H q Hq Hk Hp) as (val & r & Hval & Hd & (_ & Hr & _) & Hpath & _).
  destruct (request_seen e' H' q Hq' Hk' Hp') as (val' & r' & Hval' & Hd' & (_ & Hr' & _) & Hpath' & _).
  rewrite Ec, Hr in Hr'. apply app_inv_head in Hr'. rewrite Hpath, Hpath', Ep in Hr'.
  pose proof (one_each_inj (e_path e) val val') as E.
  specialize (E (fun n _ Hs => ltac:(apply Hd in Hs; discriminate Hs)) (fun n _ Hs => ltac:(apply Hd' in Hs; discriminate Hs)) H1 Hr' _ Hn).
  rewrite (Hval p v Hin Hkind), (Hval' p v' Hin' Hkind) in E. apply encode_path_inj in E; auto.
  - now apply (proj1 Hp p).
  - now apply (proj1 Hp' p).
Qed.

Lemma header_told p o o' r : e_method e' = e_method e -> m_websocket (e_method e) = false ->
  own_header (m_params (e_method e)) p ->
  (forall v, o = Some v -> valid_str (v_text v)) -> (forall v, o' = Some v -> valid_str (v_text v)) ->
  In (p, o) (e_args e) -> In (p, o') (e_args e') -> p_kind p = KHeader r -> option_map v_text o = option_map v_text o'.
Proof.
  intros Em Hw (Hn & Hu) Hv Hv' Hin Hin' Hk.
  assert (Hone : forall e0 : episode V W, happens e0 -> e_method e0 = e_method e -> first_request (e_trace e0) q ->
    forall o0, In (p, o0) (e_args e0) ->
    h_values (lower_name (p_api_name p)) (q_headers q) = match o0 with Some v => [utf8 (v_text v)] | None => [] end).
  { clear - Hn Hu Hw Hk. intros e0 H0 E0 Hq0 o0 Hin0.
    pose proof (h_callable e0 H0) as [(Hm & _) _ _]. 
    assert (Hparam : forall p' o', In (p', o') (e_args e0) -> In p' (m_params (e_method e))).
    { intros p' o' Hp'. rewrite <- E0, <- Hm. apply in_map_iff. now exists (p', o'). }
    destruct o0 as [v|].
    - apply (ep_header_once e0 H0); auto.
      + now rewrite E0.
      + eauto.
      + intro E. apply Hn. rewrite E. now left.
      + intros p' v' Hp' Hk' El. apply Hu; eauto.
    - apply (ep_header_absent e0 H0); auto.
      + now rewrite E0.
      + intros p' v' Hp' Hk' El. assert (p' = p) by (apply Hu; eauto). subst p'.
        assert (Hnd : NoDup (map fst (e_args e0))).
        { rewrite Hm. pose proof (h_generated e0 H0) as [_ _ _ Hna _ _ _]. now apply NoDup_map_inv in Hna. }
        clear - Hnd Hin0 Hp'. induction (e_args e0) as [|[x y] l IH]; [easy|]. cbn in Hnd. inversion Hnd as [|? ? Hx Hl]; subst.
        destruct Hin0 as [E|Hin0], Hp' as [E'|Hp'].
        * congruence.
        * injection E as -> ->. apply Hx. apply in_map_iff. now exists (p, Some v').
        * injection E' as -> ->. apply Hx. apply in_map_iff. now exists (p, None).
        * auto. }
  pose proof (Hone e H eq_refl Hq o Hin) as E1. pose proof (Hone e' H' Em Hq' o' Hin') as E2. rewrite E1 in E2.
  destruct o as [v|], o' as [v'|]; try discriminate E2; auto. cbn. f_equal. injection E2 as E2. apply utf8_inj in E2; auto.
Qed.

Lemma body_told ct v ct' v' : body_argument (e_args e) = Some (ct, v) -> body_argument (e_args e') = Some (ct', v') ->
  exists b, body_encoded ct v b /\ body_encoded ct' v' b.
Proof.
  intros Hb Hb'. destruct (ep_body e H q ct v Hq Hb) as ((b & E & Eb) & _).
  destruct (ep_body e' H' q ct' v' Hq' Hb') as ((b' & E' & Eb') & _). rewrite Eb in Eb'. injection Eb' as <-. eauto.
Qed.

Lemma query_told p o o' r :
  url_kept (e_client e) (e_path e) (e_args e) -> url_kept (e_client e') (e_path e') (e_args e') ->
  proper_texts (e_args e) -> proper_texts (e_args e') -> simple_queries (e_args e) -> simple_queries (e_args e') ->
  In (p, o) (e_args e) -> In (p, o') (e_args e') -> p_kind p = KQuery r -> exists ts, query_texts o ts /\ query_texts o' ts.
Proof.
  intros Hk Hk' Hp Hp' Hs Hs' Hin Hin' Hkind.
  assert (Hone : forall e0 : episode V W, happens e0 -> first_request (e_trace e0) q -> url_kept (e_client e0) (e_path e0) (e_args e0) ->
    proper_texts (e_args e0) -> simple_queries (e_args e0) -> forall o0, In (p, o0) (e_args e0) ->
    exists ts, query_texts o0 ts /\ forall d, form_decode (q_query q) = Some d -> under (p_api_name p) d = map (pair (p_api_name p)) ts).
  { clear - Hkind. intros e0 H0 Hq0 Hk0 Hp0 Hs0 o0 Hin0. destruct (proj2 Hs0 p o0 r Hin0 Hkind) as (ts & Hts). exists ts. split; auto.
    intros d Hd. destruct (simple_entries _ Hs0) as (l & El & HF & Hl).
    destruct (params_path_values (h_generated e0 H0) (h_callable e0 H0)) as (val & Hval).
    pose proof (method_and_url_sent _ _ _ _ _ _ _ _ _ _ _ _ _ _ _ _ _ _ _ _ _ (h_generated e0 H0) (h_callable e0 H0) (h_run e0 H0) q val Hq0 Hval)
      as (_ & query & hs & Hu & Hsq).
    destruct (Hk0 val Hval) as (hs' & E). rewrite E in Hu. injection Hu as Eu <- <-. specialize (Hsq eq_refl).
    assert (HV : Forall (Forall valid_pair) (map (fun x : str * list str => map (pair (fst x)) (snd x)) l)).
    { apply Forall_forall. intros ps Hps. apply Forall_forall. intros kv Hkv.
      destruct (forall2_In_r _ _ _ _ HF Hps) as (nv & Hnv & E1). apply (proj2 Hp0). exists nv, ps. auto. }
    destruct (send_queries_decode _ _ HF HV) as (q' & E1 & E2). rewrite Hsq in E1. injection E1 as <-.
    rewrite E2 in Hd. injection Hd as <-. apply under_concat; [rewrite El; exact (proj1 Hs0)|]. now apply (Hl p o0 r). }
  assert (Hdec : exists d, form_decode (q_query q) = Some d).
  { destruct (request_seen e H q Hq Hk Hp) as (_ & rr & _ & _ & (_ & _ & Hd & _) & _). eauto. }
  destruct Hdec as (d & Hd).
  destruct (Hone e H Hq Hk Hp Hs o Hin) as (ts & Hts & E). destruct (Hone e' H' Hq' Hk' Hp' Hs' o' Hin') as (ts' & Hts' & E').
  exists ts. split; auto. specialize (E' d Hd). rewrite (E d Hd) in E'. apply pair_inj in E'. now subst.
Qed.

End Two.

(** ** Queries, exactly *)

Lemma append_more t ps qs : append_pairs (append_pairs t ps) qs = append_pairs t (ps ++ qs).
Proof. unfold append_pairs. symmetry. apply fold_left_app. Qed.

Lemma fold_query params : forall pss t, Forall2 (fun kv p => query_param (fst kv) (snd kv) = Some p) params pss ->
  fold_left (fun q kv => match q with
                         | Some q => request_query q (query_param (fst kv) (snd kv))
                         | None => None
                         end) params (Some (match t with [] => None | _ => Some t end))
  = Some (match append_pairs t (concat pss) with [] => None | u => Some u end).
Proof.
  induction params as [|kv params IH]; intros pss t HF; inversion HF as [|? p ? l E Hl]; subst; cbn [fold_left]; [destruct t; reflexivity|].
  rewrite E. cbn [request_query concat]. rewrite <- append_more, <- (IH l (append_pairs t p) Hl). f_equal. f_equal. destruct t; reflexivity.
Qed.

Lemma queries_pairs params pss : Forall2 (fun kv p => query_param (fst kv) (snd kv) = Some p) params pss ->
  send_queries params = Some (match append_pairs [] (concat pss) with [] => None | u => Some u end).
Proof. intro HF. exact (fold_query params pss [] HF). Qed.

Lemma queries_iff params params' pss pss' :
  Forall2 (fun kv p => query_param (fst kv) (snd kv) = Some p) params pss ->
  Forall2 (fun kv p => query_param (fst kv) (snd kv) = Some p) params' pss' ->
  Forall (Forall valid_pair) pss -> Forall (Forall valid_pair) pss' ->
  (send_queries params = send_queries params' <-> concat pss = concat pss').
Proof.
  intros HF HF' HV HV'. split.
  - intro E. destruct (send_queries_decode _ _ HF HV) as (q & E1 & D1). destruct (send_queries_decode _ _ HF' HV') as (q' & E2 & D2).
    rewrite E1, E2 in E. injection E as ->. congruence.
  - intro E. rewrite (queries_pairs _ _ HF), (queries_pairs _ _ HF'), E. reflexivity.
Qed.

(** Mocks and requests of different operations. *)
From Verif Require Import Base Utf8 SerdeModel OasModel HeaderModel ClientModel TemplateModel TemplateSpec TemplateProofs
  EncodeModel EncodeSpec EncodeProofs MethodModel OpModel BuilderModel RunModel RequestSpec
  RequestProofs ParamSpec ParamProofs DocSpec DocProofs DocCor SanitizeModel MockModel MockSpec MockProofs
  MockCor MockDoc MockEpisode MockApartSpec.
Local Open Scope N_scope.

Definition no_slash (s : str) : Prop := ~ In (ch "/") s.

Lemma cut_slash a b x y : no_slash a -> no_slash b -> a ++ ch "/" :: x = b ++ ch "/" :: y -> a = b /\ x = y.
Proof.
  unfold no_slash. revert b. induction a as [|c a IH]; intros [|d b] Ha Hb E; cbn [app] in E.
  - injection E as ->. auto.
  - assert (d = ch "/") by congruence. subst. elim Hb. now left.
  - assert (c = ch "/") by congruence. subst. elim Ha. now left.
  - injection E as -> E. destruct (IH b) as [-> ->]; auto; intro; [apply Ha|apply Hb]; now right.
Qed.

Lemma join_inj l l' : l <> [] -> l' <> [] -> Forall no_slash l -> Forall no_slash l' -> join_slash l = join_slash l' -> l = l'.
Proof.
  revert l'. induction l as [|s l IH]; intros [|s' l'] Hn Hn' HF HF' E; try easy.
  inversion HF as [|? ? H1 H2]; subst. inversion HF' as [|? ? H1' H2']; subst.
  destruct l as [|t l], l' as [|t' l'].
  - cbn in E. congruence.
  - exfalso. change (s = s' ++ ch "/" :: join_slash (t' :: l')) in E. apply H1. rewrite E. apply in_or_app. right. now left.
  - exfalso. change (s ++ ch "/" :: join_slash (t :: l) = s') in E. apply H1'. rewrite <- E. apply in_or_app. right. now left.
  - change (s ++ ch "/" :: join_slash (t :: l) = s' ++ ch "/" :: join_slash (t' :: l')) in E.
    apply cut_slash in E as [-> E]; auto. f_equal. apply IH; auto; easy.
Qed.

Lemma expand_no_slash val seg : ~ In (PLit (ch "/")) seg -> (forall n, In n (vars seg) -> no_slash (val n)) -> no_slash (expand val seg).
Proof.
  intros Hl Hv Hin. unfold expand in Hin. apply in_flat_map in Hin as ([c|n] & Hp & Hc).
  - destruct Hc as [->|[]]. auto.
  - apply (Hv n); auto. apply in_flat_map. exists (PVar n). split; [exact Hp|now left].
Qed.

Lemma segments_no_slash val ps : (forall n, In n (vars ps) -> no_slash (val n)) -> Forall no_slash (map (expand val) (segments ps)).
Proof.
  intro Hv. apply Forall_forall. intros t Ht. apply in_map_iff in Ht as (seg & <- & Hs). apply expand_no_slash.
  - intro Hp. destruct (in_split_slash _ _ _ Hs Hp) as (_ & E). now apply E.
  - intros n Hn. apply Hv. apply in_flat_map in Hn as (p & Hp & Hn). destruct (in_split_slash _ _ _ Hs Hp) as (Hp' & _).
    rewrite <- (vars_squeeze false). apply in_flat_map. eauto.
Qed.

Lemma expand_const val val' s : vars s = [] -> expand val s = expand val' s.
Proof.
  induction s as [|[c|n] s IH]; auto; cbn [vars flat_map]; intro E; [|discriminate E]. cbn [expand flat_map app]. f_equal. now apply IH.
Qed.
Lemma const_inj val val' s s' : vars s = [] -> vars s' = [] -> expand val s = expand val' s' -> s = s'.
Proof.
  revert s'. induction s as [|[c|n] s IH]; intros [|[d|m] s'] E E' H; try easy. cbn [expand flat_map app] in H.
  injection H as -> H. f_equal. now apply IH.
Qed.

Lemma piece_eq_dec (p q : piece) : {p = q} + {p <> q}.
Proof. repeat decide equality. Qed.

Lemma segments_nonempty ps : segments ps <> [].
Proof. apply split_slash_nonempty. Qed.

Lemma map_segments_nonempty val ps : map (expand val) (segments ps) <> [].
Proof. pose proof (segments_nonempty ps). destruct (segments ps); easy. Qed.

Lemma apart_differ ps ps' val val' : apart ps ps' -> slash_free ps val -> slash_free ps' val' ->
  expand val (squeeze_pieces false ps) <> expand val' (squeeze_pieces false ps').
Proof.
  intros Ha Hv Hv' E. rewrite !expand_split in E.
  apply join_inj in E; [|apply map_segments_nonempty..|now apply segments_no_slash|now apply segments_no_slash].
  fold (segments ps) in E. fold (segments ps') in E. destruct Ha as [Hl|(i & s & s' & E1 & E2 & H1 & H2 & Hne)].
  - apply Hl. apply (f_equal (@length str)) in E. now rewrite !map_length in E.
  - apply Hne. apply (const_inj val val'); auto. apply (f_equal (fun l => nth_error l i)) in E.
    rewrite (map_nth_error _ _ _ E1), (map_nth_error _ _ _ E2) in E. congruence.
Qed.

(** ** Templates that are not apart *)

Definition put (n : str) (v : str) (val : str -> str) (x : str) : str := if str_eqb x n then v else val x.
Lemma expand_put n v val s : ~ In n (vars s) -> expand (put n v val) s = expand val s.
Proof.
  induction s as [|[c|m] s IH]; auto; cbn [vars flat_map expand]; intro Hn.
  - f_equal. now apply IH.
  - fold (vars s) in Hn. fold (expand (put n v val) s). fold (expand val s). rewrite IH by (intro; apply Hn; now right).
    f_equal. unfold put. destruct (str_eqb m n) eqn:E; auto. apply str_eqb_spec in E. elim Hn. now left.
Qed.
Lemma map_put n v val l : ~ In n (flat_map vars l) -> map (expand (put n v val)) l = map (expand val) l.
Proof.
  intro Hn. apply map_ext_in. intros s Hs. apply expand_put. intro. apply Hn. apply in_flat_map. eauto.
Qed.

Lemma nodup_right {A} (a b : list A) : NoDup (a ++ b) -> NoDup b.
Proof. induction a as [|x a IH]; auto. intro H. apply IH. now inversion H. Qed.

Lemma common l l' : Forall2 (fun s s' : list piece => vars s = [] -> vars s' = [] -> s = s') l l' ->
  Forall (fun s => (vars s = [] \/ exists n, s = [PVar n]) /\ ~ In (PLit (ch "/")) s) l ->
  Forall (fun s => (vars s = [] \/ exists n, s = [PVar n]) /\ ~ In (PLit (ch "/")) s) l' ->
  NoDup (flat_map vars l) -> NoDup (flat_map vars l') ->
  exists val val', (forall n, no_slash (val n)) /\ (forall n, no_slash (val' n)) /\ map (expand val) l = map (expand val') l'.
Proof.
  induction 1 as [|s s' l l' Hss F IH]; intros Hl Hl' Hn Hn'.
  - exists (fun _ => []), (fun _ => []). split; [|split]; auto; intros n [].
  - inversion Hl as [|? ? (Hs & Hns) Hl1]; subst. inversion Hl' as [|? ? (Hs' & Hns') Hl1']; subst. cbn [flat_map] in Hn, Hn'.
    destruct (IH Hl1 Hl1') as (val & val' & Hv & Hv' & E).
    { exact (nodup_right _ _ Hn). }
    { exact (nodup_right _ _ Hn'). }
    destruct Hs as [Hs|(n & ->)], Hs' as [Hs'|(n' & ->)].
    + rewrite (Hss Hs Hs') in *. exists val, val'. split; [exact Hv|]. split; [exact Hv'|]. cbn [map]. f_equal; [now apply expand_const|exact E].
    + exists val, (put n' (expand val s) val'). split; [exact Hv|]. split.
      * intro x. unfold put. destruct (str_eqb x n'); [apply expand_no_slash; auto|apply Hv'].
      * cbn [map]. cbn in Hn'. inversion Hn' as [|? ? Hx _]; subst. rewrite map_put by exact Hx. f_equal; [|exact E].
        cbn. unfold put. rewrite str_eqb_refl, app_nil_r. reflexivity.
    + exists (put n (expand val' s') val), val'. split; [|split; [exact Hv'|]].
      * intro x. unfold put. destruct (str_eqb x n); [apply expand_no_slash; auto|apply Hv].
      * cbn [map]. cbn in Hn. inversion Hn as [|? ? Hx _]; subst. rewrite map_put by exact Hx. f_equal; [|exact E].
        cbn. unfold put. rewrite str_eqb_refl, app_nil_r. reflexivity.
    + exists (put n [] val), (put n' [] val'). split; [|split].
      * intros x. unfold put. destruct (str_eqb x n); [intros []|apply Hv].
      * intros x. unfold put. destruct (str_eqb x n'); [intros []|apply Hv'].
      * cbn [map]. cbn in Hn, Hn'. inversion Hn as [|? ? Hx _]; subst. inversion Hn' as [|? ? Hx' _]; subst.
        rewrite !map_put by assumption. f_equal; [|exact E]. cbn. unfold put. now rewrite !str_eqb_refl.
Qed.

Lemma split_vars ps : flat_map vars (split_slash ps) = vars ps.
Proof.
  induction ps as [|[c|n] ps IH]; auto; cbn [split_slash vars flat_map].
  - destruct (c =? ch "/"); [exact IH|]. pose proof (split_slash_nonempty ps). destruct (split_slash ps); [easy|]. exact IH.
  - pose proof (split_slash_nonempty ps). destruct (split_slash ps) as [|s ss]; [easy|]. cbn [flat_map vars app]. f_equal. exact IH.
Qed.

Lemma not_apart_common ps ps' : NoDup (vars ps) -> NoDup (vars ps') -> whole_segments ps -> whole_segments ps' -> ~ apart ps ps' ->
  exists val val', slash_free ps val /\ slash_free ps' val' /\ expand val (squeeze_pieces false ps) = expand val' (squeeze_pieces false ps').
Proof.
  intros Hn Hn' Hw Hw' Ha.
  assert (Hslash : forall qs, whole_segments qs -> Forall (fun s => (vars s = [] \/ exists n, s = [PVar n]) /\ ~ In (PLit (ch "/")) s) (segments qs)).
  { intros qs Hq. unfold whole_segments in Hq. rewrite Forall_forall in *. intros s Hs. split; [now apply Hq|].
    intro Hp. destruct (in_split_slash _ _ _ Hs Hp) as (_ & E). now apply E. }
  destruct (common (segments ps) (segments ps')) as (val & val' & Hv & Hv' & E); auto.
  - assert (Hlen : length (segments ps) = length (segments ps')).
    { destruct (Nat.eq_dec (length (segments ps)) (length (segments ps'))); auto. elim Ha. now left. }
    assert (Hc : forall i s s', nth_error (segments ps) i = Some s -> nth_error (segments ps') i = Some s' -> vars s = [] -> vars s' = [] -> s = s').
    { intros i s s' E1 E2 H1 H2. destruct (list_eq_dec piece_eq_dec s s'); auto. elim Ha. right. exists i, s, s'. auto. }
    clear -Hlen Hc. revert Hlen Hc. generalize (segments ps) (segments ps'). induction l as [|s l IH]; intros [|s' l'] Hlen Hc; try easy; constructor.
    + intros. apply (Hc O s s'); auto.
    + apply IH; [now injection Hlen|]. intros i. apply (Hc (S i)).
  - unfold segments. rewrite split_vars, vars_squeeze. exact Hn.
  - unfold segments. rewrite split_vars, vars_squeeze. exact Hn'.
  - exists val, val'. split; [intros n _; apply Hv|]. split; [intros n _; apply Hv'|]. rewrite !expand_split. unfold segments in E. now rewrite E.
Qed.

(** ** Mocks *)

Lemma when_calls_new o calls es : when_calls o calls = Some es -> exists es0, when_new o = Some es0 /\ incl es0 es.
Proof.
  revert es. induction calls as [|[n arg] calls IH]; intros es E; cbn in E.
  - exists es. split; [exact E|apply incl_refl].
  - destruct (find _ _); [|easy]. destruct (when_calls o calls) as [es1|]; [|easy]. destruct (when_call _ _); [|easy]. injection E as <-.
    destruct (IH es1 eq_refl) as (es0 & E0 & Hi). exists es0. split; auto. now apply incl_appl.
Qed.

Lemma mock_new U types m o ps es : httpmock_method U types m = Ok o -> strict ps -> parse (show ps) = Ok (m_path m) -> plain_template ps ->
  when_new o = Some es -> es = [ExMethod (m_method m); ExPath (wildcard_items ps)].
Proof.
  intros Ho Hs Hp Hpl E. destruct (mock_parts U types m o Ho) as (Em & Ep & _). unfold when_new in E.
  rewrite Em, Ep, (wildcard_regex ps (m_path m) Hs Hp Hpl) in E. now injection E as <-.
Qed.

Lemma mock_elsewhere V W (e : episode V W) (H : happens e) q : first_request (e_trace e) q ->
  url_kept (e_client e) (e_path e) (e_args e) -> proper_texts (e_args e) ->
  forall U types m o ps, httpmock_method U types m = Ok o ->
  strict ps -> parse (show ps) = Ok (m_path m) -> NoDup (vars ps) -> plain_template ps ->
  m_method m <> m_method (e_method e) \/ apart ps (e_path e) ->
  forall calls es json_is r, when_calls o calls = Some es -> seen (c_base_url (e_client e)) q r -> matched json_is es r = false.
Proof.
  intros Hq Hk Hpt U types m o ps Ho Hs Hp Hnd Hpl Hd calls es json_is r Hes Hseen.
  destruct (when_calls_new o calls es Hes) as (es0 & E0 & Hincl). apply (mock_new U types m o ps es0 Ho Hs Hp Hpl) in E0. subst es0.
  destruct (matched json_is es r) eqn:Em; auto. exfalso. unfold matched in Em. rewrite forallb_forall in Em.
  pose proof (Em _ (Hincl _ (or_introl eq_refl))) as M1. pose proof (Em _ (Hincl _ (or_intror (or_introl eq_refl)))) as M2. cbn [meets] in M1, M2.
  destruct (request_seen e H q Hq Hk Hpt) as (val & r0 & Hval & Hdel & Hseen0 & Hpath & _).
  destruct Hseen as (S1 & S2 & _), Hseen0 as (S1' & S2' & _).
  assert (Epath : mr_path r = expand val (squeeze_pieces false (e_path e))).
  { rewrite S2 in S2'. apply app_inv_head in S2'. congruence. }
  destruct Hd as [Hd|Hd].
  - apply Hd. pose proof (method_and_url_sent _ _ _ _ _ _ _ _ _ _ _ _ _ _ _ _ _ _ _ _ _ (h_generated e H) (h_callable e H) (h_run e H) q val Hq Hval) as (Eq & _).
    rewrite <- Eq, <- S1. clear -M1. destruct (mr_method r), (m_method m); try easy; cbn in M1; discriminate M1.
  - apply (wildcard_match ps Hnd) in M2 as (val2 & Hv2 & E2). rewrite Epath in E2. symmetry in E2. revert E2.
    apply apart_differ; auto. intros n _ Hin. now apply Hdel in Hin.
Qed.

Lemma mocks_overlap U types m m' o o' ps ps' : httpmock_method U types m = Ok o -> httpmock_method U types m' = Ok o' ->
  strict ps -> parse (show ps) = Ok (m_path m) -> NoDup (vars ps) -> plain_template ps -> whole_segments ps ->
  strict ps' -> parse (show ps') = Ok (m_path m') -> NoDup (vars ps') -> plain_template ps' -> whole_segments ps' ->
  exists es es', when_calls o [] = Some es /\ when_calls o' [] = Some es'
  /\ forall json_is, (exists r, matched json_is es r = true /\ matched json_is es' r = true)
     <-> m_method m = m_method m' /\ ~ apart ps ps'.
Proof.
  intros Ho Ho' Hs Hp Hnd Hpl Hw Hs' Hp' Hnd' Hpl' Hw'.
  destruct (mock_parts U types m o Ho) as (Em & Ep & _). destruct (mock_parts U types m' o' Ho') as (Em' & Ep' & _).
  exists [ExMethod (m_method m); ExPath (wildcard_items ps)], [ExMethod (m_method m'); ExPath (wildcard_items ps')].
  cbn [when_calls]. unfold when_new. rewrite Em, Ep, Em', Ep', (wildcard_regex ps (m_path m) Hs Hp Hpl), (wildcard_regex ps' (m_path m') Hs' Hp' Hpl').
  split; [reflexivity|]. split; [reflexivity|]. intro json_is.
  assert (Heq : forall a b, http_method_eqb a b = true <-> a = b).
  { intros a b. split; [destruct a, b; try easy; intro X; discriminate X|intros ->; now destruct b]. }
  assert (Hm : forall r, (matched json_is [ExMethod (m_method m); ExPath (wildcard_items ps)] r = true /\ matched json_is [ExMethod (m_method m'); ExPath (wildcard_items ps')] r = true)
    <-> (mr_method r = m_method m /\ (exists val, slash_free ps val /\ mr_path r = expand val (squeeze_pieces false ps)))
        /\ (mr_method r = m_method m' /\ (exists val, slash_free ps' val /\ mr_path r = expand val (squeeze_pieces false ps')))).
  { intro r. unfold matched. cbn [forallb meets]. rewrite !andb_true_r, !andb_true_iff, !Heq.
    rewrite (wildcard_match ps Hnd), (wildcard_match ps' Hnd'). reflexivity. }
  split.
  - intros (r & Hr). apply Hm in Hr as ((E1 & val & Hv & E2) & E1' & val' & Hv' & E2'). split; [congruence|].
    intro Ha. apply (apart_differ ps ps' val val' Ha Hv Hv'). congruence.
  - intros (E & Ha). destruct (not_apart_common ps ps' Hnd Hnd' Hw Hw' Ha) as (val & val' & Hv & Hv' & Ev).
    exists (MockRequest (m_method m) (expand val (squeeze_pieces false ps)) [] []). apply Hm. cbn [mr_method mr_path]. split; [|rewrite <- E]; eauto.
Qed.

(** Which operations give streams and builders that compile. *)
From Coq Require Import Permutation.
From Verif Require Import Base OasModel TemplateModel TemplateSpec TemplateProofs MethodModel OpModel BuilderModel
  StreamModel GenerateModel RequestSpec BuilderSpec StreamSpec PageSpec ParamProofs RefProofs BuilderProofs PageProofs
  ResponseProofs NameProofs CompileSpec CompileItemSpec CompileProofs.
Local Open Scope N_scope.

Lemma nodup_map_filter {A B} (f : A -> B) (q : A -> bool) l : NoDup (map f l) -> NoDup (map f (filter q l)).
Proof.
  induction l as [|a l IH]; [auto|]. cbn. inversion 1 as [|? ? Hn Hd]; subst. destruct (q a); cbn; auto.
  constructor; auto. intro H0. apply Hn. apply in_map_iff in H0 as (b & <- & Hb). apply filter_In in Hb as (Hb & _). now apply in_map.
Qed.

Section Page.
Context {snake pascal : str -> str} {ts : type_space} {comps : option components} {op : operation}
  {path method : str} {pp : list (ref_or parameter)} {h : hooks} {m : op_method} {sb : sig_body} {pg : pagination}.
Hypothesis Hp : process_operation snake pascal ts op comps path method pp = Ok m.
Hypothesis Hsb : method_sig_body h m = Ok sb.
Hypothesis Hpg : m_paginated m = Some pg.

Lemma page_operation : pageable ts (op_extensions op) (m_params m) (m_responses m) (pg_item pg).
Proof. apply (recognised_iff Hp). eauto. Qed.

Lemma page_success : exists t, sb_success sb = RType t /\ page_struct ts t.
Proof.
  destruct page_operation as [_ _ _ _ _ (pre & r & post & t & E & (Et & Hst) & Hpage & _)]. exists t. split.
  - pose proof Hsb as Hm. unfold method_sig_body in Hm. cbv zeta in Hm.
    apply obind_ok in Hm as (u & _ & Hm). apply obind_ok in Hm as (bs & _ & Hm).
    destruct (1 <? N.of_nat (length bs)); [easy|].
    apply obind_ok in Hm as ([si sk] & Hs & Hm). apply obind_ok in Hm as ([ei ek] & _ & Hm).
    apply obind_ok in Hm as (eas & _ & Hm). injection Hm as <-. cbn [sb_success].
    destruct (extract_ok _ _ _ _ Hs) as (Ei & Hk & _). rewrite <- Et. symmetry. apply Hk. rewrite Ei.
    match goal with |- In _ (pop_default ?l) => destruct (pop_default_keeps r l) as [H0|(H0 & _)]; [|exact H0|] end.
    + apply sort_responses_In, filter_In. split; [rewrite E; apply in_or_app; right; now left|].
      destruct Hst as [(c & -> & Hc)| ->]; cbn; [|reflexivity]. apply orb_true_iff. right. apply andb_true_iff.
      split; apply N.leb_le; lia.
    + destruct Hst as [(c & Hc & _)|Hc]; rewrite Hc in H0; easy.
  - destruct Hpage as (props & Hd & _ & (a & (p1 & p2 & Ea & _) & Hv) & (o & s & (q1 & q2 & Eo & _) & Ho & Hs)).
    exists props, a, (pg_item pg), o, s. repeat split; auto; [rewrite Ea|rewrite Eo]; apply in_or_app; right; now left.
Qed.
End Page.

Lemma forall2_app_map {A B C} (P : B -> C -> Prop) (f : A -> B) (g : A -> C) l :
  Forall2 P (map f l) (map g l) <-> Forall (fun a => P (f a) (g a)) l.
Proof.
  split.
  - induction l as [|a l IH]; intro H; constructor; inversion H; auto.
  - induction 1; constructor; auto.
Qed.

Lemma assoc_filter {A} (q : str -> bool) x (l : list (str * A)) : q x = true -> assoc x (filter (fun p => q (fst p)) l) = assoc x l.
Proof.
  intro Hq. induction l as [|[y a] l IH]; [reflexivity|]. cbn [filter fst assoc]. destruct (q y) eqn:E.
  - cbn [assoc]. now rewrite IH.
  - rewrite IH. destruct (str_eqb x y) eqn:E2; [|reflexivity]. apply str_eqb_spec in E2. congruence.
Qed.

(** ** Positional methods *)

(** The type of a parameter in the signature, when it has one. *)
Definition sig_of (p : op_param) : sig_type :=
  match p_typ p with
  | PType t => if is_optional (p_kind p) then SigOption t else SigType t
  | PRawBody => match p_kind p with KBody OctetStream => SigB | _ => SigString end
  end.

Lemma sig_of_ok types p s : sig_type_of types p = Ok s -> s = sig_of p /\ param_var s = variable_type p
  /\ (s = SigB -> raw_body_param p = true).
Proof.
  unfold sig_type_of, sig_of, variable_type, raw_body_param. destruct (p_typ p) as [t|].
  - destruct (types t); [|easy]. intros [= <-]. destruct (is_optional (p_kind p)); repeat split; easy.
  - destruct (is_optional (p_kind p)); [easy|]. destruct (p_kind p) as [| | |[]]; try easy; intros [= <-]; repeat split; easy.
Qed.

Lemma sigs_ok types ps tys : mapM (sig_type_of types) ps = Ok tys ->
  tys = map sig_of ps /\ Forall (fun p => param_var (sig_of p) = variable_type p /\ (sig_of p = SigB -> raw_body_param p = true)) ps.
Proof.
  intro H. apply mapM_ok in H. induction H as [|p s ps tys E _ (-> & IH)]; [auto|].
  destruct (sig_of_ok _ _ _ E) as (-> & H1 & H2). auto.
Qed.

Section Positional.
Context (has : type_id -> rust_trait -> Prop).
Context {snake pascal : str -> str} {ts : type_space} {comps : option components} {op : operation} {types : type_id -> option type_info}
  {ps : list piece} {method : str} {pp : list (ref_or parameter)} {h : hooks} {m : op_method} {sb : sig_body} {items : list impl_item}.
Hypothesis Hp : process_operation snake pascal ts op comps (show ps) method pp = Ok m.
Hypothesis Hlax : lax ps.
Hypothesis Hsnake : snake (lit "page_token") = lit "page_token".
Hypothesis Hsb : method_sig_body h m = Ok sb.
Hypothesis Hitems : positional_method types h m = Ok items.

Lemma combine_map {A B C} (f : A -> B) (g : A -> C) l : combine (map f l) (map g l) = map (fun a => (f a, g a)) l.
Proof. induction l; cbn; congruence. Qed.

(** [others] are the items of other operations. *)
Theorem positional_ok_iff all structs : incl items all ->
  (forall n doc params generic code, In (ImMethod n doc params generic code) all -> n = m_operation_id m ->
     In (ImMethod n doc params generic code) items) ->
  Forall (item_ok has ts all structs) items <-> sound_positional has ts ps m sb.
Proof.
  intros Hincl Hown. unfold positional_method in Hitems. cbv zeta in Hitems. rewrite Hsb in Hitems.
  apply obind_ok in Hitems as (tys & Htys & Hit). cbn [obind] in Hit. apply sigs_ok in Htys as (-> & Hs).
  rewrite combine_map in Hit.
  set (params := map (fun p => (p_name p, sig_of p)) (m_params m)) in *.
  set (generic := existsb raw_body_param (m_params m)) in *.
  assert (Escope : map (fun p => (fst p, param_var (snd p))) params = scope m).
  { unfold params, scope. rewrite map_map. apply map_ext_in. intros p Hi. rewrite Forall_forall in Hs.
    destruct (Hs p Hi) as (E & _). cbn. now rewrite E. }
  assert (Hdecl : declared params generic).
  { unfold declared, params, generic. rewrite map_map. intro Hi. apply in_map_iff in Hi as (p & E & Hi).
    apply existsb_exists. exists p. split; auto. rewrite Forall_forall in Hs. now apply Hs. }
  assert (Emethod : item_ok has ts all structs (ImMethod (m_operation_id m) (make_doc_comment m) params generic sb)
                    <-> sound_operation has ps m sb).
  { rewrite <- (method_ok_iff has Hp Hlax Hsb), <- Escope. split.
    - now inversion 1.
    - intro H. now constructor. }
  unfold sound_positional. destruct (m_paginated m) as [pg|] eqn:Epg.
  - destruct (types (pg_item pg)) as [info|]; [|easy]. injection Hit as <-.
    pose proof (page_operation Hp Epg) as Hpage. destruct (page_success Hp Hsb Epg) as (t & Et & Hstruct).
    assert (Estream : sound_operation has ps m sb ->
      (item_ok has ts all structs (ImStream (m_operation_id m ++ lit "_stream") (make_stream_doc_comment m)
                (filter (fun pt => negb (str_eqb (fst pt) (lit "page_token"))) params) generic
                (m_operation_id m) (first_params (m_params m)) (step_params (m_params m))) <-> sound_stream ts m)).
    { intro Hsound. pose proof (so_names _ _ _ _ Hsound) as Hnd.
      pose proof (recognised_params Hp pg Hsnake Hnd Epg) as (_ & (tk & Htk & Etk & Ktk) & Htok & Hqs).
      set (sparams := filter (fun pt => negb (str_eqb (fst pt) (lit "page_token"))) params).
      assert (Elook : forall p, In p (m_params m) -> p_api_name p <> lit "page_token" -> assoc (p_name p) sparams = Some (sig_of p)).
      { intros p Hi Ha. unfold sparams. rewrite (assoc_filter (fun x => negb (str_eqb x (lit "page_token")))).
        - unfold params. apply assoc_nodup_In; [now rewrite map_map|]. apply in_map_iff. now exists p.
        - apply negb_true_iff, str_eqb_neq. intro E. apply Ha. now apply Htok. }
      assert (Hre : forall p, In p (m_params m) -> reusable (sig_of p)).
      { intros p Hi. unfold sig_of. destruct (p_typ p) as [u|] eqn:E; [now destruct (is_optional (p_kind p))|].
        now destruct (pb_bodies _ _ _ _ _ Hpage p Hi). }
      assert (Hkind : forall p, In p (m_params m) -> p_api_name p = lit "page_token" -> p_kind p = KQuery false).
      { intros p Hi E. rewrite (named_once (m_params m) p tk Hnd Hi Htk); auto.
        transitivity (lit "page_token"); [|symmetry]; now apply Htok. }
      assert (Hsig : forall p, In p (m_params m) -> p_api_name p = lit "page_token" -> exists u, sig_of p = SigOption u).
      { intros p Hi E. unfold sig_of. rewrite (Hkind p Hi E). destruct (p_typ p) as [u|] eqn:Ep; [now exists u|].
        now destruct (pb_bodies _ _ _ _ _ Hpage p Hi). }
      split.
      - intro H. inversion H as [|n d' pa' g' ca' f' s' doc' params' generic' sb' t' Hnd' Hde' Hin Es' Hst' Hf Hst|]; subst.
        apply Hown in Hin; [|reflexivity]. destruct Hin as [Hin|[Hin|[]]]; [|easy]. injection Hin as <- <- <- <-.
        clear Hf. unfold step_params, params in Hst. rewrite map_map in Hst. apply forall2_app_map in Hst. rewrite Forall_forall in Hst.
        cbn [snd] in Hst. fold params in Hst. fold sparams in Hst. constructor.
        + specialize (Hst tk Htk). rewrite Etk, str_eqb_refl in Hst. exists tk. inversion Hst as [|u Hu Hv E0 E|]; subst.
          exists u. repeat split; auto. unfold sig_of in E. rewrite Ktk in E. cbn in E. destruct (p_typ tk); congruence.
        + intros p Hi (Ha & Hr). specialize (Hst p Hi).
          destruct (str_eqb (p_api_name p) (lit "page_token")) eqn:E1; [apply str_eqb_spec in E1; easy|].
          destruct (negb (str_eqb (p_api_name p) (lit "limit")) && is_query (p_kind p)) eqn:E2.
          { exfalso. apply andb_true_iff in E2 as (E2 & E3). apply negb_true_iff, str_eqb_neq in E2.
            destruct Hr as [Hr|Hr]; [easy|]. destruct (p_kind p); try easy. now apply (Hr required). }
          inversion Hst as [| |? ? _ _ Hn]; subst. cbn in Hn. intuition.
      - intros [Htk' Hnames]. eapply io_stream with (sb := sb) (t := t).
        + apply nodup_map_filter. unfold params. now rewrite map_map.
        + intro Hi. apply in_map_iff in Hi as (x & E & Hi). apply filter_In in Hi as (Hi & _). apply Hdecl. rewrite <- E.
          now apply in_map.
        + apply Hincl. now left.
        + exact Et.
        + exact Hstruct.
        + unfold first_params, params. rewrite map_map. apply forall2_app_map, Forall_forall. intros p Hi. cbn [snd].
          fold params. fold sparams. destruct (str_eqb (p_api_name p) (lit "page_token")) eqn:E1.
          * apply str_eqb_spec in E1. destruct (Hsig p Hi E1) as (u & ->). constructor.
          * apply str_eqb_neq in E1. apply ao_var; auto.
        + unfold step_params, params. rewrite map_map. apply forall2_app_map, Forall_forall. intros p Hi. cbn [snd].
          fold params. fold sparams. destruct (str_eqb (p_api_name p) (lit "page_token")) eqn:E1.
          { apply str_eqb_spec in E1. destruct Htk' as (q & u & Hq & Eq & Etq & Hu).
            assert (p = q) as ->.
            { apply (named_once (m_params m)); auto. transitivity (lit "page_token"); [|symmetry]; now apply Htok. }
            unfold sig_of. rewrite Etq. rewrite (Hkind q Hq Eq). now constructor. }
          apply str_eqb_neq in E1. destruct (negb (str_eqb (p_api_name p) (lit "limit")) && is_query (p_kind p)) eqn:E2.
          { apply andb_true_iff in E2 as (_ & E2). destruct (p_kind p) as [|r| |] eqn:Ek; try easy.
            pose proof (Hqs p r Hi Ek) as ->. unfold sig_of. rewrite Ek.
            destruct (p_typ p) eqn:Ep; [constructor|]. now destruct (pb_bodies _ _ _ _ _ Hpage p Hi). }
          apply ao_var; auto. assert (Hr : repeated p).
          { split; auto. destruct (str_eqb (p_api_name p) (lit "limit")) eqn:E3; [left; now apply str_eqb_spec|right].
            cbn in E2. intros r Er. now rewrite Er in E2. }
          destruct (Hnames p Hi Hr) as (N1 & N2 & N3). cbn. intuition. }
    split.
    + intro F. inversion F as [|? ? F1 F2]; subst. inversion F2; subst. apply Emethod in F1. split; auto. intros _. now apply Estream.
    + intros (H1 & H2). constructor; [now apply Emethod|]. constructor; [|constructor]. apply Estream; auto. now apply H2.
  - injection Hit as <-. split.
    + intro F. inversion F; subst. split; [now apply Emethod|easy].
    + intros (H1 & _). constructor; [now apply Emethod|constructor].
Qed.
End Positional.

(** ** Builders *)

Lemma fields_params : forall ps tys ins fins sets,
  length tys = length ps -> length ins = length ps -> length fins = length ps -> length sets = length ps ->
  map bf_param (fields_of ps tys ins fins sets) = map p_typ ps.
Proof.
  induction ps as [|p ps IH]; intros [|] [|] [|] [|]; cbn; try discriminate; auto. intros [= ?] [= ?] [= ?] [= ?]. f_equal. now apply IH.
Qed.

Lemma mapM_length {A B} (f : A -> outcome B) l r : mapM f l = Ok r -> length r = length l.
Proof. intro H. apply mapM_ok in H. now induction H; cbn; congruence. Qed.

Lemma builder_params types h m c : builder_struct types h m = Ok c ->
  map bf_param (bc_fields c) = map p_typ (m_params m) /\ bc_clone c = cloneable (m_params m).
Proof.
  unfold builder_struct. intro H.
  apply obind_ok in H as (tys & E1 & H). apply obind_ok in H as (ins & E2 & H). apply obind_ok in H as (fins & E3 & H).
  apply obind_ok in H as (sets & E4 & H). apply obind_ok in H as (sb & _ & H). apply obind_ok in H as (st & _ & H).
  injection H as <-. cbn. split; [|reflexivity]. apply fields_params; eapply mapM_length; eassumption.
Qed.

Lemma forall2_conj {A B} (P Q : A -> B -> Prop) l l' : Forall2 P l l' -> Forall2 Q l l' -> Forall2 (fun a b => P a b /\ Q a b) l l'.
Proof. intro H. induction H; intro K; inversion K; constructor; auto. Qed.

Lemma forall2_of_map {A B C} (f : A -> C) (g : B -> C) l l' : map g l' = map f l -> Forall2 (fun a b => g b = f a) l l'.
Proof. revert l'. induction l as [|a l IH]; intros [|b l']; try discriminate; constructor; cbn in *; [congruence|]. apply IH. congruence. Qed.

Lemma forall2_right {A B} (P : A -> B -> Prop) l l' b : Forall2 P l l' -> In b l' -> exists a, In a l /\ P a b.
Proof. induction 1 as [|x y l l' H _ IH]; [easy|]. intros [<-|Hb]; [exists x; cbn; auto|]. destruct (IH Hb) as (a & ? & ?). exists a. cbn. auto. Qed.
Lemma forall2_left {A B} (P : A -> B -> Prop) l l' a : Forall2 P l l' -> In a l -> exists b, In b l' /\ P a b.
Proof. induction 1 as [|x y l l' H _ IH]; [easy|]. intros [<-|Hb]; [exists y; cbn; auto|]. destruct (IH Hb) as (b & ? & ?). exists b. cbn. auto. Qed.

Section Builder.
Context (has : type_id -> rust_trait -> Prop).
Context {snake pascal : str -> str} {ts : type_space} {comps : option components} {op : operation} {types : type_id -> option type_info}
  {ps : list piece} {method : str} {pp : list (ref_or parameter)} {h : hooks} {m : op_method} {sb : sig_body} {c : builder_code}.
Hypothesis Hp : process_operation snake pascal ts op comps (show ps) method pp = Ok m.
Hypothesis Hlax : lax ps.
Hypothesis Hsnake : snake (lit "page_token") = lit "page_token".
Hypothesis Hsb : method_sig_body h m = Ok sb.
Hypothesis Hc : builder_struct types h m = Ok c.

Lemma builder_fields : Forall2 (fun p f => field_for types p f /\ bf_param f = p_typ p) (m_params m) (bc_fields c).
Proof.
  destruct (builder_struct_ok _ _ _ _ Hc) as (F & _). destruct (builder_params _ _ _ _ Hc) as (E & _).
  apply forall2_conj; auto. now apply forall2_of_map.
Qed.

Lemma builder_names : map bf_name (bc_fields c) = map p_name (m_params m).
Proof. pose proof builder_fields as F. induction F as [|p f ps' fs ([Hn _ _ _ _] & _) _ IH]; cbn; congruence. Qed.

(** A setter and a field agree just when types with builders are those of bodies. *)
Lemma setter_agrees p f : field_for types p f -> bf_param f = p_typ p ->
  (setter_ok (bf_name f) (bf_param f) (bf_type f) (bf_setter f) <->
   forall t i, p_typ p = PType t -> types t = Some i -> ti_builder i = true -> exists ct, p_kind p = KBody ct).
Proof.
  intros [Hn Ht Hi Hf Hs] Ep. rewrite Ep, Hn. unfold field_type_of, setter_of, get_type in *.
  destruct (p_typ p) as [t|] eqn:Et.
  - destruct (types t) as [i|] eqn:Ei; try discriminate. cbn [obind] in *. injection Ht as Ht. rewrite <- Ht. clear Ht.
    destruct (ti_builder i) eqn:Eb.
    + destruct (is_optional (p_kind p)) eqn:Eo; [easy|].
      destruct (str_eqb (p_name p) (lit "body")) eqn:En; [|easy]. injection Hs as Hs. rewrite <- Hs. rewrite andb_true_r.
      apply str_eqb_spec in En. destruct (is_body_kind (p_kind p)) eqn:Ek.
      * split.
        -- intros _ t' i' _ _ _. destruct (p_kind p); try easy. eauto.
        -- intros _. now constructor.
      * split.
        -- intro H. exfalso. destruct (is_required (p_kind p)); inversion H.
        -- intro H. destruct (H t i eq_refl Ei Eb) as (ct & E). now rewrite E in Ek.
    + rewrite andb_false_r. assert (Er : is_required (p_kind p) = negb (is_optional (p_kind p))) by (now destruct (p_kind p) as [|[]|[]|]).
      rewrite Er. split.
      * intros _ t' i' [= <-] E E'. congruence.
      * intros _. destruct (is_optional (p_kind p)); injection Hs as <-; cbn; econstructor; reflexivity.
  - split.
    + intros _ t i E. discriminate.
    + intros _. injection Ht as <-. destruct (p_kind p) as [| | |[]]; try discriminate; injection Hs as <-; now constructor.
Qed.

Definition body_maps (fs : list builder_field) : list str :=
  flat_map (fun f => match bf_setter f with StBody _ _ => [lit "body_map"] | _ => [] end) fs.

Lemma methods_permutation : builder_ok types m ->
  Permutation (builder_methods c)
    ([lit "new"; lit "send"] ++ (if m_paginated m then [lit "stream"] else []) ++ body_maps (bc_fields c) ++ map p_name (m_params m)).
Proof.
  intro Hok. destruct (builder_struct_ok _ _ _ _ Hc) as (F & _ & _ & Hst).
  assert (Hset : Permutation (flat_map setter_methods (bc_fields c)) (body_maps (bc_fields c) ++ map p_name (m_params m))).
  { assert (Hall : forall p f, In p (m_params m) -> field_for types p f -> field_case types p f)
      by (intros p f Hi Hf; exact (field_for_case types m p f Hok Hi Hf)).
    revert Hall. generalize dependent (bc_fields c). generalize (m_params m). clear.
    intros ps fs F. induction F as [|p f ps fs H _ IH]; intro Hall; [constructor|]. cbn [flat_map body_maps map].
    specialize (IH (fun p f Hi => Hall p f (or_intror Hi))). pose proof (Hall p f (or_introl eq_refl) H) as Hcase.
    pose proof (ff_name _ _ _ H) as Hn. unfold setter_methods at 1.
    destruct Hcase as [t ty _ _ _ _ _ Hb E|ty _ _ _ _ _ _ E|ty _ _ _ _ _ _ [E|E]]; rewrite E, ?Hn, ?Hb; cbn [app].
    - transitivity (lit "body_map" :: lit "body" :: flat_map setter_methods fs); [constructor|]. constructor.
      now rewrite IH, <- Permutation_middle.
    - now rewrite IH, <- Permutation_middle.
    - now rewrite IH, <- Permutation_middle.
    - now rewrite IH, <- Permutation_middle. }
  unfold builder_methods. cbn [app]. constructor. rewrite Hset.
  assert (Es : match bc_stream c with Some _ => [lit "stream"] | None => [] end = if m_paginated m then [lit "stream"] else []).
  { destruct (m_paginated m); now rewrite Hst. }
  rewrite Es, <- Permutation_middle. constructor. apply Permutation_app_comm.
Qed.

Lemma body_maps_cases : builder_ok types m ->
  (body_maps (bc_fields c) = [] /\ forall p t, In p (m_params m) -> ~ nested types p t)
  \/ (body_maps (bc_fields c) = [lit "body_map"] /\ exists p t, In p (m_params m) /\ nested types p t).
Proof.
  intro Hok. destruct (builder_struct_ok _ _ _ _ Hc) as (F & _).
  assert (Hall : forall p f, In p (m_params m) -> field_for types p f -> field_case types p f)
      by (intros p f Hi Hf; exact (field_for_case types m p f Hok Hi Hf)).
  destruct Hok as (Hnd & _). revert Hall Hnd. generalize dependent (bc_fields c). generalize (m_params m). clear.
  intros ps fs F. induction F as [|p f ps fs H F IH]; intros Hall Hnd; [left; split; [reflexivity|easy]|].
  cbn [body_maps flat_map]. fold (body_maps fs). pose proof (Hall p f (or_introl eq_refl) H) as Hcase.
  cbn [map] in Hnd. inversion Hnd as [|? ? Hn Hnd']; subst.
  specialize (IH (fun p f Hi => Hall p f (or_intror Hi)) Hnd').
  assert (Hskip : (forall t, ~ nested types p t) -> match bf_setter f with StBody _ _ => [lit "body_map"] | _ => [] end = [] ->
    (match bf_setter f with StBody _ _ => [lit "body_map"] | _ => [] end ++ body_maps fs = [] /\ (forall q t, In q (p :: ps) -> ~ nested types q t))
    \/ (match bf_setter f with StBody _ _ => [lit "body_map"] | _ => [] end ++ body_maps fs = [lit "body_map"] /\ exists q t, In q (p :: ps) /\ nested types q t)).
  { intros Hno ->. destruct IH as [(E & Hx)|(E & q & t & Hq & Hx)].
    - left. split; [exact E|]. intros q t [<-|Hq]; auto.
    - right. split; [exact E|]. exists q, t. split; [now right|exact Hx]. }
  destruct Hcase as [t ty Hne _ _ _ _ Hb E|ty Hno _ _ _ _ _ E|ty Hno _ _ _ _ _ [E|E]]; try (apply Hskip; [exact Hno|now rewrite E]).
  rewrite E. right. split; [|exists p, t; split; [now left|exact Hne]].
  destruct IH as [(-> & _)|(_ & q & t' & Hq & Hx)]; [reflexivity|]. exfalso. apply Hn. rewrite Hb.
  destruct (forall2_left _ _ _ _ F Hq) as (g & Hg & Hqg).
  destruct (Hall q g (or_intror Hq) Hqg) as [t2 ty2 _ _ _ _ _ Hb2 _|ty2 Hno _ _ _ _ _ _|ty2 Hno _ _ _ _ _ _];
    [rewrite <- Hb2; now apply in_map|now destruct (Hno t')|now destruct (Hno t')].
Qed.

Lemma method_names_iff : builder_ok types m ->
  NoDup (builder_methods c) <->
  no_parameter (lit "new") m /\ no_parameter (lit "send") m
  /\ ((exists p t, In p (m_params m) /\ nested types p t) -> no_parameter (lit "body_map") m)
  /\ (m_paginated m <> None -> no_parameter (lit "stream") m).
Proof.
  intro Hok. pose proof (methods_permutation Hok) as P. pose proof (proj1 Hok) as Hnd. unfold no_parameter.
  assert (E : NoDup (builder_methods c) <->
    NoDup ([lit "new"; lit "send"] ++ (if m_paginated m then [lit "stream"] else []) ++ body_maps (bc_fields c) ++ map p_name (m_params m))).
  { split; apply Permutation_NoDup; [exact P|now symmetry]. }
  rewrite E. destruct (body_maps_cases Hok) as [(-> & Hno)|(-> & Hyes)]; destruct (m_paginated m) as [pg|]; cbn [app];
    rewrite !NoDup_cons_iff; cbn [In].
  - assert (Hd : ~ exists p t, In p (m_params m) /\ nested types p t) by (intros (p & t & Hi & Hx); now destruct (Hno p t)).
    assert (lit "new" <> lit "send") by easy. assert (lit "new" <> lit "stream") by easy. assert (lit "send" <> lit "stream") by easy.
    assert (Some pg <> None) by easy. intuition congruence.
  - assert (Hd : ~ exists p t, In p (m_params m) /\ nested types p t) by (intros (p & t & Hi & Hx); now destruct (Hno p t)).
    assert (lit "new" <> lit "send") by easy. intuition congruence.
  - assert (lit "new" <> lit "send") by easy. assert (lit "new" <> lit "stream") by easy. assert (lit "send" <> lit "stream") by easy.
    assert (lit "new" <> lit "body_map") by easy. assert (lit "send" <> lit "body_map") by easy. assert (lit "stream" <> lit "body_map") by easy.
    assert (Some pg <> None) by easy. intuition congruence.
  - assert (lit "new" <> lit "send") by easy. assert (lit "new" <> lit "body_map") by easy. assert (lit "send" <> lit "body_map") by easy.
    intuition congruence.
Qed.

Lemma builder_send : sb = bc_send c.
Proof. destruct (builder_struct_ok _ _ _ _ Hc) as (_ & E & _). congruence. Qed.

Lemma client_fresh : NoDup (map p_name (m_params m)) -> NoDup (builder_struct_fields c).
Proof.
  intro Hnd. unfold builder_struct_fields. rewrite builder_names. constructor; auto.
  destruct (builder_struct_ok _ _ _ _ Hc) as (_ & _ & -> & _).
  destruct (unique_ident_spec (lit "client") (map p_name (m_params m))) as (k & -> & Hn & _). exact Hn.
Qed.

Section Ok.
Hypothesis Hok : builder_ok types m.

Lemma cases : Forall2 (fun p f => field_case types p f /\ bf_name f = p_name p /\ bf_param f = p_typ p) (m_params m) (bc_fields c).
Proof.
  pose proof builder_fields as F.
  assert (Hall : forall p f, In p (m_params m) -> field_for types p f -> field_case types p f)
    by (intros p f Hi Hf; exact (field_for_case types m p f Hok Hi Hf)).
  revert Hall. induction F as [|p f l fs (H & E) _ IH]; intro Hall; constructor.
  - split; [apply Hall; [now left|exact H]|]. split; [apply H|exact E].
  - apply IH. intros q g Hi. apply Hall. now right.
Qed.

Lemma case_variable p f v : field_case types p f -> bf_param f = p_typ p ->
  finalized (bf_param f) (bf_type f) (bf_finalize f) v <-> v = variable_type p.
Proof.
  intros Hcase Ep. rewrite Ep. unfold variable_type.
  destruct Hcase as [t ty ((ct & Hk) & Et & _) E1 E2 E3 _ _ _|ty Hno Ho E1 E2 E3 Htt E|ty Hno Ho E1 E2 E3 Htt _]; rewrite E1, E3.
  - rewrite Et, Hk. cbn. split; [now inversion 1|]. intros ->. now constructor.
  - destruct Htt as [t i Et Ei|Et Ek|mime Et Ek]; [|rewrite Ek in Ho; discriminate|rewrite Ek in Ho; discriminate].
    rewrite Et, Ho. split; [inversion 1; congruence|]. intros ->. now constructor.
  - rewrite Ho. destruct (p_typ p) as [t|]; split; try (now intros ->; constructor); inversion 1; congruence.
Qed.

Lemma case_initial p f : field_case types p f -> initial_ok (bf_type f) (bf_initial f).
Proof.
  intros [t ty _ E1 E2 _ _ _ _|ty _ _ E1 E2 _ _ _|ty _ _ E1 E2 _ _ _]; rewrite E1, E2; constructor.
Qed.

Lemma nested_param p t : nested types p t -> p_typ p = PType t.
Proof. intros (_ & E & _). exact E. Qed.

Lemma case_has tr p f : field_case types p f -> bf_param f = p_typ p ->
  field_has has tr f <-> (forall t, p_typ p = PType t -> ~ nested types p t -> has t tr) /\ (p_typ p = PRawBody -> tr = TrDebug).
Proof.
  intros Hcase Ep. unfold field_has. rewrite Ep.
  destruct Hcase as [t ty Hne E1 _ _ _ _ _|ty Hno _ E1 _ _ _ _|ty Hno _ E1 _ _ _ _]; rewrite E1.
  - pose proof (nested_param _ _ Hne) as Et. split; [|auto]. intros _. rewrite Et. split; [|discriminate].
    intros t' [= <-] Hx. now destruct Hx.
  - destruct (p_typ p) as [t|]; split.
    + intro H. split; [|discriminate]. now intros t' [= <-] _.
    + intros (H & _). now apply H.
    + intro H. split; [discriminate|auto].
    + intros (_ & H). auto.
  - destruct (p_typ p) as [t|]; split.
    + intro H. split; [|discriminate]. now intros t' [= <-] _.
    + intros (H & _). now apply H.
    + intro H. split; [discriminate|auto].
    + intros (_ & H). auto.
Qed.

Lemma fields_have tr : Forall (field_has has tr) (bc_fields c) <->
  (forall p t, In p (m_params m) -> p_typ p = PType t -> ~ nested types p t -> has t tr)
  /\ (forall p, In p (m_params m) -> p_typ p = PRawBody -> tr = TrDebug).
Proof.
  pose proof cases as F. rewrite Forall_forall. split.
  - intro H. split.
    + intros p t Hi Et Hn. destruct (forall2_left _ _ _ _ F Hi) as (f & Hf & Hcase & _ & Ep).
      apply H in Hf. apply (case_has tr p f Hcase Ep) in Hf as (Hf & _). now apply Hf.
    + intros p Hi Et. destruct (forall2_left _ _ _ _ F Hi) as (f & Hf & Hcase & _ & Ep).
      apply H in Hf. apply (case_has tr p f Hcase Ep) in Hf as (_ & Hf). auto.
  - intros (H1 & H2) f Hf. destruct (forall2_right _ _ _ _ F Hf) as (p & Hi & Hcase & _ & Ep).
    apply (case_has tr p f Hcase Ep). split; eauto.
Qed.

Lemma finalized_scope vs : Forall2 (fun f v => finalized (bf_param f) (bf_type f) (bf_finalize f) v) (bc_fields c) vs
  <-> vs = map variable_type (m_params m).
Proof.
  pose proof cases as F. revert vs. induction F as [|p f l fs (Hcase & _ & Ep) _ IH]; intro vs.
  - split; [now inversion 1|]. intros ->. constructor.
  - split.
    + inversion 1 as [|? v ? vs' Hv Hvs]; subst. apply (case_variable p f v Hcase Ep) in Hv. apply IH in Hvs. cbn. congruence.
    + intros ->. cbn. constructor; [now apply (case_variable p f _ Hcase Ep)|]. now apply IH.
Qed.

Lemma cloneable_iff : bc_clone c = true <-> forall p, In p (m_params m) -> p_typ p <> PRawBody.
Proof.
  destruct (builder_params _ _ _ _ Hc) as (_ & ->). unfold cloneable. rewrite forallb_forall. split; intros H p Hi; specialize (H p Hi).
  - now destruct (p_typ p).
  - now destruct (p_typ p).
Qed.

Lemma builder_stream_iff pg : m_paginated m = Some pg -> no_parameter (lit "stream") m ->
  (forall resets, bc_stream c = Some resets -> stream_ok ts c resets) <-> token_is_string ts m /\ no_parameter (lit "clone") m.
Proof.
  intros Epg Hstream. pose proof (page_operation Hp Epg) as Hpage. pose proof (page_success Hp Hsb Epg) as Hsucc.
  rewrite builder_send in Hsucc.
  destruct (builder_struct_ok _ _ _ _ Hc) as (_ & _ & _ & Hst). rewrite Epg in Hst. rewrite Hst.
  pose proof cases as F. pose proof (proj1 Hok) as Hnd.
  pose proof (recognised_params Hp pg Hsnake Hnd Epg) as (_ & (tk & Htk & Etk & Ktk) & Htok & Hqs).
  assert (Hclone : In (lit "clone") (builder_methods c) <-> In (lit "clone") (map p_name (m_params m))).
  { pose proof (methods_permutation Hok) as P. split.
    - intro H. apply (Permutation_in _ P) in H. rewrite Epg in H. cbn [app In] in H.
      destruct H as [H|[H|[H|H]]]; try discriminate. apply in_app_or in H as [H|H]; auto.
      destruct (body_maps_cases Hok) as [(E & _)|(E & _)]; rewrite E in H; [easy|]. destruct H as [H|[]]. discriminate.
    - intro H. apply (Permutation_in _ (Permutation_sym P)). rewrite !in_app_iff. auto. }
  assert (Hqopt : forall p, In p (m_params m) -> is_query (p_kind p) = true -> exists f, In f (bc_fields c) /\ bf_name f = p_name p
      /\ bf_type f = FtOptional /\ bf_param f = p_typ p).
  { intros p Hi Hq. destruct (forall2_left _ _ _ _ F Hi) as (f & Hf & Hcase & En & Ep). exists f. repeat split; auto.
    destruct (p_kind p) as [|r| |] eqn:Ek; try easy. pose proof (Hqs p r Hi Ek) as ->.
    destruct Hcase as [t ty ((ct & Hk) & _) _ _ _ _ _ _|ty _ _ E1 _ _ _ _|ty _ Ho _ _ _ _ _]; [congruence|exact E1|]. rewrite Ek in Ho. discriminate. }
  unfold no_parameter. rewrite <- Hclone. split.
  - intro H. destruct (H _ eq_refl) as [_ _ (f & t & Hf & En & _ & Ep & Hs) _ Hn _]. split; [|exact Hn].
    destruct (forall2_right _ _ _ _ F Hf) as (p & Hi & _ & En' & Ep'). exists p, t. repeat split; auto; [|congruence].
    apply Htok; auto. congruence.
  - intros ((q & u & Hq & Eq & Etq & Hu) & Hn) resets [= <-].
    assert (q = tk) as ->.
    { apply (named_once (m_params m)); auto. transitivity (lit "page_token"); [|symmetry]; now apply Htok. }
    constructor.
    + clear -Hnd. unfold reset_fields. induction (m_params m) as [|p l IH]; [constructor|]. cbn [flat_map map] in *.
      inversion Hnd as [|? ? Hn Hnd']; subst. destruct (p_kind p); cbn [app]; auto.
      destruct (str_eqb (p_api_name p) (lit "limit")); cbn [app]; auto. constructor; auto. intro H. apply Hn.
      apply in_flat_map in H as (x & Hx & H). apply in_map_iff. exists x. split; auto.
      destruct (p_kind x); try easy. destruct (str_eqb (p_api_name x) (lit "limit")); [easy|]. destruct H as [H|[]]. auto.
    + apply Forall_forall. intros n Hin. unfold reset_fields in Hin. apply in_flat_map in Hin as (p & Hi & Hin).
      destruct (p_kind p) as [|r| |] eqn:Ek; try easy. destruct (str_eqb (p_api_name p) (lit "limit")); [easy|].
      destruct Hin as [<-|[]]. destruct (Hqopt p Hi) as (f & Hf & En & Et & _); [now rewrite Ek|]. eauto.
    + destruct (Hqopt tk Htk) as (f & Hf & En & Et & Ep); [now rewrite Ktk|]. exists f, u. repeat split; auto; [|congruence].
      rewrite En. now apply Htok.
    + apply cloneable_iff. exact (pb_bodies _ _ _ _ _ Hpage).
    + exact Hn.
    + exact Hsucc.
Qed.
End Ok.

Theorem builder_ok_iff : builder_code_ok has ts c <-> sound_builder has ts types ps m sb.
Proof.
  pose proof builder_fields as F.
  assert (Hbodies : Forall (fun f => setter_ok (bf_name f) (bf_param f) (bf_type f) (bf_setter f)) (bc_fields c) <->
    forall p t i, In p (m_params m) -> p_typ p = PType t -> types t = Some i -> ti_builder i = true -> exists ct, p_kind p = KBody ct).
  { rewrite Forall_forall. split.
    - intros H p t i Hi. destruct (forall2_left _ _ _ _ F Hi) as (f & Hf & Hfor & Ep). apply H in Hf.
      apply (setter_agrees p f Hfor Ep); auto.
    - intros H f Hf. destruct (forall2_right _ _ _ _ F Hf) as (p & Hi & Hfor & Ep).
      apply (setter_agrees p f Hfor Ep). intros t i. now apply H. }
  split.
  - intros [B1 B2 B3 B4 B5 B6 (vs & Hvs & Hb) B8]. pose proof (proj1 Hbodies B4) as Hbod.
    assert (Hnd : NoDup (map p_name (m_params m))).
    { unfold builder_struct_fields in B1. rewrite builder_names in B1. now inversion B1. }
    assert (Hok : builder_ok types m) by (split; [exact Hnd|exact Hbod]).
    apply (method_names_iff Hok) in B2 as (N1 & N2 & N3 & N4).
    apply (finalized_scope Hok) in Hvs. subst vs. rewrite builder_names, combine_map, <- builder_send in Hb.
    apply (fields_have Hok) in B5 as (D1 & _). constructor; auto.
    + apply (method_ok_iff has Hp Hlax Hsb). split; [rewrite (scope_names); exact Hnd|exact Hb].
    + intros Hraw p t. apply cloneable_iff in Hraw. apply B6 in Hraw. apply (fields_have Hok) in Hraw as (H & _). apply H.
    + intro Hpg. destruct (m_paginated m) as [pg|] eqn:Epg; [|easy].
      apply (builder_stream_iff Hok pg Epg (N4 Hpg)) in B8 as (H1 & H2). auto.
  - intros [S1 S2 S3 S4 S5 S6 S7 S8]. pose proof (so_names _ _ _ _ S1) as Hnd.
    assert (Hok : builder_ok types m) by (split; auto). constructor.
    + now apply client_fresh.
    + apply (method_names_iff Hok). repeat split; auto. intro H. now apply S8.
    + apply Forall_forall. intros f Hf. destruct (forall2_right _ _ _ _ (cases Hok) Hf) as (p & _ & Hcase & _). eapply case_initial; eauto.
    + now apply Hbodies.
    + apply (fields_have Hok). split; auto.
    + intro Hcl. apply (fields_have Hok). pose proof (proj1 cloneable_iff Hcl) as Hraw. split; [now apply S7|].
      intros p Hi E. now destruct (Hraw p Hi).
    + exists (map variable_type (m_params m)). split; [now apply (finalized_scope Hok)|].
      rewrite builder_names, combine_map, <- builder_send. apply (method_ok_iff has Hp Hlax Hsb) in S1 as (_ & S1). exact S1.
    + destruct (m_paginated m) as [pg|] eqn:Epg.
      * destruct S8 as (H1 & H2 & H3); [easy|]. now apply (builder_stream_iff Hok pg Epg H2).
      * destruct (builder_struct_ok _ _ _ _ Hc) as (_ & _ & _ & Hst). rewrite Epg in Hst. rewrite Hst. discriminate.
Qed.
End Builder.

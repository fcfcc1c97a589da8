(** The builder results in the form of the property statements. *)
From Verif Require Import Base ClientModel MethodModel RunModel BuilderModel BuilderSpec BuilderProofs BuilderSend RequestSpec NameSpec EpisodeKinds.
Local Open Scope N_scope.

Section Cor.
Context {B : Type} {types : type_id -> option type_info} {b_default : type_id -> B} {b_from : type_id -> value -> B}
  {h : hooks} {m : op_method} {c : builder_code} {cs : list (setter_call B)} {st : list (str * field B)}.
Variable b_try_from : type_id -> B -> result value str.
Hypothesis H : built types b_default b_from h m c cs st.
Notation gives := (gives types b_default b_from b_try_from).

Lemma cor_plain p : In p (m_params m) -> (forall t, ~ nested types p t) ->
  (exists r, gives cs p r) /\
  forall r, gives cs p r -> exists x, assoc (p_name p) st = Some x /\ holds x r.
Proof.
  destruct H as [Hg Ho Hl Hb]. intros Hp Hn. split.
  - eapply (gives_total types b_default b_from b_try_from); eauto.
  - intros r Hr. eapply (state_plain types b_default b_from b_try_from); eauto.
Qed.

Lemma cor_body p t : In p (m_params m) -> nested types p t ->
  (exists r, body_after types b_default b_from p t cs r) /\
  forall r, body_after types b_default b_from p t cs r -> assoc (lit "body") st = Some (FBuilder r).
Proof.
  destruct H as [Hg Ho Hl Hb]. intros Hp Hn. split.
  - eapply body_after_total; eauto.
  - intros r Hr. eapply (state_body types b_default b_from); eauto.
Qed.

Lemma cor_independent cs' st' r p : built types b_default b_from h m c cs' st' -> In p (m_params m) ->
  own types p cs r -> own types p cs' r ->
  assoc (p_name p) st = assoc (p_name p) st' /\ assoc (p_name p) st <> None.
Proof.
  destruct H as [Hg Ho Hl Hb]. intros [_ _ Hl' Hb']. intros Hp Hr Hr'.
  exact (state_independent types b_default b_from h m c Hg Ho p cs cs' r st st' Hl Hl' Hb Hb' Hp Hr Hr').
Qed.

Section Run.
Context {V W : Type} {ctx : context} {fs : type_id -> list N -> result V jerr} {ops : world_ops W}.
Notation sent w := (send B b_try_from V ctx fs W ops c st w).

Lemma cor_refused pre p post msg w : m_params m = pre ++ p :: post ->
  Forall (fun q => exists o, gives cs q (ROk o)) pre -> gives cs p (RErr msg) ->
  sent w = (Returned (RErr (InvalidRequest msg)), [], w).
Proof. destruct H as [Hg Ho Hl Hb]. eapply (send_refused types b_default b_from b_try_from); eauto. Qed.

Lemma cor_runs args w : map fst args = m_params m -> Forall (fun pv => gives cs (fst pv) (ROk (snd pv))) args ->
  exists sb, method_sig_body h m = Ok sb /\ sent w = run V ctx fs W ops sb (variables args) w.
Proof.
  destruct H as [Hg Ho Hl Hb]. intros. exists (bc_send c). split; [now apply (builder_struct_ok types h m c)|].
  eapply (send_runs types b_default b_from b_try_from); eauto.
Qed.

Lemma cor_decided :
  (exists args, map fst args = m_params m /\ Forall (fun pv => gives cs (fst pv) (ROk (snd pv))) args) \/
  (exists pre p post msg, m_params m = pre ++ p :: post /\
     Forall (fun q => exists o, gives cs q (ROk o)) pre /\ gives cs p (RErr msg)).
Proof. destruct H as [Hg Ho Hl Hb]. eapply (decided types b_default b_from b_try_from); eauto. Qed.

Lemma cor_positional args w : arguments_for (m_params m) args ->
  Forall (fun pv => latest (p_name (fst pv)) cs (option_map ROk (snd pv))) args ->
  (forall g, ~ In (CallBodyMap g) cs) ->
  (forall t v, b_try_from t (b_from t v) = ROk v) ->
  forall sb, method_sig_body h m = Ok sb -> sent w = run V ctx fs W ops sb (variables args) w.
Proof.
  destruct H as [Hg Ho Hl Hb]. intros Ha Hs Hn Hrt sb Hsb.
  eapply (send_positional types b_default b_from b_try_from); eauto. now split.
Qed.
End Run.
End Cor.

Lemma cor_total {B} types (b_default : type_id -> B) b_from h m c cs :
  builder_struct types h m = Ok c -> builder_ok types m -> Forall (legal_call types m) cs ->
  exists st, built types b_default b_from h m c cs st.
Proof.
  intros Hg Ho Hl. destruct (build_total types b_default b_from h m c Hg Ho cs Hl) as (st & Hb). exists st. now split.
Qed.

Lemma cor_client types h m c : builder_struct types h m = Ok c ->
  ~ In (bc_client c) (map p_name (m_params m)) /\ ~ In (bc_client c) (declared (bc_send c)).
Proof. intro. eapply client_free; eauto. Qed.

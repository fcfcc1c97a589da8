(** The settings as read by the generator. *)
From Verif Require Import Base OasModel OpModel BuilderModel SanitizeModel GenerateModel MacroModel MacroSpec SettingsModel SettingsSpec
  SettingsProofs SettingsMain ScriptModel ScriptSpec ScriptProofs SettingsReadSpec.

Section Script.
Context {T V I Sch : Type}.

Lemma said_iff {A} (f : A -> call T V I Sch) (calls : list (call T V I Sch)) (o : option A) :
  settled_opt (fun c t => c = f t) calls o -> given o = true <-> exists t, In (f t) calls.
Proof.
  destruct o as [v|]; cbn.
  - intros (pre & c & post & -> & -> & _). split; [intros _; exists v; apply in_or_app; right; now left|reflexivity].
  - intro H. split; [discriminate|]. intros (t & Hi). now elim (H _ t Hi).
Qed.

Lemma script_read (calls : list (call T V I Sch)) :
  reads (settled (fun c i => c = SetInterface _ _ _ _ i) Positional calls) (settled (fun c t => c = SetTag _ _ _ _ t) Merged calls)
    (exists t, In (SetInnerType _ _ _ _ t) calls) (exists t, In (SetPreHook _ _ _ _ t) calls) (exists t, In (SetPreHookAsync _ _ _ _ t) calls)
    (exists t, In (SetPostHook _ _ _ _ t) calls) (exists t, In (SetPostHookAsync _ _ _ _ t) calls)
    (read_settings T V I Sch (settings_after T V I Sch calls)).
Proof.
  destruct (generator_told calls) as [A1 A2 A3 A4 A5 A6 A7].
  split; cbn [read_settings se_interface se_tag se_inner se_hooks MethodModel.has_pre_hook MethodModel.has_pre_hook_async MethodModel.has_post_hook
    MethodModel.has_post_hook_async]; auto; first [exact (said_iff _ _ _ A3)|exact (said_iff _ _ _ A4)|exact (said_iff _ _ _ A5)
    |exact (said_iff _ _ _ A6)|exact (said_iff _ _ _ A7)].
Qed.
End Script.

Lemma chosen_iff {T Sch A} (says : entry T Sch -> A -> Prop) es (o : option A) : chosen_opt says es o -> given o = true <-> exists e a, In e es /\ says e a.
Proof.
  destruct o as [v|]; cbn.
  - intros (e & Hi & Hs). split; [eauto|reflexivity].
  - intro H. split; [discriminate|]. intros (e & a & Hi & Hs). now elim (H e a Hi).
Qed.

Lemma macro_read T V I Sch text U semver closure_body path stream path_text impl_of impl_eqb default_impls :
  no_paren path -> (forall i j : I, impl_eqb i j = true <-> i = j) -> NoDup default_impls ->
  forall o es spec s, orders_ok o ->
  read_invocation T V I Sch text U semver closure_body path stream path_text impl_of impl_eqb default_impls o (InvKeys _ _ es) = Some (spec, s) ->
  reads (chosen (fun e i => e = EnInterface _ _ i) Positional es) (chosen (fun e t => e = EnTags _ _ t) Merged es)
    (exists t, In (EnInnerType _ _ t) es) (exists ts, In (EnPreHook _ _ ts) es) (exists ts, In (EnPreHookAsync _ _ ts) es)
    (exists ts, In (EnPostHook _ _ ts) es) (exists ts, In (EnPostHookAsync _ _ ts) es) (read_settings T V I Sch s).
Proof.
  intros Hpar Heqb Hnd o es spec s Ho E.
  destruct (delivered text U semver closure_body path stream path_text impl_of impl_eqb default_impls Hpar Heqb Hnd o es spec s Ho E)
    as (_ & [D1 D2 D3 D4 D5 D6 D7] & _).
  assert (Hr : Forall (readable_value U semver closure_body path) es).
  { refine (proj2 (proj2 (proj1 (accepted_iff U semver closure_body path stream impl_of Hpar es) _))).
    cbn [read_invocation] in E. destruct (from_tokenstream _ _ _ _ _ _ _ _ _ _ es) as [m|]; [now exists m|discriminate]. }
  rewrite Forall_forall in Hr.
  assert (Hk : forall con (g : option T), (forall ts, In (con ts) es -> exists out, hook_text closure_body path ts out) ->
    chosen_opt (fun e t => exists ts, e = con ts /\ hook_given closure_body path stream ts t) es g ->
    given g = true <-> exists ts, In (con ts) es).
  { intros con g Hc Hg. rewrite (chosen_iff _ _ _ Hg). split.
    - intros (e & a & Hi & ts & -> & _). eauto.
    - intros (ts & Hi). destruct (Hc ts Hi) as (out & Ht). exists (con ts), (stream out). split; auto. exists ts. split; auto. now exists out. }
  split; cbn [read_settings se_interface se_tag se_inner se_hooks MethodModel.has_pre_hook MethodModel.has_pre_hook_async MethodModel.has_post_hook
    MethodModel.has_post_hook_async]; auto.
  - rewrite (chosen_iff _ _ _ D3). split; [intros (e & a & Hi & ->); eauto|intros (t & Hi); eauto].
  - apply (Hk (EnPreHook _ _)); auto. intros ts Hi. exact (Hr _ Hi).
  - apply (Hk (EnPreHookAsync _ _)); auto. intros ts Hi. exact (Hr _ Hi).
  - apply (Hk (EnPostHook _ _)); auto. intros ts Hi. exact (Hr _ Hi).
  - apply (Hk (EnPostHookAsync _ _)); auto. intros ts Hi. exact (Hr _ Hi).
Qed.

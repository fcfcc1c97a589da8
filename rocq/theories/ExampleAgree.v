(** A macro and a build script that say the same. *)
From Coq Require Import Permutation.
From Verif Require Import Base OasModel OpModel BuilderModel MethodModel SanitizeModel GenerateModel MacroModel MacroSpec MacroProofs
  SettingsModel SettingsSpec SettingsProofs SettingsMain SettingsOrder ScriptModel ScriptSpec ScriptProofs AgreeSpec AgreeProofs AgreeCode
  CargoModel SpaceModel CrateModel CrateSpec ExampleData ExampleGenerate ExampleMacro ExampleSettings ExampleScript ExampleCrate.
Local Open Scope N_scope.

Definition e_hook : list tree := [TrWord (lit "move"); TrSign (ch "|"); TrWord (lit "r"); TrSign (ch "|"); TrWord (lit "f"); TrParen []].
Definition e_entries : list (entry (list tree) str) :=
  [EnSpec _ _ (lit "api.json"); EnInterface _ _ Builder; EnPreHook _ _ s_hook; EnDerives _ _ [s_word_of (lit "Hash")];
   EnCrates _ _ [(lit "rand", lit "!")]; EnPatch _ _ [(lit "A", MacroPatch _ (Some (lit "B")) [s_word_of (lit "Eq")])];
   EnReplace _ _ [(lit "F", [TkIdent (lit "G")])]; EnMapType _ _ (s_word_of (lit "Map"))].
(** Some calls are overruled later. *)
Definition e_calls : list (call (list tree) str N str) :=
  [SetMapType _ _ _ _ (lit "Map"); SetPatch _ _ _ _ (lit "A") []; SetInterface _ _ _ _ Positional;
   SetReplacement _ _ _ _ (lit "F") (lit "G") [1; 0]; SetPatch _ _ _ _ (lit "A") [PatchRename (lit "B"); PatchDerive (lit "Eq")];
   SetInterface _ _ _ _ Builder; SetPreHook _ _ _ _ e_hook; AddDerive _ _ _ _ (lit "Hash"); SetCrate _ _ _ _ (lit "rand") VersNever None].

Ltac one_of He := cbn in He; repeat (destruct He as [He|He]; [try discriminate He|]); try (now destruct He).
Lemma e_type : type_means s_type some_impl [0; 1] [TkIdent (lit "G")] (lit "G") [1; 0].
Proof.
  exists false, (lit "G"), [], []. split; [reflexivity|]. split; [reflexivity|]. split.
  - constructor; [intros [[=]|[]]|]. constructor; [easy|constructor].
  - intro i. split.
    + intro H. right. split; [constructor|]. destruct H as [<-|[<-|[]]]; cbn; auto.
    + intros [(l1 & w & l2 & E & _)|[_ H]]; [destruct l1; discriminate|]. destruct H as [<-|[<-|[]]]; cbn; auto.
Qed.
Lemma e_hooked t : hook_given s_closure s_path (fun ts => ts) s_hook t -> t = e_hook.
Proof.
  intros (out & H & ->). apply (hook_iff s_closure s_path s_no_paren) in H. vm_compute in H. injection H as <-. reflexivity.
Qed.
Lemma e_never : configures unicode15 some_semver (lit "rand", lit "!") (lit "rand") VersNever None.
Proof. apply CfPlain, VxPlain; [vm_compute; intuition discriminate|constructor]. Qed.
Lemma e_single {A} k (a : A) n v : last_in n [(k, a)] v -> n = k /\ v = a.
Proof.
  intros (l1 & l2 & E & _). destruct l1 as [|x l1]; [injection E as -> ->; auto|]. exfalso. injection E as _ E. destruct l1; discriminate.
Qed.
Lemma e_last {A} k (a : A) : last_in k [(k, a)] a.
Proof. exists [], []. auto. Qed.

Notation e_agrees es calls := (agrees s_text unicode15 some_semver s_closure s_path (fun ts => ts) s_type some_impl [0; 1] es calls).
Lemma e_said : e_agrees e_entries e_calls.
Proof.
  pose proof (generator_told e_calls) as Ht. destruct Ht.
  destruct (patches_settled e_calls) as [_ Hp]. destruct (replacements_settled e_calls) as [_ Hr]. destruct (crates_settled e_calls) as [_ Hc].
  split.
  - intros v [(e & He & ->)|[Hn _]]; [|elim (Hn (EnInterface _ _ Builder) Builder); cbn; auto].
    one_of He. injection He as <-. exact tl_interface.
  - intros v [(e & He & ->)|[_ ->]]; [one_of He|]. exact tl_tag.
  - intros [v|] He; cbn in He; [destruct He as (e & He & ->); one_of He|exact tl_inner].
  - intros [v|] He; cbn in He; [|exfalso; apply (He (EnPreHook _ _ s_hook) e_hook); [cbn; auto|]].
    + destruct He as (e & He & ts & -> & Hh). one_of He. injection He as <-. apply e_hooked in Hh as ->. exact tl_pre.
    + exists s_hook. split; [reflexivity|]. exists e_hook. split; [|reflexivity]. apply (hook_iff s_closure s_path s_no_paren). reflexivity.
  - intros [v|] He; cbn in He; [destruct He as (e & He & ts & -> & Hh); one_of He|exact tl_pre_async].
  - intros [v|] He; cbn in He; [destruct He as (e & He & ts & -> & Hh); one_of He|exact tl_post].
  - intros [v|] He; cbn in He; [destruct He as (e & He & ts & -> & Hh); one_of He|exact tl_post_async].
  - intros l [(e & He & ts & -> & ->)|[Hn _]]; [one_of He; injection He as <-; reflexivity|].
    exfalso. apply (Hn (EnDerives _ _ [s_word_of (lit "Hash")]) [lit "Hash"]); [cbn; auto|]. eexists. split; reflexivity.
  - intros v [(e & He & ->)|[_ ->]]; [one_of He|]. exact (policy_settled e_calls).
  - intros [v|] He; cbn in He; [|exfalso; apply (He (EnMapType _ _ (s_word_of (lit "Map"))) (lit "Map")); [cbn; auto 10|eexists; split; reflexivity]].
    destruct He as (e & He & x & -> & ->). one_of He. injection He as <-. exact (map_settled e_calls).
  - intros n v r. assert (Hc' : last_said (fun c a => c = SetCrate _ _ _ _ n (fst a) (snd a)) e_calls (v, r)
      <-> In (n, CrateSpec v r) (gs_crates _ _ _ _ (settings_after _ _ _ _ e_calls))).
    { rewrite Hc. split; intros (pre & c & post & E & Hs & Hn); exists pre, c, post; (split; [exact E|]; split; [exact Hs|]).
      - intros x [b b'] Hx. exact (Hn x (b, b') Hx).
      - intros x [b b'] Hx. exact (Hn x (CrateSpec b b') Hx). }
    rewrite Hc'. split.
    + intro He. one_of He. injection He as <- <- <-. exists [(lit "rand", lit "!")], (lit "rand"), (lit "!").
      split; [cbn; auto 10|]. split; [apply e_last|exact e_never].
    + intros (l & k & s & He & Hl & Hf). one_of He. injection He as <-. apply e_single in Hl as [-> ->].
      destruct (configures_unique _ _ _ _ _ _ _ _ _ Hf e_never) as (-> & -> & ->). cbn. auto.
  - intros n p. rewrite <- (Hp n p). change (gs_patch _ _ _ _ (settings_after _ _ _ _ e_calls)) with
      [(lit "A", [PatchRename (lit "B"); PatchDerive (lit "Eq")])]. split.
    + intro He. one_of He. injection He as <- <-. eexists _, _. split; [cbn; auto 10|]. split; [apply e_last|reflexivity].
    + intros (l & a & He & Hl & ->). one_of He. injection He as <-. apply e_single in Hl as [-> ->]. left. reflexivity.
  - intros n r i He. rewrite <- (Hr n (r, i)) in He. one_of He. injection He as <- <- <-.
    eexists _, _. split; [cbn; auto 10|]. split; [apply e_last|exact e_type].
  - intros l n ts He Hl. one_of He. injection He as <-. apply e_single in Hl as [-> ->]. exists (lit "G", [1; 0]). apply Hr. cbn. auto.
  - right. split; [|reflexivity]. intros e a He (w & -> & _). one_of He.
Qed.

Lemma e_separate : forall l, In (EnCrates _ _ l) e_entries -> separate_crates unicode15 some_semver l.
Proof.
  intros l He. one_of He. injection He as <-. intros l1 x l2 y l3 c v r v' r' E. exfalso.
  destruct l1 as [|z l1]; [injection E as _ E; destruct l2; discriminate|]. injection E as _ E. destruct l1; discriminate.
Qed.
(** Documents by the name of an operation; a name used twice is an error. *)
Definition e_open (id p : str) : str + str := if str_eqb p (lit "/x/api.json") then inl id else inr (lit "no such file").
Definition e_api (id : str) (i : invocation (list tree) str) : expansion :=
  generate_api (list tree) str N str s_text unicode15 some_semver s_closure s_path (fun ts => ts) s_type some_impl N.eqb [0; 1]
    (Some (lit "/x")) None (e_open id) (fun s => Some (y_doc s)) (fun _ => inr []) (fun _ => lit "e")
    (fun _ _ => Ok x_ts) (fun _ => y_types) s_o' i.
Definition e_script (id : str) : outcome generated_code :=
  @script_code (list tree) str N str unicode15 (fun _ _ => Ok x_ts) (fun _ => y_types) h_rev h_same e_calls (y_doc id).
Lemma e_code : exists code, e_script (lit "ping") = Ok code
  /\ e_api (lit "ping") (InvKeys _ _ e_entries) = Expanded code (lit "/x/api.json").
Proof. eexists. split; vm_compute; reflexivity. Qed.
Lemma e_error : exists e, e_script (lit "get-item") = Err e
  /\ e_api (lit "get-item") (InvKeys _ _ e_entries) = CompileError (Some (lit "generation error for api.json: e")).
Proof. eexists. split; vm_compute; reflexivity. Qed.

(** cargo-progenitor and the macro on the same document. *)
Definition e_args : crate_args := n_args (lit "MIT OR Apache-2.0") true.
Definition e_read (p : str) : str + str := if str_eqb p (lit "/x/api.json") then inl (lit "{}") else inr (lit "no such file").
Definition e_yaml (c : str) : openapi + str := inr [].
Definition e_main :=
  main n_json (fun c => match e_yaml c with inl d => Some d | inr _ => None end) (fun _ => true) (fun _ => true) (fun _ => Written)
    (generate_tokens unicode15 (fun _ => Ok x_ts) y_types) n_text (fun _ _ => n_uses) Some (lit "// support") false false
    (Some (lit "0.9.1")) e_args n_before.
Lemma e_command : fst e_main = ExitOk
  /\ e_read (lit "/x/api.json") = inl (lit "{}") /\ content (ca_input e_args) n_before = Some (lit "{}").
Proof. vm_compute. auto. Qed.

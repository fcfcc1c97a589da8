(** What the calls a build script makes on the settings mean. *)
From Coq Require Import Permutation.
From Verif Require Import Base OasModel OpModel BuilderModel GenerateModel MacroModel SettingsModel SettingsSpec ScriptModel.
Local Open Scope N_scope.

Section Script.
Context {T V I Sch : Type}.
Notation call := (call T V I Sch).
Notation gen_settings := (gen_settings T V I Sch).

(** What the last of the calls about something says. *)
Definition last_said {A} (says : call -> A -> Prop) (calls : list call) (a : A) : Prop :=
  exists pre c post, calls = pre ++ c :: post /\ says c a /\ forall x b, In x post -> ~ says x b.
Definition never_said {A} (says : call -> A -> Prop) (calls : list call) : Prop := forall c a, In c calls -> ~ says c a.
Definition settled {A} (says : call -> A -> Prop) (d : A) (calls : list call) (v : A) : Prop :=
  last_said says calls v \/ (never_said says calls /\ v = d).
Definition settled_opt {A} (says : call -> A -> Prop) (calls : list call) (o : option A) : Prop :=
  match o with Some v => last_said says calls v | None => never_said says calls end.

(** What is added, in the order of the calls. *)
Definition derives_added (calls : list call) : list str :=
  flat_map (fun c => match c with AddDerive _ _ _ _ d => [d] | _ => [] end) calls.
Definition conversions_added (calls : list call) : list (Sch * str * list I) :=
  flat_map (fun c => match c with AddConversion _ _ _ _ h n i => [(h, n, i)] | _ => [] end) calls.

(** What the code generator is told: the last call counts, whatever the calls about other things. *)
Record told_generator (calls : list call) (s : gen_settings) : Prop := {
  tl_interface : settled (fun c i => c = SetInterface _ _ _ _ i) Positional calls (gs_interface _ _ _ _ s);
  tl_tag : settled (fun c t => c = SetTag _ _ _ _ t) Merged calls (gs_tag _ _ _ _ s);
  tl_inner : settled_opt (fun c t => c = SetInnerType _ _ _ _ t) calls (gs_inner_type _ _ _ _ s);
  tl_pre : settled_opt (fun c t => c = SetPreHook _ _ _ _ t) calls (gs_pre_hook _ _ _ _ s);
  tl_pre_async : settled_opt (fun c t => c = SetPreHookAsync _ _ _ _ t) calls (gs_pre_hook_async _ _ _ _ s);
  tl_post : settled_opt (fun c t => c = SetPostHook _ _ _ _ t) calls (gs_post_hook _ _ _ _ s);
  tl_post_async : settled_opt (fun c t => c = SetPostHookAsync _ _ _ _ t) calls (gs_post_hook_async _ _ _ _ s)
}.

(** What typify is told. *)
Record told_typify (calls : list call) (cs : list (type_call V I Sch)) : Prop := {
  ty_mod : forall m, In (CallTypeMod _ _ _ m) cs <-> m = lit "types";
  ty_struct : forall b, In (CallStructBuilder _ _ _ b) cs <->
    (b = true <-> settled (fun c i => c = SetInterface _ _ _ _ i) Positional calls Builder);
  ty_derives : derives_in cs = derives_added calls;
  ty_unknown : forall p, In (CallUnknownCrates _ _ _ p) cs <->
    settled (fun c p => c = SetUnknownCrates _ _ _ _ p) PolicyGenerate calls p;
  ty_crate : forall n v r, In (CallCrate _ _ _ n v r) cs <->
    last_said (fun c a => c = SetCrate _ _ _ _ n (fst a) (snd a)) calls (v, r);
  ty_crate_once : NoDup (crates_in cs);
  ty_patch : forall n p, In (CallPatch _ _ _ n p) cs <-> last_said (fun c p => c = SetPatch _ _ _ _ n p) calls p;
  ty_patch_once : NoDup (patches_in cs);
  ty_replace : forall n r i, In (CallReplacement _ _ _ n r i) cs <->
    last_said (fun c a => c = SetReplacement _ _ _ _ n (fst a) (snd a)) calls (r, i);
  ty_replace_once : NoDup (replacements_in cs);
  ty_convert : conversions_in cs = conversions_added calls;
  ty_map : forall t, In (CallMapType _ _ _ t) cs <-> last_said (fun c t => c = SetMapType _ _ _ _ t) calls t
}.

(** Two calls about the same thing. *)
Inductive same_subject : call -> call -> Prop :=
| ss_interface a b : same_subject (SetInterface _ _ _ _ a) (SetInterface _ _ _ _ b)
| ss_tag a b : same_subject (SetTag _ _ _ _ a) (SetTag _ _ _ _ b)
| ss_inner a b : same_subject (SetInnerType _ _ _ _ a) (SetInnerType _ _ _ _ b)
| ss_pre a b : same_subject (SetPreHook _ _ _ _ a) (SetPreHook _ _ _ _ b)
| ss_pre_async a b : same_subject (SetPreHookAsync _ _ _ _ a) (SetPreHookAsync _ _ _ _ b)
| ss_post a b : same_subject (SetPostHook _ _ _ _ a) (SetPostHook _ _ _ _ b)
| ss_post_async a b : same_subject (SetPostHookAsync _ _ _ _ a) (SetPostHookAsync _ _ _ _ b)
| ss_derive a b : same_subject (AddDerive _ _ _ _ a) (AddDerive _ _ _ _ b)
| ss_patch n a b : same_subject (SetPatch _ _ _ _ n a) (SetPatch _ _ _ _ n b)
| ss_replace n a x b y : same_subject (SetReplacement _ _ _ _ n a x) (SetReplacement _ _ _ _ n b y)
| ss_convert h n i h' n' i' : same_subject (AddConversion _ _ _ _ h n i) (AddConversion _ _ _ _ h' n' i')
| ss_unknown a b : same_subject (SetUnknownCrates _ _ _ _ a) (SetUnknownCrates _ _ _ _ b)
| ss_crate n a x b y : same_subject (SetCrate _ _ _ _ n a x) (SetCrate _ _ _ _ n b y)
| ss_map a b : same_subject (SetMapType _ _ _ _ a) (SetMapType _ _ _ _ b).
End Script.

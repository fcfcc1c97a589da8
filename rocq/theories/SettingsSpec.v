(** What [generate_api!] accepts, and what becomes of each of its options. *)
From Coq Require Import Sorting.Permutation.
From Verif Require Import Base OasModel OpModel GenerateModel SanitizeModel MacroModel MacroSpec SettingsModel.
Local Open Scope N_scope.

(** ** Hooks *)

Section Hooks.
Variable closure_body : list tree -> (list tree * list tree) + list tree.
Variable path : list tree -> option (list tree * list tree).

(** Keywords before a closure, each at most once and in this order. *)
Inductive keywords : list str -> list tree -> list tree -> Prop :=
| KwNone ts : keywords [] [] ts
| KwTaken k ks kws ts : keywords ks kws ts -> keywords (k :: ks) (TrWord k :: kws) ts
| KwSkipped k ks kws ts : hd_error (kws ++ ts) <> Some (TrWord k) -> keywords ks kws ts -> keywords (k :: ks) kws ts.
Definition closure_keywords : list str := [lit "const"; lit "static"; lit "async"; lit "move"].

Definition begins_closure (ts : list tree) : Prop := hd_error ts = Some (TrSign (ch "|")).

(** [hook_text ts out]: the value [ts] of a hook means [out]. *)
Inductive hook_text : list tree -> list tree -> Prop :=
| HtParen inner out : hook_text inner out -> hook_text [TrParen inner] out
| HtClosure kws ts body : keywords closure_keywords kws ts -> begins_closure ts -> closure_body ts = inl (body, []) ->
    hook_text (kws ++ ts) (kws ++ body)
| HtBroken kws ts rest out : keywords closure_keywords kws ts -> begins_closure ts -> closure_body ts = inr rest ->
    path rest = Some (out, []) -> hook_text (kws ++ ts) out
| HtPath kws ts out : keywords closure_keywords kws ts -> ~ begins_closure ts -> path ts = Some (out, []) ->
    hook_text (kws ++ ts) out.
(** What a hook should be: a closure or a path, perhaps between parentheses. *)
Inductive plain_hook : list tree -> list tree -> Prop :=
| PhParen inner out : plain_hook inner out -> plain_hook [TrParen inner] out
| PhClosure kws ts body : keywords closure_keywords kws ts -> begins_closure ts -> closure_body ts = inl (body, []) ->
    plain_hook (kws ++ ts) (kws ++ body)
| PhPath ts out : path ts = Some (out, []) -> plain_hook ts out.
(** Parsers of paths do not take what begins with a parenthesis. *)
Definition no_paren : Prop := forall l r, path (TrParen l :: r) = None.
End Hooks.

(** ** Options *)

(** What the last entry of a key says. *)
Definition last_in {A} (k : str) (l : list (str * A)) (v : A) : Prop :=
  exists l1 l2, l = l1 ++ (k, v) :: l2 /\ ~ In k (map fst l2).

Definition order_ok (o : hash_order) : Prop := forall A (l : list A), Permutation l (o A l).

Section Options.
Context {T V I Sch : Type}.
Variable text : T -> str.
Variable U : unicode.
Variable semver : str -> option V.
Variable closure_body : list tree -> (list tree * list tree) + list tree.
Variable path : list tree -> option (list tree * list tree).
Variable stream : list tree -> T.
Variable path_text : type_path -> str.
Variable impl_of : str -> option I.
Variable default_impls : list I.

Notation entry := (entry T Sch).
Notation type_call := (type_call V I Sch).

Definition orders_ok (o : hash_orders) : Prop :=
  order_ok (o_crates o) /\ order_ok (o_patch o) /\ order_ok (o_replace o) /\ order_ok (o_impls o)
  /\ order_ok (o_patch_out o) /\ order_ok (o_replace_out o).

(** Two entries for one option. *)
Definition same_option (e f : entry) : Prop :=
  match e, f with
  | EnSpec _ _ _, EnSpec _ _ _ | EnInterface _ _ _, EnInterface _ _ _ | EnTags _ _ _, EnTags _ _ _
  | EnInnerType _ _ _, EnInnerType _ _ _ | EnPreHook _ _ _, EnPreHook _ _ _
  | EnPreHookAsync _ _ _, EnPreHookAsync _ _ _ | EnPostHook _ _ _, EnPostHook _ _ _
  | EnPostHookAsync _ _ _, EnPostHookAsync _ _ _ | EnMapType _ _ _, EnMapType _ _ _
  | EnDerives _ _ _, EnDerives _ _ _ | EnUnknownCrates _ _ _, EnUnknownCrates _ _ _
  | EnCrates _ _ _, EnCrates _ _ _ | EnPatch _ _ _, EnPatch _ _ _ | EnReplace _ _ _, EnReplace _ _ _
  | EnConvert _ _ _, EnConvert _ _ _ => True
  | _, _ => False
  end.
Definition not_repeated (es : list entry) : Prop :=
  forall l1 e l2 f l3, es = l1 ++ e :: l2 ++ f :: l3 -> ~ same_option e f.

Definition type_text (ts : list tok) : Prop := exists leading s l ws, ts = written leading (s :: l) ws.

(** Values that can be read. *)
Definition readable_value (e : entry) : Prop :=
  match e with
  | EnPreHook _ _ ts | EnPreHookAsync _ _ ts | EnPostHook _ _ ts | EnPostHookAsync _ _ ts =>
      exists out, hook_text closure_body path ts out
  | EnCrates _ _ l => readable U semver l
  | EnReplace _ _ l => Forall (fun e => type_text (snd e)) l
  | EnConvert _ _ l => Forall (fun e => type_text (snd e)) l
  | _ => True
  end.

(** The value given for an option, otherwise the default. *)
Definition chosen {A} (says : entry -> A -> Prop) (d : A) (es : list entry) (v : A) : Prop :=
  (exists e, In e es /\ says e v) \/ ((forall e a, In e es -> ~ says e a) /\ v = d).
Definition chosen_opt {A} (says : entry -> A -> Prop) (es : list entry) (o : option A) : Prop :=
  match o with
  | Some v => exists e, In e es /\ says e v
  | None => forall e a, In e es -> ~ says e a
  end.
Definition hook_given (ts : list tree) (t : T) : Prop :=
  exists out, hook_text closure_body path ts out /\ t = stream out.

(** What a written type becomes: its name, and its traits in any order. *)
Definition type_means (ts : list tok) (name : str) (impls : list I) : Prop :=
  exists leading s l ws, ts = written leading (s :: l) ws /\ name = path_text (TypePath leading s l)
    /\ NoDup impls /\ forall i, In i impls <-> decided impl_of default_impls ws i.

Definition patch_means (a : macro_patch T) (p : list patch_call) : Prop :=
  (forall r, In (PatchRename r) p <-> mp_rename T a = Some r)
  /\ flat_map (fun c => match c with PatchDerive d => [d] | _ => [] end) p = map text (mp_derives T a).

(** The arguments of the calls of one kind, in order. *)
Definition derives_in (cs : list type_call) : list str :=
  flat_map (fun c => match c with CallDerive _ _ _ d => [d] | _ => [] end) cs.
Definition crates_in (cs : list type_call) : list str :=
  flat_map (fun c => match c with CallCrate _ _ _ n _ _ => [n] | _ => [] end) cs.
Definition patches_in (cs : list type_call) : list str :=
  flat_map (fun c => match c with CallPatch _ _ _ n _ => [n] | _ => [] end) cs.
Definition replacements_in (cs : list type_call) : list str :=
  flat_map (fun c => match c with CallReplacement _ _ _ n _ _ => [n] | _ => [] end) cs.
Definition conversions_in (cs : list type_call) : list (Sch * str * list I) :=
  flat_map (fun c => match c with CallConversion _ _ _ h n i => [(h, n, i)] | _ => [] end) cs.

(** Every option is delivered: to the code generator ... *)
Record delivered_settings (es : list entry) (s : gen_settings T V I Sch) : Prop := {
  ds_interface : chosen (fun e i => e = EnInterface _ _ i) Positional es (gs_interface _ _ _ _ s);
  ds_tag : chosen (fun e t => e = EnTags _ _ t) Merged es (gs_tag _ _ _ _ s);
  ds_inner : chosen_opt (fun e t => e = EnInnerType _ _ t) es (gs_inner_type _ _ _ _ s);
  ds_pre : chosen_opt (fun e t => exists ts, e = EnPreHook _ _ ts /\ hook_given ts t) es (gs_pre_hook _ _ _ _ s);
  ds_pre_async : chosen_opt (fun e t => exists ts, e = EnPreHookAsync _ _ ts /\ hook_given ts t) es
    (gs_pre_hook_async _ _ _ _ s);
  ds_post : chosen_opt (fun e t => exists ts, e = EnPostHook _ _ ts /\ hook_given ts t) es (gs_post_hook _ _ _ _ s);
  ds_post_async : chosen_opt (fun e t => exists ts, e = EnPostHookAsync _ _ ts /\ hook_given ts t) es
    (gs_post_hook_async _ _ _ _ s)
}.

(** ... and to typify. *)
Record delivered_types (es : list entry) (interface : interface_style) (cs : list type_call) : Prop := {
  dt_mod : forall m, In (CallTypeMod _ _ _ m) cs <-> m = lit "types";
  dt_builder : forall b, In (CallStructBuilder _ _ _ b) cs <-> (b = true <-> interface = Builder);
  dt_derives : chosen (fun e l => exists ts, e = EnDerives _ _ ts /\ l = map text ts) [] es (derives_in cs);
  dt_unknown : forall p, In (CallUnknownCrates _ _ _ p) cs <->
    chosen (fun e p => e = EnUnknownCrates _ _ p) PolicyGenerate es p;
  dt_map_type : forall t, In (CallMapType _ _ _ t) cs <-> exists x, In (EnMapType _ _ x) es /\ t = text x;
  dt_crates : forall c v r, In (CallCrate _ _ _ c v r) cs ->
    exists l e, In (EnCrates _ _ l) es /\ In e l /\ configures U semver e c v r;
  dt_crates_all : forall l k s c v r, In (EnCrates _ _ l) es -> separate_crates U semver l -> last_in k l s ->
    configures U semver (k, s) c v r -> In (CallCrate _ _ _ c v r) cs;
  dt_crates_once : NoDup (crates_in cs);
  dt_patch : forall n p, In (CallPatch _ _ _ n p) cs ->
    exists l a, In (EnPatch _ _ l) es /\ last_in n l a /\ patch_means a p;
  dt_patch_all : forall l n a, In (EnPatch _ _ l) es -> last_in n l a ->
    exists p, In (CallPatch _ _ _ n p) cs /\ patch_means a p;
  dt_patch_once : NoDup (patches_in cs);
  dt_replace : forall n r i, In (CallReplacement _ _ _ n r i) cs ->
    exists l ts, In (EnReplace _ _ l) es /\ last_in n l ts /\ type_means ts r i;
  dt_replace_all : forall l n ts, In (EnReplace _ _ l) es -> last_in n l ts ->
    exists r i, In (CallReplacement _ _ _ n r i) cs /\ type_means ts r i;
  dt_replace_once : NoDup (replacements_in cs);
  dt_convert : chosen (fun e l => exists w, e = EnConvert _ _ w
      /\ Forall2 (fun x c => fst x = fst (fst c) /\ type_means (snd x) (snd (fst c)) (snd c)) w l) [] es
    (conversions_in cs)
}.

(** Lists of calls that differ in nothing but what a hash map decides. *)
Inductive same_calls : list type_call -> list type_call -> Prop :=
| ScRefl cs : same_calls cs cs
| ScTrans a b c : same_calls a b -> same_calls b c -> same_calls a c
| ScPatch a n p n' p' b : n <> n' ->
    same_calls (a ++ CallPatch _ _ _ n p :: CallPatch _ _ _ n' p' :: b)
      (a ++ CallPatch _ _ _ n' p' :: CallPatch _ _ _ n p :: b)
| ScReplace a n r i n' r' i' b : n <> n' ->
    same_calls (a ++ CallReplacement _ _ _ n r i :: CallReplacement _ _ _ n' r' i' :: b)
      (a ++ CallReplacement _ _ _ n' r' i' :: CallReplacement _ _ _ n r i :: b)
| ScReplaceImpls a n r i i' b : Permutation i i' ->
    same_calls (a ++ CallReplacement _ _ _ n r i :: b) (a ++ CallReplacement _ _ _ n r i' :: b)
| ScConvertImpls a h n i i' b : Permutation i i' ->
    same_calls (a ++ CallConversion _ _ _ h n i :: b) (a ++ CallConversion _ _ _ h n i' :: b).

End Options.

(** Where a document is looked for. *)
Inductive located (dir : str) : str -> str -> Prop :=
| LcAbsolute p : located dir (lit "/" ++ p) (lit "/" ++ p)
| LcSlash d p : hd_error p <> Some (ch "/") -> dir = d ++ lit "/" -> located dir p (d ++ lit "/" ++ p)
| LcPlain p : hd_error p <> Some (ch "/") -> dir <> [] -> last dir 0 <> ch "/" -> located dir p (dir ++ lit "/" ++ p)
| LcHere p : hd_error p <> Some (ch "/") -> dir = [] -> located dir p p.

(** The directory a document is looked for in. *)
Inductive directory (manifest current : option str) : str -> Prop :=
| DirManifest d : manifest = Some d -> directory manifest current d
| DirCurrent d : manifest = None -> current = Some d -> directory manifest current d.

(** The document in a file: JSON if it can be read so, otherwise YAML. *)
Inductive document_in (json : str -> option openapi) (yaml : str -> openapi + str) (data : str) : openapi -> Prop :=
| DocJson d : json data = Some d -> document_in json yaml data d
| DocYaml d : json data = None -> yaml data = inl d -> document_in json yaml data d.

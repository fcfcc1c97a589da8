(** Model of the settings of the generator (progenitor-impl/src/lib.rs) and of [generate_api!]
    (progenitor-macro/src/lib.rs). *)
From Verif Require Import Base OasModel OpModel BuilderModel MethodModel SanitizeModel GenerateModel MacroModel.
Local Open Scope N_scope.

(** ** Hooks *)

(** Tokens of the value of a hook, as far as they matter: words and signs, and what is between parentheses
    (progenitor-macro/src/lib.rs:213-214). *)
Inductive tree :=
| TrWord (s : str)
| TrSign (c : char)
| TrParen (l : list tree).

Section Hooks.
(** syn's parsers: of a closure from its [|] on, and of a path; what was read and what is left, or how much is
    left when the parser fails (progenitor-macro/src/lib.rs:218, 223). *)
Variable closure_body : list tree -> (list tree * list tree) + list tree.
Variable path : list tree -> option (list tree * list tree).

(** An optional keyword ([Option<Token![k]>] in syn's parser of closures, called at progenitor-macro/src/lib.rs:218). *)
Definition keyword (k : str) (ts : list tree) : list tree * list tree :=
  match ts with
  | TrWord s :: r => if str_eqb s k then ([TrWord s], r) else ([], ts)
  | _ => ([], ts)
  end.
(** syn 2.0.100 expr.rs [expr_closure] (called at progenitor-macro/src/lib.rs:218) without [for<..>]: the keywords
    are taken from the input whether or not a closure follows. *)
Definition closure (ts : list tree) : (list tree * list tree) + list tree :=
  let '(k1, ts) := keyword (lit "const") ts in
  let '(k2, ts) := keyword (lit "static") ts in
  let '(k3, ts) := keyword (lit "async") ts in
  let '(k4, ts) := keyword (lit "move") ts in
  match ts with
  | TrSign c :: _ =>
      if c =? ch "|" then
        match closure_body ts with
        | inl (body, rest) => inl (k1 ++ k2 ++ k3 ++ k4 ++ body, rest)
        | inr rest => inr rest
        end
      else inr ts
  | _ => inr ts
  end.

(** progenitor-macro/src/lib.rs:218-224, up to the end of the input ([syn::parse2]). *)
Definition bare_hook (ts : list tree) : option (list tree) :=
  match closure ts with
  | inl (c, []) => Some c
  | inl (_, _ :: _) => None
  | inr ts =>
      match path ts with
      | Some (p, []) => Some p
      | _ => None
      end
  end.
(** progenitor-macro/src/lib.rs:213-216: a group is read by itself. *)
Fixpoint group_hook (t : tree) : option (list tree) :=
  match t with
  | TrParen inner =>
      match inner with
      | (TrParen _ as t') :: [] => group_hook t'
      | TrParen _ :: _ :: _ => None
      | _ => bare_hook inner
      end
  | _ => bare_hook [t]
  end.
(** progenitor-macro/src/lib.rs:209-226, [ClosureOrPath], up to the end of the input. *)
Definition closure_or_path (ts : list tree) : option (list tree) :=
  match ts with
  | (TrParen _ as t) :: [] => group_hook t
  | TrParen _ :: _ :: _ => None
  | _ => bare_hook ts
  end.
End Hooks.

(** ** Settings *)

(** typify's [UnknownPolicy] (progenitor-macro/src/lib.rs:95-102, 148). *)
Inductive unknown_policy := PolicyGenerate | PolicyAllow | PolicyDeny.

(** typify's [TypePatch], as the calls made on it (progenitor-macro/src/lib.rs:181-192). *)
Inductive patch_call := PatchRename (name : str) | PatchDerive (derive : str).

(** [HashMap::insert] (progenitor-impl/src/lib.rs:172, 185); the order of the list means nothing. *)
Fixpoint hm_insert {A} (k : str) (v : A) (l : list (str * A)) : list (str * A) :=
  match l with
  | [] => [(k, v)]
  | (k', v') :: r => if str_eqb k k' then (k, v) :: r else (k', v') :: hm_insert k v r
  end.
(** serde's [Deserialize] for [HashMap] (progenitor-macro/src/lib.rs:150, 153, 155): insert one entry after the
    other. *)
Definition hm_of {A} (l : list (str * A)) : list (str * A) :=
  fold_left (fun m e => hm_insert (fst e) (snd e) m) l [].

(** The order in which a [HashMap] yields its entries (progenitor-macro/src/lib.rs:331, 344, 347;
    progenitor-impl/src/lib.rs:278, 281-284). *)
Definition hash_order := forall A : Type, list A -> list A.

Section Settings.
(** Token streams and their text ([to_string]), versions of crates, typify's [TypeImpl], schemas of the convert
    section. *)
Variables T V I Sch : Type.
Variable text : T -> str.

(** progenitor-impl/src/lib.rs:58-77, [GenerationSettings]. *)
Record gen_settings := GenSettings {
  gs_interface : interface_style;
  gs_tag : tag_style;
  gs_inner_type : option T;
  gs_pre_hook : option T;
  gs_pre_hook_async : option T;
  gs_post_hook : option T;
  gs_post_hook_async : option T;
  gs_extra_derives : list str;
  gs_map_type : option str;
  gs_unknown_crates : unknown_policy;
  gs_crates : list (str * crate_spec V);
  gs_patch : list (str * list patch_call);
  gs_replace : list (str * (str * list I));
  gs_convert : list (Sch * str * list I) }.

(** progenitor-impl/src/lib.rs:59, 94-98, 109-113 and 117-119, [GenerationSettings::default()]. *)
Definition default_settings : gen_settings :=
  GenSettings Positional Merged None None None None None [] None PolicyGenerate [] [] [] [].

(** progenitor-impl/src/lib.rs:121-125. *)
Definition with_interface (i : interface_style) (s : gen_settings) : gen_settings :=
  GenSettings i (gs_tag s) (gs_inner_type s) (gs_pre_hook s) (gs_pre_hook_async s) (gs_post_hook s)
    (gs_post_hook_async s) (gs_extra_derives s) (gs_map_type s) (gs_unknown_crates s) (gs_crates s) (gs_patch s)
    (gs_replace s) (gs_convert s).
(** progenitor-impl/src/lib.rs:127-131. *)
Definition with_tag (t : tag_style) (s : gen_settings) : gen_settings :=
  GenSettings (gs_interface s) t (gs_inner_type s) (gs_pre_hook s) (gs_pre_hook_async s) (gs_post_hook s)
    (gs_post_hook_async s) (gs_extra_derives s) (gs_map_type s) (gs_unknown_crates s) (gs_crates s) (gs_patch s)
    (gs_replace s) (gs_convert s).
(** progenitor-impl/src/lib.rs:133-137. *)
Definition with_inner_type (t : T) (s : gen_settings) : gen_settings :=
  GenSettings (gs_interface s) (gs_tag s) (Some t) (gs_pre_hook s) (gs_pre_hook_async s) (gs_post_hook s)
    (gs_post_hook_async s) (gs_extra_derives s) (gs_map_type s) (gs_unknown_crates s) (gs_crates s) (gs_patch s)
    (gs_replace s) (gs_convert s).
(** progenitor-impl/src/lib.rs:139-143. *)
Definition with_pre_hook (t : T) (s : gen_settings) : gen_settings :=
  GenSettings (gs_interface s) (gs_tag s) (gs_inner_type s) (Some t) (gs_pre_hook_async s) (gs_post_hook s)
    (gs_post_hook_async s) (gs_extra_derives s) (gs_map_type s) (gs_unknown_crates s) (gs_crates s) (gs_patch s)
    (gs_replace s) (gs_convert s).
(** progenitor-impl/src/lib.rs:145-149. *)
Definition with_pre_hook_async (t : T) (s : gen_settings) : gen_settings :=
  GenSettings (gs_interface s) (gs_tag s) (gs_inner_type s) (gs_pre_hook s) (Some t) (gs_post_hook s)
    (gs_post_hook_async s) (gs_extra_derives s) (gs_map_type s) (gs_unknown_crates s) (gs_crates s) (gs_patch s)
    (gs_replace s) (gs_convert s).
(** progenitor-impl/src/lib.rs:151-155. *)
Definition with_post_hook (t : T) (s : gen_settings) : gen_settings :=
  GenSettings (gs_interface s) (gs_tag s) (gs_inner_type s) (gs_pre_hook s) (gs_pre_hook_async s) (Some t)
    (gs_post_hook_async s) (gs_extra_derives s) (gs_map_type s) (gs_unknown_crates s) (gs_crates s) (gs_patch s)
    (gs_replace s) (gs_convert s).
(** progenitor-impl/src/lib.rs:157-161. *)
Definition with_post_hook_async (t : T) (s : gen_settings) : gen_settings :=
  GenSettings (gs_interface s) (gs_tag s) (gs_inner_type s) (gs_pre_hook s) (gs_pre_hook_async s) (gs_post_hook s)
    (Some t) (gs_extra_derives s) (gs_map_type s) (gs_unknown_crates s) (gs_crates s) (gs_patch s)
    (gs_replace s) (gs_convert s).
(** progenitor-impl/src/lib.rs:163-167. *)
Definition with_derive (d : str) (s : gen_settings) : gen_settings :=
  GenSettings (gs_interface s) (gs_tag s) (gs_inner_type s) (gs_pre_hook s) (gs_pre_hook_async s) (gs_post_hook s)
    (gs_post_hook_async s) (gs_extra_derives s ++ [d]) (gs_map_type s) (gs_unknown_crates s) (gs_crates s)
    (gs_patch s) (gs_replace s) (gs_convert s).
(** progenitor-impl/src/lib.rs:169-175. *)
Definition with_patch (type_name : str) (patch : list patch_call) (s : gen_settings) : gen_settings :=
  GenSettings (gs_interface s) (gs_tag s) (gs_inner_type s) (gs_pre_hook s) (gs_pre_hook_async s) (gs_post_hook s)
    (gs_post_hook_async s) (gs_extra_derives s) (gs_map_type s) (gs_unknown_crates s) (gs_crates s)
    (hm_insert type_name patch (gs_patch s)) (gs_replace s) (gs_convert s).
(** progenitor-impl/src/lib.rs:177-190. *)
Definition with_replacement (type_name replace_name : str) (impls : list I) (s : gen_settings) : gen_settings :=
  GenSettings (gs_interface s) (gs_tag s) (gs_inner_type s) (gs_pre_hook s) (gs_pre_hook_async s) (gs_post_hook s)
    (gs_post_hook_async s) (gs_extra_derives s) (gs_map_type s) (gs_unknown_crates s) (gs_crates s)
    (gs_patch s) (hm_insert type_name (replace_name, impls) (gs_replace s)) (gs_convert s).
(** progenitor-impl/src/lib.rs:192-203. *)
Definition with_conversion (schema : Sch) (type_name : str) (impls : list I) (s : gen_settings) : gen_settings :=
  GenSettings (gs_interface s) (gs_tag s) (gs_inner_type s) (gs_pre_hook s) (gs_pre_hook_async s) (gs_post_hook s)
    (gs_post_hook_async s) (gs_extra_derives s) (gs_map_type s) (gs_unknown_crates s) (gs_crates s)
    (gs_patch s) (gs_replace s) (gs_convert s ++ [(schema, type_name, impls)]).
(** progenitor-impl/src/lib.rs:205-211. *)
Definition with_unknown_crates (p : unknown_policy) (s : gen_settings) : gen_settings :=
  GenSettings (gs_interface s) (gs_tag s) (gs_inner_type s) (gs_pre_hook s) (gs_pre_hook_async s) (gs_post_hook s)
    (gs_post_hook_async s) (gs_extra_derives s) (gs_map_type s) p (gs_crates s) (gs_patch s)
    (gs_replace s) (gs_convert s).
(** progenitor-impl/src/lib.rs:213-231, for all entries of the crates section
    (progenitor-macro/src/lib.rs:331-339, [apply_crates]). *)
Definition with_crates (entries : list (str * macro_crate_spec V)) (s : gen_settings) : gen_settings :=
  GenSettings (gs_interface s) (gs_tag s) (gs_inner_type s) (gs_pre_hook s) (gs_pre_hook_async s) (gs_post_hook s)
    (gs_post_hook_async s) (gs_extra_derives s) (gs_map_type s) (gs_unknown_crates s)
    (apply_crates entries (gs_crates s)) (gs_patch s) (gs_replace s) (gs_convert s).
(** progenitor-impl/src/lib.rs:233-243. *)
Definition with_map_type (t : str) (s : gen_settings) : gen_settings :=
  GenSettings (gs_interface s) (gs_tag s) (gs_inner_type s) (gs_pre_hook s) (gs_pre_hook_async s) (gs_post_hook s)
    (gs_post_hook_async s) (gs_extra_derives s) (Some t) (gs_unknown_crates s) (gs_crates s) (gs_patch s)
    (gs_replace s) (gs_convert s).

(** ** The generator *)

(** The calls made on typify's [TypeSpaceSettings] (progenitor-impl/src/lib.rs:260-297). *)
Inductive type_call :=
| CallTypeMod (m : str)                                      (* 262 *)
| CallStructBuilder (b : bool)                               (* 263 *)
| CallDerive (d : str)                                       (* 265 *)
| CallUnknownCrates (p : unknown_policy)                     (* 269 *)
| CallCrate (name : str) (v : crate_vers V) (rename : option str)  (* 274 *)
| CallPatch (type_name : str) (patch : list patch_call)      (* 279 *)
| CallReplacement (type_name replace_name : str) (impls : list I)  (* 285 *)
| CallConversion (schema : Sch) (type_name : str) (impls : list I) (* 291 *)
| CallMapType (t : str).                                     (* 296 *)

(** progenitor-impl/src/lib.rs:260-297; the orders are those of the two hash maps. *)
Definition type_calls (o_patch o_replace : hash_order) (s : gen_settings) : list type_call :=
  [CallTypeMod (lit "types");
   CallStructBuilder match gs_interface s with Builder => true | Positional => false end]
  ++ map CallDerive (gs_extra_derives s)
  ++ [CallUnknownCrates (gs_unknown_crates s)]
  ++ map (fun e => CallCrate (fst e) (cs_version (snd e)) (cs_rename (snd e))) (gs_crates s)
  ++ map (fun e => CallPatch (fst e) (snd e)) (o_patch _ (gs_patch s))
  ++ map (fun e => CallReplacement (fst e) (fst (snd e)) (snd (snd e))) (o_replace _ (gs_replace s))
  ++ map (fun e => CallConversion (fst (fst e)) (snd (fst e)) (snd e)) (gs_convert s)
  ++ match gs_map_type s with Some t => [CallMapType t] | None => [] end.

(** progenitor-impl/src/lib.rs:50-56, [Generator], before a run; the flags are false. *)
Record generator := MkGenerator { gn_calls : list type_call; gn_settings : gen_settings }.
(** progenitor-impl/src/lib.rs:259-305, [Generator::new]. *)
Definition generator_new (o_patch o_replace : hash_order) (s : gen_settings) : generator :=
  MkGenerator (type_calls o_patch o_replace s) s.
(** progenitor-impl/src/lib.rs:246-255, [Generator::default]. *)
Definition generator_default : generator := MkGenerator [CallTypeMod (lit "types")] default_settings.

(** What generating code reads of the settings: progenitor-impl/src/lib.rs:336-372 and method.rs:1057-1082. *)
Definition given {A} (o : option A) : bool := match o with Some _ => true | None => false end.
(** progenitor-impl/src/lib.rs:336-372 and method.rs:1057-1082. *)
Definition read_settings (s : gen_settings) : settings :=
  Settings (gs_interface s) (gs_tag s) (given (gs_inner_type s))
    (Hooks (given (gs_pre_hook s)) (given (gs_pre_hook_async s)) (given (gs_post_hook s)) (given (gs_post_hook_async s))).

(** ** The macro *)

(** progenitor-macro/src/lib.rs:173-179. *)
Record macro_patch := MacroPatch { mp_rename : option str; mp_derives : list T }.
(** progenitor-macro/src/lib.rs:181-192. *)
Definition type_patch (a : macro_patch) : list patch_call :=
  match mp_rename a with Some r => [PatchRename r] | None => [] end
  ++ map (fun d => PatchDerive (text d)) (mp_derives a).

(** One key and its value, as written (progenitor-macro/src/lib.rs:128-158).  The values are read already except
    for those of hooks, crates, replace and convert; [EnOther] is a key that is no field. *)
Inductive entry :=
| EnSpec (s : str)
| EnInterface (i : interface_style)
| EnTags (t : tag_style)
| EnInnerType (t : T)
| EnPreHook (ts : list tree)
| EnPreHookAsync (ts : list tree)
| EnPostHook (ts : list tree)
| EnPostHookAsync (ts : list tree)
| EnMapType (t : T)
| EnDerives (l : list T)
| EnUnknownCrates (p : unknown_policy)
| EnCrates (l : list (str * str))
| EnPatch (l : list (str * macro_patch))
| EnReplace (l : list (str * list tok))
| EnConvert (l : list (Sch * list tok))
| EnOther (key : str).

(** progenitor-macro/src/lib.rs:130-157, the names of the fields. *)
Definition key (e : entry) : option str :=
  match e with
  | EnSpec _ => Some (lit "spec")
  | EnInterface _ => Some (lit "interface")
  | EnTags _ => Some (lit "tags")
  | EnInnerType _ => Some (lit "inner_type")
  | EnPreHook _ => Some (lit "pre_hook")
  | EnPreHookAsync _ => Some (lit "pre_hook_async")
  | EnPostHook _ => Some (lit "post_hook")
  | EnPostHookAsync _ => Some (lit "post_hook_async")
  | EnMapType _ => Some (lit "map_type")
  | EnDerives _ => Some (lit "derives")
  | EnUnknownCrates _ => Some (lit "unknown_crates")
  | EnCrates _ => Some (lit "crates")
  | EnPatch _ => Some (lit "patch")
  | EnReplace _ => Some (lit "replace")
  | EnConvert _ => Some (lit "convert")
  | EnOther _ => None
  end.

(** progenitor-macro/src/lib.rs:128-158, [MacroSettings]. *)
Record macro_settings := MacroSettings {
  ms_spec : str;
  ms_interface : interface_style;
  ms_tags : tag_style;
  ms_inner_type : option T;
  ms_pre_hook : option T;
  ms_pre_hook_async : option T;
  ms_post_hook : option T;
  ms_post_hook_async : option T;
  ms_map_type : option T;
  ms_derives : list T;
  ms_unknown_crates : unknown_policy;
  ms_crates : list (str * macro_crate_spec V);
  ms_patch : list (str * macro_patch);
  ms_replace : list (str * type_and_impls I);
  ms_convert : list (Sch * type_and_impls I) }.

(** Unicode and semver (crates), the parsers of hooks with the token stream of what they read, the text of a path
    ([to_string], token_utils.rs:29), [TypeImpl]'s [FromStr] (token_utils.rs:96) and its equality, and the default
    traits (token_utils.rs:27). *)
Variable U : unicode.
Variable semver : str -> option V.
Variable closure_body : list tree -> (list tree * list tree) + list tree.
Variable path : list tree -> option (list tree * list tree).
Variable stream : list tree -> T.
Variable path_text : type_path -> str.
Variable impl_of : str -> option I.
Variable impl_eqb : I -> I -> bool.
Variable default_impls : list I.

(** The value of a hook (progenitor-macro/src/lib.rs:137-140, 322-327). *)
Definition hook_value (ts : list tree) : option T := option_map stream (closure_or_path closure_body path ts).

(** The types of the replace and convert sections, each of which is parsed (progenitor-macro/src/lib.rs:155, 157). *)
Fixpoint parse_types {K} (l : list (K * list tok)) : option (list (K * type_and_impls I)) :=
  match l with
  | [] => Some []
  | (k, ts) :: r =>
      match parse_all impl_of ts, parse_types r with
      | Some t, Some rest => Some ((k, t) :: rest)
      | _, _ => None
      end
  end.

(** Whether the value of an entry can be read (progenitor-macro/src/lib.rs:137-140, 150, 155 and 157). *)
Definition value_ok (e : entry) : bool :=
  match e with
  | EnPreHook ts | EnPreHookAsync ts | EnPostHook ts | EnPostHookAsync ts => given (hook_value ts)
  | EnCrates l => given (parse_crates U semver l)
  | EnReplace l => given (parse_types l)
  | EnConvert l => given (parse_types l)
  | _ => true
  end.

(** The derived [Deserialize] (progenitor-macro/src/lib.rs:128): keys that are no field are passed over, a key may
    not be repeated.  What the errors say is left out. *)
Fixpoint fields (es seen : list entry) : option (list entry) :=
  match es with
  | [] => Some seen
  | e :: r =>
      match key e with
      | None => fields r seen
      | Some k =>
          if existsb (fun f => match key f with Some k' => str_eqb k k' | None => false end) seen then None
          else if value_ok e then fields r (e :: seen) else None
      end
  end.
(** The value of a field, if there is one (progenitor-macro/src/lib.rs:128). *)
Fixpoint field {A} (sel : entry -> option A) (es : list entry) : option A :=
  match es with
  | [] => None
  | e :: r => match sel e with Some a => Some a | None => field sel r end
  end.
(** [#[serde(default)]] (progenitor-macro/src/lib.rs:131-156). *)
Definition or_default {A} (d : A) (o : option A) : A := match o with Some a => a | None => d end.

(** progenitor-macro/src/lib.rs:317: without a spec the macro fails. *)
Definition from_tokenstream (es : list entry) : option macro_settings :=
  match fields es [] with
  | None => None
  | Some fs =>
      match field (fun e => match e with EnSpec s => Some s | _ => None end) fs with
      | None => None
      | Some spec =>
          Some (MacroSettings spec
            (or_default Positional (field (fun e => match e with EnInterface i => Some i | _ => None end) fs))
            (or_default Merged (field (fun e => match e with EnTags t => Some t | _ => None end) fs))
            (field (fun e => match e with EnInnerType t => Some t | _ => None end) fs)
            (field (fun e => match e with EnPreHook ts => hook_value ts | _ => None end) fs)
            (field (fun e => match e with EnPreHookAsync ts => hook_value ts | _ => None end) fs)
            (field (fun e => match e with EnPostHook ts => hook_value ts | _ => None end) fs)
            (field (fun e => match e with EnPostHookAsync ts => hook_value ts | _ => None end) fs)
            (field (fun e => match e with EnMapType t => Some t | _ => None end) fs)
            (or_default [] (field (fun e => match e with EnDerives l => Some l | _ => None end) fs))
            (or_default PolicyGenerate (field (fun e => match e with EnUnknownCrates p => Some p | _ => None end) fs))
            (hm_of (or_default [] (field (fun e => match e with EnCrates l => parse_crates U semver l | _ => None end) fs)))
            (hm_of (or_default [] (field (fun e => match e with EnPatch l => Some l | _ => None end) fs)))
            (hm_of (or_default [] (field (fun e => match e with EnReplace l => parse_types l | _ => None end) fs)))
            (or_default [] (field (fun e => match e with EnConvert l => parse_types l | _ => None end) fs)))
      end
  end.

(** [option.map(|x| settings.with_x(x))] (progenitor-macro/src/lib.rs:321-328). *)
Definition when_given {A} (o : option A) (f : A -> gen_settings -> gen_settings) (s : gen_settings) : gen_settings :=
  match o with Some a => f a s | None => s end.

(** The orders of the hash maps of one run of the macro (progenitor-macro/src/lib.rs:331, 344, 347;
    progenitor-impl/src/lib.rs:187, 201, 278, 281). *)
Record hash_orders := HashOrders {
  o_crates : hash_order;          (* progenitor-macro/src/lib.rs:331 *)
  o_patch : hash_order;           (* progenitor-macro/src/lib.rs:344 *)
  o_replace : hash_order;         (* progenitor-macro/src/lib.rs:347 *)
  o_impls : hash_order;           (* token_utils.rs:46, progenitor-impl/src/lib.rs:187, 201 *)
  o_patch_out : hash_order;       (* progenitor-impl/src/lib.rs:278 *)
  o_replace_out : hash_order }.   (* progenitor-impl/src/lib.rs:281-284 *)

(** progenitor-macro/src/lib.rs:318-355; the names and impls of token_utils.rs:23-47. *)
Definition macro_settings_of (o : hash_orders) (m : macro_settings) : gen_settings :=
  let s := with_tag (ms_tags m) (with_interface (ms_interface m) default_settings) in
  let s := when_given (ms_inner_type m) with_inner_type s in
  let s := when_given (ms_pre_hook m) with_pre_hook s in
  let s := when_given (ms_pre_hook_async m) with_pre_hook_async s in
  let s := when_given (ms_post_hook m) with_post_hook s in
  let s := when_given (ms_post_hook_async m) with_post_hook_async s in
  let s := when_given (ms_map_type m) (fun t => with_map_type (text t)) s in
  let s := with_unknown_crates (ms_unknown_crates m) s in
  let s := with_crates (o_crates o _ (ms_crates m)) s in
  let s := fold_left (fun s d => with_derive (text d) s) (ms_derives m) s in
  let s := fold_left (fun s e => with_patch (fst e) (type_patch (snd e)) s) (o_patch o _ (ms_patch m)) s in
  let s := fold_left (fun s e => with_replacement (fst e) (path_text (ti_name (snd e)))
                                   (o_impls o _ (impls_of impl_eqb default_impls (snd e))) s) (o_replace o _ (ms_replace m)) s in
  fold_left (fun s e => with_conversion (fst e) (path_text (ti_name (snd e)))
                          (o_impls o _ (impls_of impl_eqb default_impls (snd e))) s) (ms_convert m) s.

(** What is between the parentheses of the macro: one string, or keys and values
    (progenitor-macro/src/lib.rs:298-300). *)
Inductive invocation := InvString (s : str) | InvKeys (es : list entry).

(** progenitor-macro/src/lib.rs:298-357. *)
Definition read_invocation (o : hash_orders) (i : invocation) : option (str * gen_settings) :=
  match i with
  | InvString spec => Some (spec, default_settings)
  | InvKeys es =>
      match from_tokenstream es with
      | Some m => Some (ms_spec m, macro_settings_of o m)
      | None => None
      end
  end.

(** [Path::join] on Unix (progenitor-macro/src/lib.rs:364). *)
Definition path_join (dir p : str) : str :=
  if starts_with (lit "/") p then p
  else match dir with
       | [] => p
       | _ => if ends_with_char (ch "/") dir then dir ++ p else dir ++ lit "/" ++ p
       end.

(** The environment: [CARGO_MANIFEST_DIR] and the current directory (progenitor-macro/src/lib.rs:359-362; [None]
    if there is none, and the [unwrap] panics), the files with what opening them says (290-295), reading JSON and
    YAML from a file (368, 372) with the text of the error, and the text of an error of the generator (383). *)
Variable manifest_dir : option str.
Variable current_dir : option str.
Variable open : str -> str + str.
Variable json : str -> option openapi.
Variable yaml : str -> openapi + str.
Variable error_text : error -> str.
(** typify, by the calls made on its settings (progenitor-impl/src/lib.rs:300). *)
Variable add_ref_types : list type_call -> list (str * ref_or schema) -> outcome type_space.
Variable types : list type_call -> type_id -> option type_info.

(** What the macro is replaced by (progenitor-macro/src/lib.rs:121-126): code with the path of the document that is
    included (387-396); an error, [None] for one of syn or serde_tokenstream, otherwise with its text. *)
Inductive expansion :=
| Expanded (code : generated_code) (included : str)
| CompileError (msg : option str)
| MacroPanic (msg : str).

(** progenitor-macro/src/lib.rs:368-376, with what is in the file; opening it a second time gives the same. *)
Definition read_document (path_str data : str) : openapi + str :=
  match json data with
  | Some d => inl d
  | None =>
      match yaml data with
      | inl d => inl d
      | inr e => inr (lit "failed to parse " ++ path_str ++ lit ": " ++ e)
      end
  end.

(** progenitor-macro/src/lib.rs:297-399, [do_generate_api], and 121-126. *)
Definition generate_api (o : hash_orders) (i : invocation) : expansion :=
  match read_invocation o i with
  | None => CompileError None
  | Some (spec, s) =>
      match (match manifest_dir with Some d => Some d | None => current_dir end) with
      | None => MacroPanic (lit "called `Result::unwrap()` on an `Err` value")
      | Some dir =>
          let path_str := path_join dir spec in
          match open path_str with
          | inr e => CompileError (Some (lit "couldn't read file " ++ path_str ++ lit ": " ++ e))
          | inl data =>
              match read_document path_str data with
              | inr msg => CompileError (Some msg)
              | inl oapi =>
                  let builder := generator_new (o_patch_out o) (o_replace_out o) s in
                  match generate_tokens U (add_ref_types (gn_calls builder)) (types (gn_calls builder))
                          (read_settings (gn_settings builder)) oapi with
                  | Ok code => Expanded code path_str
                  | Err e => CompileError (Some (lit "generation error for " ++ spec ++ lit ": " ++ error_text e))
                  | Panic msg => MacroPanic msg
                  end
              end
          end
      end
  end.
End Settings.

(** What the Rust compiler asks of the generated items: streams, builders, and the file as a whole. *)
From Verif Require Import Base SanitizeModel MethodModel OpModel BuilderModel StreamModel GenerateModel TemplateSpec RequestSpec
  BuilderSpec StreamSpec GenerateSpec CompileSpec.
Local Open Scope N_scope.

Section Types.
(** The traits that types have; [ts_details ts] tells what a type is. *)
Variable has : type_id -> rust_trait -> Prop.
Variable ts : type_space.

(** A struct with fields [items], an array, and [next_page], an optional string. *)
Definition page_struct (t : type_id) : Prop :=
  exists props a item o s, ts_details ts t = Some (TdStruct props)
    /\ In (lit "items", a) props /\ ts_details ts a = Some (TdVec item)
    /\ In (lit "next_page", o) props /\ ts_details ts o = Some (TdOption s) /\ ts_details ts s = Some TdString.
Definition is_string (t : type_id) : Prop := ts_details ts t = Some TdString.

(** ** Positional methods and streams *)

Definition param_var (s : sig_type) : var_type :=
  match s with SigType t => VtArg t | SigOption t => VtOption t | SigB | SigString => VtBody end.

(** Values that a closure may use again and again: references, numbers, and options of them. *)
Definition reusable (s : sig_type) : Prop := match s with SigType _ | SigOption _ => True | SigB | SigString => False end.

(** The argument of a call in a stream function with parameters [params], for a parameter of type [s]; [hidden] are
    the parameters covered by other variables, [state] tells whether there is a token. *)
Inductive arg_ok (params : list (str * sig_type)) (hidden : list str) (state : bool) : arg_expr -> sig_type -> Prop :=
| ao_none t : arg_ok params hidden state ANone (SigOption t)
| ao_state t : state = true -> is_string t -> arg_ok params hidden state AState (SigOption t)
| ao_var x s : assoc x params = Some s -> reusable s -> ~ In x hidden -> arg_ok params hidden state (AVar x) s.

(** A type parameter [B] is declared if a parameter has this type. *)
Definition declared (params : list (str * sig_type)) (generic : bool) : Prop := In SigB (map snd params) -> generic = true.

(** The items of an impl block with the items [all], beside a module with the structs [structs]. *)
Inductive item_ok (all : list impl_item) (structs : list str) : impl_item -> Prop :=
| io_method n doc params generic sb : method_ok has (map (fun p => (fst p, param_var (snd p))) params) sb ->
    declared params generic -> item_ok all structs (ImMethod n doc params generic sb)
| io_stream n doc params generic callee first step doc' params' generic' sb t :
    NoDup (map fst params) -> declared params generic ->
    In (ImMethod callee doc' params' generic' sb) all -> sb_success sb = RType t -> page_struct t ->
    Forall2 (arg_ok params [] false) first (map snd params') ->
    Forall2 (arg_ok params [lit "page"; lit "first"; lit "state"] true) step (map snd params') ->
    item_ok all structs (ImStream n doc params generic callee first step)
| io_builder n doc s : In s structs -> item_ok all structs (ImBuilder n doc s).

(** ** Builders *)

Inductive initial_ok : field_type -> initial -> Prop :=
| in_err ty msg : initial_ok ty (InErr msg)
| in_none : initial_ok FtOptional InNone
| in_default t : initial_ok (FtBuilder t) InDefault.

(** A setter of the field [n]; the one of a builder assigns to the field [body]. *)
Inductive setter_ok (n : str) (p : param_type) : field_type -> setter -> Prop :=
| se_optional t msg : p = PType t -> setter_ok n p FtOptional (StOptional msg)
| se_required t msg : p = PType t -> setter_ok n p FtRequired (StRequired msg)
| se_raw msg : p = PRawBody -> setter_ok n p FtRequired (StRaw msg)
| se_body t msg : n = lit "body" -> setter_ok n p (FtBuilder t) (StBody t msg).

(** The variable made of a field; a type converts to itself. *)
Inductive finalized (p : param_type) : field_type -> option type_id -> var_type -> Prop :=
| fi_required t : p = PType t -> finalized p FtRequired None (VtArg t)
| fi_itself t : p = PType t -> finalized p FtRequired (Some t) (VtArg t)
| fi_optional t : p = PType t -> finalized p FtOptional None (VtOption t)
| fi_raw : p = PRawBody -> finalized p FtRequired None VtBody
| fi_builder t : p = PType t -> finalized p (FtBuilder t) (Some t) (VtArg t).

(** The type of the field has the trait; builders of bodies have both, [reqwest::Body] is not [Clone]. *)
Definition field_has (tr : rust_trait) (f : builder_field) : Prop :=
  match bf_type f, bf_param f with
  | FtBuilder _, _ => True
  | _, PType t => has t tr
  | _, PRawBody => tr = TrDebug
  end.

(** [Self { n: Ok(None), .., ..self.clone() }] and [Self { page_token: Ok(next_page), ..next.clone() }]: a method
    called [clone] would be found before that of the trait. *)
Record stream_ok (c : builder_code) (resets : list str) : Prop := StreamOk {
  sk_once : NoDup resets;
  sk_resets : Forall (fun n => exists f, In f (bc_fields c) /\ bf_name f = n /\ bf_type f = FtOptional) resets;
  sk_token : exists f t, In f (bc_fields c) /\ bf_name f = lit "page_token" /\ bf_type f = FtOptional
             /\ bf_param f = PType t /\ is_string t;
  sk_clone : bc_clone c = true;
  sk_no_clone : ~ In (lit "clone") (builder_methods c);
  sk_page : exists t, sb_success (bc_send c) = RType t /\ page_struct t }.

Record builder_code_ok (c : builder_code) : Prop := BuilderCodeOk {
  bk_fields : NoDup (builder_struct_fields c);
  bk_methods : NoDup (builder_methods c);
  bk_initial : Forall (fun f => initial_ok (bf_type f) (bf_initial f)) (bc_fields c);
  bk_setters : Forall (fun f => setter_ok (bf_name f) (bf_param f) (bf_type f) (bf_setter f)) (bc_fields c);
  bk_debug : Forall (field_has TrDebug) (bc_fields c);
  bk_clone : bc_clone c = true -> Forall (field_has TrClone) (bc_fields c);
  bk_send : exists vs, Forall2 (fun f v => finalized (bf_param f) (bf_type f) (bf_finalize f) v) (bc_fields c) vs
            /\ body_ok has (sb_success (bc_send c)) (sb_error (bc_send c))
                 (combine (map bf_name (bc_fields c)) vs) (sb_body (bc_send c));
  bk_stream : forall resets, bc_stream c = Some resets -> stream_ok c resets }.

(** Calls of methods that the builder has. *)
Definition offered {B} (c : builder_code) (call : setter_call B) : Prop :=
  match call with
  | CallSet n _ => In n (map bf_name (bc_fields c))
  | CallBodyMap _ => exists f t msg, In f (bc_fields c) /\ bf_setter f = StBody t msg
  end.

(** ** The file *)

(** The names of types that the code of a builder uses and that come from the standard library. *)
Definition mentions (c : builder_code) : list str :=
  [lit "Result"]
  ++ (if bc_fields c then [] else [lit "String"])
  ++ flat_map (fun f => match bf_type f with FtOptional => [lit "Option"] | _ => [] end) (bc_fields c)
  ++ flat_map (fun f => match bf_setter f with StBody _ _ => [lit "From"] | _ => [] end) (bc_fields c)
  ++ match bc_stream c with Some _ => [lit "Unpin"] | None => [] end.
(** The names of types and modules that the builder module imports (lib.rs:556-565, 604-613). *)
Definition imports : list str :=
  [lit "types"; lit "ByteStream"; lit "Error"; lit "RequestBuilderExt"; lit "ResponseValue"].

Record file_ok (g : generated_code) : Prop := FileOk {
  fk_methods : NoDup (ge_fixed g ++ map im_name (oc_impl (ge_code g)));
  fk_items : Forall (item_ok (oc_impl (ge_code g)) (map sc_name (oc_builders (ge_code g)))) (oc_impl (ge_code g));
  fk_traits : NoDup (map tc_name (oc_traits (ge_code g)));
  fk_trait_methods : Forall (fun t => NoDup (map im_name (tc_methods t)) /\ tc_impl t = tc_methods t
      /\ Forall (item_ok (tc_methods t) (map sc_name (oc_builders (ge_code g)))) (tc_methods t)) (oc_traits (ge_code g));
  fk_structs : NoDup (imports ++ map sc_name (oc_builders (ge_code g)));
  fk_shadows : forall a b, In a (oc_builders (ge_code g)) -> In b (oc_builders (ge_code g)) ->
    ~ In (sc_name a) (mentions (sc_code b));
  fk_builders : Forall (fun s => builder_code_ok (sc_code s)) (oc_builders (ge_code g)) }.

(** ** What that takes of the operations *)

(** The token is declared as a string. *)
Definition token_is_string (m : op_method) : Prop :=
  exists p t, In p (m_params m) /\ p_api_name p = lit "page_token" /\ p_typ p = PType t /\ is_string t.

Record sound_stream (m : op_method) : Prop := SoundStream {
  ss_token : token_is_string m;
  ss_names : forall p, In p (m_params m) -> repeated p ->
    p_name p <> lit "page" /\ p_name p <> lit "first" /\ p_name p <> lit "state" }.

Definition sound_positional (ps : list piece) (m : op_method) (sb : sig_body) : Prop :=
  sound_operation has ps m sb /\ (m_paginated m <> None -> sound_stream m).

Section Builders.
Variable types : type_id -> option type_info.

Definition no_parameter (n : str) (m : op_method) : Prop := ~ In n (map p_name (m_params m)).

Record sound_builder (ps : list piece) (m : op_method) (sb : sig_body) : Prop := SoundBuilder {
  sd_operation : sound_operation has ps m sb;
  (* types with builders are those of bodies *)
  sd_bodies : forall p t i, In p (m_params m) -> p_typ p = PType t -> types t = Some i -> ti_builder i = true ->
    exists ct, p_kind p = KBody ct;
  sd_new : no_parameter (lit "new") m;
  sd_send : no_parameter (lit "send") m;
  sd_body_map : (exists p t, In p (m_params m) /\ nested types p t) -> no_parameter (lit "body_map") m;
  sd_debug : forall p t, In p (m_params m) -> p_typ p = PType t -> ~ nested types p t -> has t TrDebug;
  sd_clone : (forall p, In p (m_params m) -> p_typ p <> PRawBody) ->
    forall p t, In p (m_params m) -> p_typ p = PType t -> ~ nested types p t -> has t TrClone;
  sd_stream : m_paginated m <> None ->
    token_is_string m /\ no_parameter (lit "stream") m /\ no_parameter (lit "clone") m }.

(** ** What it takes of a document *)

(** Names that the builder module needs otherwise. *)
Definition reserved (ms : list op_method) (n : str) : Prop :=
  In n imports \/ n = lit "Result"
  \/ (n = lit "String" /\ exists m, In m ms /\ m_params m <> [])
  \/ (n = lit "Option" /\ exists m p, In m ms /\ In p (m_params m) /\ is_required (p_kind p) = false)
  \/ (n = lit "From" /\ exists m p t, In m ms /\ In p (m_params m) /\ nested types p t)
  \/ (n = lit "Unpin" /\ exists m, In m ms /\ m_paginated m <> None).

(** The methods of an operation in the positional style. *)
Definition positional_names (m : op_method) : list str :=
  m_operation_id m :: match m_paginated m with Some _ => [m_operation_id m ++ lit "_stream"] | None => [] end.

(** Every operation is sound. *)
Definition all_sound (P : list piece -> op_method -> sig_body -> Prop) (s : settings) (l : list doc_op) (ms : list op_method) : Prop :=
  Forall2 (fun e m => exists ps sb, do_path e = show ps /\ lax ps /\ method_sig_body (se_hooks s) m = Ok sb /\ P ps m sb) l ms.

(** With separate tags: the traits of different tags have different names, as have the methods in each of them. *)
Record sound_tags (pascal : str -> str) (ms : list op_method) : Prop := SoundTags {
  sg_traits : forall m n t u, In m ms -> In n ms -> In t (m_tags m) -> In u (m_tags n) -> pascal t = pascal u -> t = u;
  sg_once : forall m, In m ms -> NoDup (m_tags m);
  sg_methods : forall i j m n t, nth_error ms i = Some m -> nth_error ms j = Some n ->
    In t (m_tags m) -> In t (m_tags n) -> m_operation_id m = m_operation_id n -> i = j }.

Section Client.
Variable U : unicode.

(** The methods that [impl Client] gets in the builder style. *)
Definition client_methods (s : settings) (ms : list op_method) : list str :=
  map m_operation_id (filter (fun m => match se_tag s, m_tags m with Separate, _ :: _ => false | _, _ => true end) ms).

Definition sound_client (s : settings) (l : list doc_op) (ms : list op_method) : Prop :=
  match se_interface s with
  | Positional => NoDup (fixed_methods s ++ flat_map positional_names ms) /\ all_sound sound_positional s l ms
  | Builder =>
      NoDup (fixed_methods s ++ client_methods s ms)
      /\ (se_tag s = Separate -> sound_tags (pascal U) ms)
      /\ NoDup (map (fun m => pascal U (m_operation_id m)) ms)
      /\ (forall m, In m ms -> ~ reserved ms (pascal U (m_operation_id m)))
      /\ all_sound sound_builder s l ms
  end.
End Client.
End Builders.
End Types.

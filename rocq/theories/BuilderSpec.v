(** What a builder holds after a history of calls, and what sending it does. *)
From Verif Require Import Base ClientModel MethodModel RunModel BuilderModel.
Local Open Scope N_scope.

Section Spec.
Context {B : Type} (types : type_id -> option type_info)
  (b_default : type_id -> B) (b_from : type_id -> value -> B) (b_try_from : type_id -> B -> result value str).

(** The parameter is a body of type [t] that has a builder of its own. *)
Definition nested (p : op_param) (t : type_id) : Prop :=
  (exists ct, p_kind p = KBody ct) /\ p_typ p = PType t /\
  exists i, types t = Some i /\ ti_builder i = true.

(** The type a setter converts to, as error messages name it. *)
Inductive type_text (p : op_param) : str -> Prop :=
| tt_typed t i : p_typ p = PType t -> types t = Some i -> type_text p (ti_name i)
| tt_octets : p_typ p = PRawBody -> p_kind p = KBody OctetStream -> type_text p (lit "reqwest::Body")
| tt_text mime : p_typ p = PRawBody -> p_kind p = KBody (Text mime) -> type_text p (lit "String").

(** The last outcome given to the setter [n] in a history of calls. *)
Inductive latest (n : str) : list (setter_call B) -> option (result value str) -> Prop :=
| la_never cs : (forall conv, ~ In (CallSet n conv) cs) -> latest n cs None
| la_last pre conv post : (forall conv', ~ In (CallSet n conv') post) ->
    latest n (pre ++ CallSet n conv :: post) (Some conv).

(** The functions given to [body_map], applied in order. *)
Fixpoint mapped (cs : list (setter_call B)) (b : B) : B :=
  match cs with
  | [] => b
  | CallBodyMap f :: r => mapped r (f b)
  | CallSet _ _ :: r => mapped r b
  end.

(** The body builder after a history: the last [body] replaces it, every
    [body_map] after that transforms it, unless [body] failed. *)
Inductive body_after (p : op_param) (t : type_id) : list (setter_call B) -> result B str -> Prop :=
| ba_never cs : (forall conv, ~ In (CallSet (lit "body") conv) cs) ->
    body_after p t cs (ROk (mapped cs (b_default t)))
| ba_set pre v post : (forall conv, ~ In (CallSet (lit "body") conv) post) ->
    body_after p t (pre ++ CallSet (lit "body") (ROk v) :: post) (ROk (mapped post (b_from t v)))
| ba_failed pre e post ty : (forall conv, ~ In (CallSet (lit "body") conv) post) -> type_text p ty ->
    body_after p t (pre ++ CallSet (lit "body") (RErr e) :: post)
      (RErr (lit "conversion to `" ++ ty ++ lit "` for body failed: " ++ e)).

(** What the history gives to a parameter: a value, nothing, or a message. *)
Inductive gives (cs : list (setter_call B)) (p : op_param) : result (option value) str -> Prop :=
| gi_absent : (forall t, ~ nested p t) -> latest (p_name p) cs None -> is_optional (p_kind p) = true ->
    gives cs p (ROk None)
| gi_missing : (forall t, ~ nested p t) -> latest (p_name p) cs None -> is_optional (p_kind p) = false ->
    gives cs p (RErr (p_name p ++ lit " was not initialized"))
| gi_value v : (forall t, ~ nested p t) -> latest (p_name p) cs (Some (ROk v)) -> gives cs p (ROk (Some v))
| gi_unconvertible e ty : (forall t, ~ nested p t) -> latest (p_name p) cs (Some (RErr e)) -> type_text p ty ->
    gives cs p (RErr (lit "conversion to `" ++ ty ++ lit "` for " ++ p_name p ++ lit " failed"))
| gi_body t b v : nested p t -> body_after p t cs (ROk b) -> b_try_from t b = ROk v -> gives cs p (ROk (Some v))
| gi_body_invalid t b e : nested p t -> body_after p t cs (ROk b) -> b_try_from t b = RErr e -> gives cs p (RErr e)
| gi_body_failed t e : nested p t -> body_after p t cs (RErr e) -> gives cs p (RErr e).

(** Calls that exist on the builder of the method. *)
Definition legal_call (m : op_method) (c : setter_call B) : Prop :=
  match c with
  | CallSet n _ => In n (map p_name (m_params m))
  | CallBodyMap _ => exists p t, In p (m_params m) /\ nested p t
  end.

(** Calls that concern the parameter [p]. *)
Definition concerns (p : op_param) (c : setter_call B) : Prop :=
  match c with CallSet n _ => n = p_name p | CallBodyMap _ => exists t, nested p t end.

(** What of a history concerns the parameter. *)
Inductive own (p : op_param) : list (setter_call B) -> list (setter_call B) -> Prop :=
| ow_nil : own p [] []
| ow_keep c cs r : concerns p c -> own p cs r -> own p (c :: cs) (c :: r)
| ow_skip c cs r : ~ concerns p c -> own p cs r -> own p (c :: cs) r.
End Spec.

(** The builder struct of the method [m] compiles: no two of its parameters
    get the same name, and only bodies are of a type with a builder. *)
Definition builder_ok (types : type_id -> option type_info) (m : op_method) : Prop :=
  NoDup (map p_name (m_params m)) /\
  forall p t i, In p (m_params m) -> p_typ p = PType t -> types t = Some i -> ti_builder i = true ->
    exists ct, p_kind p = KBody ct.

(** A field that holds what the history gives. *)
Definition holds {B} (x : field B) (r : result (option value) str) : Prop :=
  match x, r with
  | FReq (ROk v), ROk (Some w) => v = w
  | FReq (RErr e), RErr e' => e = e'
  | FOpt (ROk v), ROk w => v = w
  | FOpt (RErr e), RErr e' => e = e'
  | _, _ => False
  end.

(** Parameters that the builder generator accepts: of a known type, or a raw
    body; of a type with a builder only if required and called [body]. *)
Definition acceptable (types : type_id -> option type_info) (p : op_param) : Prop :=
  match p_typ p with
  | PType t => exists i, types t = Some i /\
      (ti_builder i = true -> is_required (p_kind p) = true /\ p_name p = lit "body")
  | PRawBody => p_kind p = KBody OctetStream \/ exists mime, p_kind p = KBody (Text mime)
  end.

(** A builder of the method [m] after the calls [cs]. *)
Record built {B} (types : type_id -> option type_info) (b_default : type_id -> B) (b_from : type_id -> value -> B)
    (h : hooks) (m : op_method) (c : builder_code) (cs : list (setter_call B)) (st : list (str * field B)) : Prop := Built {
  bu_generated : builder_struct types h m = Ok c;
  bu_ok : builder_ok types m;
  bu_legal : Forall (legal_call types m) cs;
  bu_built : build B b_default b_from (bc_fields c) cs = Some st }.

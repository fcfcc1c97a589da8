(** What a request tells of the arguments of a call (C98). *)
From Verif Require Import Base Utf8 SerdeModel TemplateSpec EncodeModel EncodeSpec QuerySpec MethodModel RunModel RequestSpec
  MockApartSpec.

(** No segment of the path has two placeholders. *)
Definition one_each (ps : list piece) : Prop := Forall (fun s => (length (vars s) <= 1)%nat) (segments ps).

(** Different texts in the placeholders make different paths. *)
Definition unambiguous (ps : list piece) : Prop := forall val val',
  (forall n, In n (vars ps) -> valid_str (val n) /\ valid_str (val' n)) ->
  expand (fun n => encode_path (val n)) (squeeze_pieces false ps)
    = expand (fun n => encode_path (val' n)) (squeeze_pieces false ps) ->
  forall n, In n (vars ps) -> val n = val' n.

(** Arguments of the query that are no objects: scalars, optional ones, arrays; and the texts they are sent as. *)
Inductive simple_form : sval -> list str -> Prop :=
| sf_scalar v t : scalar_text v t -> simple_form v [t]
| sf_absent : simple_form VNone []
| sf_present v ts : simple_form v ts -> simple_form (VSome v) ts
| sf_array vs ts : Forall2 item_text vs ts ->
    simple_form (VSeq vs) (flat_map (fun t => match t with Some t => [t] | None => [] end) ts).

Definition query_texts (o : option value) (ts : list str) : Prop :=
  match o with Some v => simple_form (v_serde v) ts | None => ts = [] end.

Definition simple_queries (args : arguments) : Prop :=
  NoDup (map fst (query_arguments args))
  /\ forall p o r, In (p, o) args -> p_kind p = KQuery r -> exists ts, query_texts o ts.

(** No other header parameter has the name of [p], up to case, nor is it a name that the client uses itself. *)
Definition own_header (ps : list op_param) (p : op_param) : Prop :=
  ~ In (lower_name (p_api_name p)) [lit "api-version"; lit "accept"; lit "content-type"; lit "authorization"]
  /\ forall p', In p' ps -> (exists r, p_kind p' = KHeader r) ->
     lower_name (p_api_name p') = lower_name (p_api_name p) -> p' = p.

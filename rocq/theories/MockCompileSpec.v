(** What the Rust compiler asks of a generated mock, as far as names, traits and types of values and format strings
    go, and what that takes of a document. *)
From Verif Require Import Base OasModel TemplateSpec MethodModel OpModel SanitizeModel GenerateSpec MockModel CompileSpec.

Section Types.
(** The traits of types, and which types are passed by reference to a type of known size: objects and arrays are, but
    not the unit type, numbers, booleans, enumerations of names and [&str]. *)
Variable has : type_id -> rust_trait -> Prop.
Variable by_reference : type_id -> Prop.

(** ** Generated code *)

(** [When::json_body_obj] of httpmock 0.7 takes a reference to something that can be written and read. *)
Definition when_method_ok (w : when_method) : Prop :=
  match wm_body w, wm_type w with
  | WbPath f, PType t => format_string f 1 /\ has t TrDisplay
  | WbQuery _, PType t | WbQueryOpt _, PType t => has t TrDisplay
  | WbTodo, PType _ => True
  | WbJsonObj, PType t => by_reference t /\ has t TrSerialize /\ has t TrDeserialize
  | WbJson, PRawBody | WbText, PRawBody => True
  | _, _ => False
  end.
(** [Then::json_body_obj] takes a reference to something that can be written. *)
Definition then_method_ok (t : then_method) : Prop :=
  match tm_value t with
  | TvObj t => by_reference t /\ has t TrSerialize
  | TvNone | TvJson => True
  end.

(** The methods of a wrapper have different names. *)
Definition wrapper_names_ok (names : list str) : Prop := NoDup (lit "new" :: lit "into_inner" :: names).

Definition mock_op_ok (o : mock_op) : Prop :=
  wrapper_names_ok (map wm_name (mo_when_methods o)) /\ Forall when_method_ok (mo_when_methods o)
  /\ wrapper_names_ok (map tm_name (mo_then_methods o)) /\ Forall then_method_ok (mo_then_methods o).

Definition mock_ok (k : mock_code) : Prop :=
  NoDup (map fst (mk_ops k)) /\ NoDup (flat_map (fun no => [mo_when (snd no); mo_then (snd no)]) (mk_ops k))
  /\ Forall (fun no => mock_op_ok (snd no)) (mk_ops k).

(** ** What that takes *)

Definition passable (t : type_id) : Prop := by_reference t /\ has t TrSerialize.

(** [ps] are the pieces of the path: a path parameter needs exactly one placeholder. *)
Definition matchable (ps : list piece) (p : op_param) : Prop :=
  match p_kind p, p_typ p with
  | KPath, PType t => has t TrDisplay /\ count_occ str_eq_dec (vars ps) (p_api_name p) = 1%nat /\ no_stray ps
  | KQuery _, PType t => has t TrDisplay
  | KBody _, PType t => passable t /\ has t TrDeserialize
  | _, _ => True
  end.

Record sound_mock (ps : list piece) (m : op_method) : Prop := SoundMock {
  sm_names : NoDup (map p_name (m_params m));
  sm_own : forall p, In p (m_params m) -> p_name p <> lit "new" /\ p_name p <> lit "into_inner";
  sm_params : Forall (matchable ps) (m_params m);
  sm_statuses : NoDup (map o_status (m_responses m));
  sm_responses : forall r t, In r (m_responses m) -> o_typ r = RType t -> passable t }.

(** The operations of a document [l], as processed to [ms]. *)
Definition sound_mocks (U : unicode) (l : list doc_op) (ms : list op_method) : Prop :=
  NoDup (flat_map (fun e => [pascal U (method_name U e ++ lit "-when"); pascal U (method_name U e ++ lit "-then")]) l)
  /\ Forall2 (fun e m => exists ps, do_path e = show ps /\ lax ps /\ sound_mock ps m) l ms.
End Types.

(** What a generator asks of typify, and type spaces that remember what they have been told. *)
From Coq Require Import Sorted.
From Verif Require Import Base OasModel MethodModel OpModel ToSchemaModel TypesModel TypesSpec RefSpec ResponseSpec ParamSpec DocSpec
  SanitizeModel GenerateModel GenerateSpec GeneratorModel.
Local Open Scope N_scope.

(** A type asked for: its name and the schema in the document it is made from. *)
Notation wanted := (prod (list N) (ref_or schema)) (only parsing).

(** ** The types an operation needs *)

Section Wanted.
Variable U : unicode.
Variable comps : option components.

(** One for each parameter ... *)
Definition of_parameter (oid : str) (p : parameter) (w : wanted) : Prop :=
  fst w = pascal U (oid ++ lit "-" ++ param_name p) /\ pd_schema (parameter_data p) = Some (snd w).

(** ... one for a body in JSON or a form ... *)
Inductive of_body (oid : str) : option (ref_or request_body) -> list wanted -> Prop :=
| ob_none : of_body oid None []
| ob_empty r b : resolves co_request_bodies comps r b -> rb_content b = [] -> of_body oid (Some r) []
| ob_typed r b cs name mt sch ct : resolves co_request_bodies comps r b -> rb_content b = [(cs, mt)] -> mt_schema mt = Some sch ->
    names_media cs name -> media_type_of name ct -> ct = Json \/ ct = FormUrlencoded ->
    of_body oid (Some r) [(pascal U (oid ++ lit "-body"), sch)]
| ob_raw r b cs name mt ct : resolves co_request_bodies comps r b -> rb_content b = [(cs, mt)] ->
    names_media cs name -> media_type_of name ct -> ct <> Json -> ct <> FormUrlencoded -> of_body oid (Some r) [].

(** ... and one for each answer in JSON. *)
Inductive of_response (oid : str) (r : ref_or response_doc) : list wanted -> Prop :=
| or_typed doc pre n mt post sch : resolves co_responses comps r doc -> rd_content doc = pre ++ (n, mt) :: post ->
    Forall (fun xm => ~ json_media (fst xm)) pre -> json_media n -> mt_schema mt = Some sch ->
    of_response oid r [(pascal U (oid ++ lit "-response"), sch)]
| or_other doc : resolves co_responses comps r doc -> Forall (fun xm => ~ json_media (fst xm)) (rd_content doc) ->
    of_response oid r [].
End Wanted.

(** The types an operation needs, in the order in which they are asked for: the parameters in force in the order of
    their names, the body, the default answer, the other answers as they are written. *)
Definition needs (U : unicode) (d : openapi) (e : doc_op) (ws : list wanted) : Prop :=
  exists oid others own ps wps wb wrs, op_id (do_op e) = Some oid
  /\ Forall2 (resolves co_parameters (oa_components d)) (do_params e) others
  /\ Forall2 (resolves co_parameters (oa_components d)) (op_parameters (do_op e)) own
  /\ (forall p, In p ps <-> effective others own p) /\ StronglySorted str_lt (map param_name ps)
  /\ Forall2 (of_parameter U oid) ps wps
  /\ of_body U (oa_components d) oid (op_request_body (do_op e)) wb
  /\ Forall2 (of_response U (oa_components d) oid)
       (match op_default (do_op e) with Some r => [r] | None => [] end ++ map snd (op_responses (do_op e))) wrs
  /\ ws = wps ++ wb ++ concat wrs.

(** ** Type spaces *)

Section Machine.
Context {S : Type}.
Variable tm : typify_machine S.

(** The types [ws] are asked for in turn, each by a JSON Schema that says what its schema says; the answers are [ts]. *)
Inductive asked : S -> list wanted -> list type_id -> S -> Prop :=
| asked_nil s : asked s [] [] s
| asked_cons s n sch j t s1 ws ts s2 : convertible sch -> translated sch j -> tm_add tm s j n = (Ok t, s1) ->
    asked s1 ws ts s2 -> asked s ((n, sch) :: ws) (t :: ts) s2.

(** [s2] is [s1] after types have been added. *)
Inductive later : S -> S -> Prop :=
| later_same s : later s s
| later_add s j n t s1 s2 : tm_add tm s j n = (Ok t, s1) -> later s1 s2 -> later s s2.

(** The types inside a type. *)
Definition inside (x : type_details) (i : type_id) : Prop :=
  match x with
  | TdOption t | TdVec t => i = t
  | TdStruct props => In i (map snd props)
  | TdString | TdOther => False
  end.

(** A type that has been made stays: asking for it again gives the same type, and what is known about it and the
    types inside does not change. *)
Record remembers : Prop := Remembers {
  rm_same : forall s j n t s1 s2, tm_add tm s j n = (Ok t, s1) -> later s1 s2 -> fst (tm_add tm s2 j n) = Ok t;
  rm_known : forall s j n t s1, tm_add tm s j n = (Ok t, s1) -> tm_details tm s1 t <> None;
  rm_stays : forall s s' t x, tm_details tm s t = Some x -> later s s' -> tm_details tm s' t = Some x;
  rm_inside : forall s t x i, tm_details tm s t = Some x -> inside x i -> tm_details tm s i <> None }.

(** The type space in state [s], seen as a function. *)
Definition frozen (s : S) : typify := Typify (fun j n => fst (tm_add tm s j n)) (tm_details tm s).
End Machine.

(** ** Several calls *)

Definition document_of (c : call) : openapi := match c with CallGenerate d | CallCli d _ | CallMock d _ => d end.

Definition has_websockets (d : openapi) : Prop :=
  exists e, in_document d e /\ assoc (lit "x-dropshot-websocket") (op_extensions (do_op e)) <> None.

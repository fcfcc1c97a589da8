(** What a client should make of the answer of a mock server. *)
From Verif Require Import Base Utf8 SerdeModel OasModel HeaderModel ClientModel ClientSpec MethodModel OpModel RunModel ResponseSpec RequestSpec MockModel MockSpec MockAnswerModel.
Local Open Scope N_scope.

(** The client gets the answer: the headers may be more, the body may come in pieces. *)
Definition arrives (a : mock_answer) (r : response) : Prop :=
  r_status r = an_status a /\ delivers r (an_body a)
  /\ forall n t, In (n, t) (an_headers a) -> In (utf8 t) (h_values n (r_headers r)).

(** Statuses that are neither successes nor errors. *)
Definition other_status (code : N) : Prop := code < 101 \/ 101 < code < 200 \/ 300 <= code < 400 \/ 600 <= code.

(** The statuses for which a client returns what the mock of this documented response is told.  The default response stands for
    successes unless a class of successes shadows it, and for statuses that are neither. *)
Definition told_status (op : operation) (key : resp_status) (code : N) : Prop :=
  (200 <= code < 300 /\ (key = SDefault -> ~ default_shadowed op)) \/ 400 <= code < 600 \/ (key = SDefault /\ other_status code).

Section Values.
Context {V : Type} (decode : type_id -> list N -> result V jerr).

(** The client's value for what the mock was told: the value itself, read back from its JSON; nothing; or the bytes of the JSON. *)
Inductive holds : resp_kind -> option value -> inner V -> Prop :=
| ho_typed t v j x : v_json v = Some j -> decode t j = ROk x -> holds (RType t) (Some v) (IVal x)
| ho_none : holds RNone None IUnit
| ho_raw v j chunks : v_json v = Some j -> concat chunks = j -> holds RRaw (Some v) (IStream (map ROk chunks)).

(** It is returned, or it is the error, by the status. *)
Inductive received (r : response) (x : inner V) : final V -> Prop :=
| rc_value : 200 <= r_status r < 300 -> received r x (Returned (ROk (RValue x (r_status r) (r_headers r))))
| rc_error : ~ (200 <= r_status r < 300) -> received r x (Returned (RErr (ErrorResponse (RValue x (r_status r) (r_headers r))))).
End Values.

(** Servers that give the answer to the requests that a mock matches. *)
Definition mock_server {W} (base : str) (json_is : value -> list N -> bool) (es : list expectation) (a : mock_answer) (ops : world_ops W) : Prop :=
  forall q s w, seen base q s -> matched json_is es s = true ->
  exists r w', w_execute ops q w = (ROk r, w') /\ arrives a r.

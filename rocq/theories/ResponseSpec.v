(** How a response must be treated, given the documented responses: OpenAPI
    precedence (exact code, class, default) and classification by status. *)
From Verif Require Import Base OasModel HeaderModel ClientModel ClientSpec MethodModel OpModel RunModel RefSpec.
Local Open Scope N_scope.

(** ** From the document to a table of (key, kind of body) *)

Definition json_media (n : str) : Prop :=
  n = lit "application/json" \/ exists params, n = lit "application/json;" ++ params.

(** The kind of body of a documented response; [tn] is the name proposed for
    its type. *)
Inductive body_kind (ts : type_space) (tn : str) (ws : bool) (doc : response_doc) : resp_kind -> Prop :=
| bk_json pre n mt post sch t :
    rd_content doc = pre ++ (n, mt) :: post ->
    Forall (fun xm => ~ json_media (fst xm)) pre -> json_media n ->
    mt_schema mt = Some sch -> ts_add ts sch tn = Ok t ->
    body_kind ts tn ws doc (RType t)
| bk_upgrade :
    ws = true -> Forall (fun xm => ~ json_media (fst xm)) (rd_content doc) ->
    body_kind ts tn ws doc RUpgrade
| bk_none : ws = false -> rd_content doc = [] -> body_kind ts tn ws doc RNone
| bk_raw :
    ws = false -> rd_content doc <> [] -> Forall (fun xm => ~ json_media (fst xm)) (rd_content doc) ->
    body_kind ts tn ws doc RRaw.

(** The entries of an operation: its default, then its codes and classes. *)
Inductive doc_entry (op : operation) : resp_status -> ref_or response_doc -> Prop :=
| de_default r : op_default op = Some r -> doc_entry op SDefault r
| de_code c r : In (ScCode c, r) (op_responses op) -> doc_entry op (SCode c) r
| de_range n r : In (ScRange n, r) (op_responses op) -> doc_entry op (SRange n) r.

(** [t] tabulates the documented responses of [op]. *)
Definition tabulates (ts : type_space) (tn : str) (ws : bool) (comps : option components)
    (op : operation) (t : list (resp_status * resp_kind)) : Prop :=
  forall key k, In (key, k) t <->
    exists r doc, doc_entry op key r /\ resolves co_responses comps r doc /\ body_kind ts tn ws doc k.

(** ** Precedence *)

Definition key_eqb (a b : resp_status) : bool :=
  match a, b with
  | SCode x, SCode y => x =? y
  | SRange x, SRange y => x =? y
  | SDefault, SDefault => true
  | _, _ => false
  end.

Fixpoint kind_at (key : resp_status) (t : list (resp_status * resp_kind)) : option resp_kind :=
  match t with
  | [] => None
  | (key', k) :: r => if key_eqb key key' then Some k else kind_at key r
  end.

(** Exact code, else class, else default. *)
Definition lookup (t : list (resp_status * resp_kind)) (s : N) : option resp_kind :=
  match kind_at (SCode s) t with
  | Some k => Some k
  | None =>
      match kind_at (SRange (s / 100)) t with
      | Some k => Some k
      | None => kind_at SDefault t
      end
  end.

(** The table documents a success response (or a default). *)
Definition documents_success (t : list (resp_status * resp_kind)) : Prop :=
  (exists c k, In (SCode c, k) t /\ 200 <= c < 300) \/
  (exists k, In (SRange 2, k) t) \/ (exists k, In (SDefault, k) t).

(** ** What must happen with a response of status [s] *)

Inductive action := AOk (k : resp_kind) | AErr (k : resp_kind) | AUnexpected.

(** A documented error of an upgraded connection cannot be decoded. *)
Definition err_action (k : resp_kind) : action :=
  match k with RUpgrade => AUnexpected | _ => AErr k end.

Inductive expected (ws : bool) (t : list (resp_status * resp_kind)) (s : N) : action -> Prop :=
| ex_success k :
    200 <= s < 300 -> lookup t s = Some k -> expected ws t s (AOk k)
| ex_success_undocumented :
    200 <= s < 300 -> lookup t s = None -> documents_success t -> expected ws t s AUnexpected
| ex_success_generic :
    200 <= s < 300 -> lookup t s = None -> ~ documents_success t -> expected ws t s (AOk RRaw)
| ex_error k :
    400 <= s < 600 -> lookup t s = Some k -> expected ws t s (err_action k)
| ex_error_undocumented :
    400 <= s < 600 -> lookup t s = None -> expected ws t s AUnexpected
| ex_upgrade : s = 101 -> ws = true -> expected ws t s (AOk RUpgrade)
| ex_101 k : s = 101 -> ws = false -> kind_at (SCode 101) t = Some k -> expected ws t s (AOk k)
| ex_other_default k :
    ~ (200 <= s < 300) -> ~ (400 <= s < 600) ->
    ~ (s = 101 /\ (ws = true \/ kind_at (SCode 101) t <> None)) ->
    kind_at SDefault t = Some k -> expected ws t s (err_action k)
| ex_other :
    ~ (200 <= s < 300) -> ~ (400 <= s < 600) ->
    ~ (s = 101 /\ (ws = true \/ kind_at (SCode 101) t <> None)) ->
    kind_at SDefault t = None -> expected ws t s AUnexpected.

(** ** What the caller then gets *)

Inductive decoded {V} (fs : type_id -> list N -> result V jerr) (r : response)
  : resp_kind -> result (rvalue (inner V)) (cerror (inner V)) -> Prop :=
| dc_typed t b v : delivers r b -> fs t b = ROk v ->
    decoded fs r (RType t) (ROk (RValue (IVal v) (r_status r) (r_headers r)))
| dc_payload t b e : delivers r b -> fs t b = RErr e ->
    decoded fs r (RType t) (RErr (InvalidResponsePayload b e))
| dc_broken t e : breaks r e -> decoded fs r (RType t) (RErr (ResponseBodyError e))
| dc_none : decoded fs r RNone (ROk (RValue IUnit (r_status r) (r_headers r)))
| dc_raw : decoded fs r RRaw (ROk (RValue (IStream (r_body r)) (r_status r) (r_headers r)))
| dc_upgraded c : r_status r = 101 -> r_upgrade r = ROk c ->
    decoded fs r RUpgrade (ROk (RValue (IUpgraded c) (r_status r) (r_headers r)))
| dc_upgrade_failed e : r_status r = 101 -> r_upgrade r = RErr e ->
    decoded fs r RUpgrade (RErr (InvalidUpgrade e))
| dc_not_upgraded : r_status r <> 101 -> decoded fs r RUpgrade (RErr (UnexpectedResponse r)).

Inductive meaning {V} (fs : type_id -> list N -> result V jerr) (r : response)
  : action -> result (rvalue (inner V)) (cerror (inner V)) -> Prop :=
| mn_ok k x : decoded fs r k x -> meaning fs r (AOk k) x
| mn_err k v : decoded fs r k (ROk v) -> meaning fs r (AErr k) (RErr (ErrorResponse v))
| mn_err_failed k e : decoded fs r k (RErr e) -> meaning fs r (AErr k) (RErr e)
| mn_unexpected : meaning fs r AUnexpected (RErr (UnexpectedResponse r)).

(** ** Which responses must agree *)

(** The default response does not count as a success response when the class
    2XX is documented, no code 201-299 is, and no 200 after the class. *)
Definition default_shadowed (op : operation) : Prop :=
  exists pre r post, op_responses op = pre ++ (ScRange 2, r) :: post /\
    (forall c r', In (ScCode c, r') (pre ++ post) -> ~ (200 < c < 300)) /\
    (forall r', ~ In (ScCode 200, r') post).

(** The kinds of the success responses of an operation. *)
Inductive success_entry (op : operation) (ws : bool) (t : list (resp_status * resp_kind)) : resp_kind -> Prop :=
| se_code c k : In (SCode c, k) t -> c = 101 \/ 200 <= c < 300 -> success_entry op ws t k
| se_class k : In (SRange 2, k) t -> success_entry op ws t k
| se_default k : In (SDefault, k) t -> ~ default_shadowed op -> success_entry op ws t k
| se_generic : ~ documents_success t -> success_entry op ws t RRaw
| se_upgrade : ws = true -> success_entry op ws t RUpgrade.

(** And of its error responses. *)
Inductive error_entry (t : list (resp_status * resp_kind)) : resp_kind -> Prop :=
| ee_code c k : In (SCode c, k) t -> 400 <= c < 600 -> error_entry t k
| ee_class n k : In (SRange n, k) t -> n = 4 \/ n = 5 -> error_entry t k
| ee_default k : In (SDefault, k) t -> error_entry t k.

Definition agree (P : resp_kind -> Prop) : Prop := forall k k', P k -> P k' -> k = k'.

(** Status codes have three digits, classes one. *)
Definition codes_valid (op : operation) : Prop :=
  (forall c r, In (ScCode c, r) (op_responses op) -> c < 1000) /\
  (forall n r, In (ScRange n, r) (op_responses op) -> n < 10).

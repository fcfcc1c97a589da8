(** What values and errors built from a response must report. *)
From Verif Require Import Base Dec HeaderModel ClientModel.
Local Open Scope N_scope.

(** A value that reports the status and the headers of a response. *)
Definition reports {T} (r : response) (v : rvalue T) : Prop :=
  rv_status v = r_status r /\ rv_headers v = r_headers r.

(** The error values that hold a response, and its status and headers. *)
Inductive holds_response {E} : cerror E -> N -> hmap -> Prop :=
| hr_documented v : holds_response (ErrorResponse v) (rv_status v) (rv_headers v)
| hr_unexpected r : holds_response (UnexpectedResponse r) (r_status r) (r_headers r).

(** The error values that hold a transport error. *)
Inductive holds_transport {E} : cerror E -> rerr -> Prop :=
| ht_comm e : holds_transport (CommunicationError e) e
| ht_upgrade e : holds_transport (InvalidUpgrade e) e
| ht_body e : holds_transport (ResponseBodyError e) e.

(** The error values that hold a decoding error. *)
Inductive holds_decode {E} : cerror E -> jerr -> Prop :=
| hd_payload b e : holds_decode (InvalidResponsePayload b e) e.

(** A body that delivers these bytes completely. *)
Definition delivers (r : response) (bytes : list N) : Prop :=
  exists chunks, r_body r = map ROk chunks /\ bytes = concat chunks.

(** A body that breaks with a transport error. *)
Definition breaks (r : response) (e : rerr) : Prop :=
  exists chunks rest, r_body r = map ROk chunks ++ RErr e :: rest.

(** Text denoting a 64-bit length: an optional plus sign and decimal digits. *)
Definition length_text (t : str) (n : N) : Prop :=
  exists ds, (t = ds \/ t = ch "+" :: ds) /\ ds <> [] /\
             Forall (fun c => digit c = true) ds /\ digits_val ds = n /\ n < 2 ^ 64.

(** Two errors agree on everything but the type of a documented error body. *)
Inductive same_but_body {E F} : cerror E -> cerror F -> Prop :=
| sb_req s : same_but_body (InvalidRequest s) (InvalidRequest s)
| sb_comm e : same_but_body (CommunicationError e) (CommunicationError e)
| sb_upgrade e : same_but_body (InvalidUpgrade e) (InvalidUpgrade e)
| sb_resp v w : rv_status v = rv_status w -> rv_headers v = rv_headers w ->
    same_but_body (ErrorResponse v) (ErrorResponse w)
| sb_body e : same_but_body (ResponseBodyError e) (ResponseBodyError e)
| sb_payload b e : same_but_body (InvalidResponsePayload b e) (InvalidResponsePayload b e)
| sb_unexpected r : same_but_body (UnexpectedResponse r) (UnexpectedResponse r)
| sb_pre s : same_but_body (PreHookError s) (PreHookError s)
| sb_post s : same_but_body (PostHookError s) (PostHookError s).

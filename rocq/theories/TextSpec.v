(** Kinds of errors of a client. *)
From Verif Require Import Base ClientModel.

Inductive same_kind {E} : cerror E -> cerror E -> Prop :=
| sk_request s s' : same_kind (InvalidRequest s) (InvalidRequest s')
| sk_communication e e' : same_kind (CommunicationError e) (CommunicationError e')
| sk_upgrade e e' : same_kind (InvalidUpgrade e) (InvalidUpgrade e')
| sk_response r r' : same_kind (ErrorResponse r) (ErrorResponse r')
| sk_bytes e e' : same_kind (ResponseBodyError e) (ResponseBodyError e')
| sk_payload b e b' e' : same_kind (InvalidResponsePayload b e) (InvalidResponsePayload b' e')
| sk_unexpected r r' : same_kind (UnexpectedResponse r) (UnexpectedResponse r')
| sk_pre s s' : same_kind (PreHookError s) (PreHookError s')
| sk_post s s' : same_kind (PostHookError s) (PostHookError s').

(** The errors that are a message. *)
Inductive message {E} : cerror E -> Prop :=
| me_request s : message (InvalidRequest s)
| me_pre s : message (PreHookError s)
| me_post s : message (PostHookError s).

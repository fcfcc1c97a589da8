(** Model of the response side of progenitor-client
    (progenitor-client/src/progenitor_client.rs:20-406). *)
From Verif Require Import Base HeaderModel.
Local Open Scope N_scope.

(** A [reqwest::Error] as far as progenitor looks at it: its text, its
    [status()], and the texts of the errors of its [source()] chain (progenitor_client.rs:261, 263, 264). *)
Record rerr := RErr' { re_text : str; re_status : option N; re_sources : list str }.

(** A [serde_json::Error]: its text and [source()] chain (progenitor_client.rs:69). *)
Record jerr := JErr { je_text : str; je_sources : list str }.

(** A [reqwest::Response]: status, headers, the chunks the body will deliver
    (ending at the first error), and what [upgrade()] will deliver (the
    connection is an abstract token) (progenitor_client.rs:62-127). *)
Record response := Response {
  r_status : N;
  r_headers : hmap;
  r_body : list (result (list N) rerr);
  r_upgrade : result N rerr }.

(** [reqwest::Response::bytes] (progenitor_client.rs:67). *)
Fixpoint body_bytes (b : list (result (list N) rerr)) : result (list N) rerr :=
  match b with
  | [] => ROk []
  | RErr e :: _ => RErr e
  | ROk c :: r => match body_bytes r with ROk cs => ROk (c ++ cs) | RErr e => RErr e end
  end.

(** progenitor_client.rs:55-60, [ResponseValue]. *)
Record rvalue (T : Type) := RValue { rv_inner : T; rv_status : N; rv_headers : hmap }.
Arguments RValue {T}.
Arguments rv_inner {T}.
Arguments rv_status {T}.
Arguments rv_headers {T}.

(** progenitor_client.rs:224-252, [Error]. *)
Inductive cerror (E : Type) :=
| InvalidRequest (s : str)
| CommunicationError (e : rerr)
| InvalidUpgrade (e : rerr)
| ErrorResponse (v : rvalue E)
| ResponseBodyError (e : rerr)
| InvalidResponsePayload (bytes : list N) (e : jerr)
| UnexpectedResponse (r : response)
| PreHookError (s : str)
| PostHookError (s : str).
Arguments InvalidRequest {E}.
Arguments CommunicationError {E}.
Arguments InvalidUpgrade {E}.
Arguments ErrorResponse {E}.
Arguments ResponseBodyError {E}.
Arguments InvalidResponsePayload {E}.
Arguments UnexpectedResponse {E}.
Arguments PreHookError {E}.
Arguments PostHookError {E}.

(** progenitor_client.rs:64-76, [from_response]; [from_slice] is
    [serde_json::from_slice] at the expected type. *)
Definition from_response {T E} (from_slice : list N -> result T jerr) (r : response)
  : result (rvalue T) (cerror E) :=
  let status := r_status r in
  let headers := r_headers r in
  match body_bytes (r_body r) with
  | RErr e => RErr (ResponseBodyError e)
  | ROk full =>
      match from_slice full with
      | RErr e => RErr (InvalidResponsePayload full e)
      | ROk inner => ROk (RValue inner status headers)
      end
  end.

(** progenitor_client.rs:82-98, [upgrade]. *)
Definition upgrade {E} (r : response) : result (rvalue N) (cerror E) :=
  let status := r_status r in
  let headers := r_headers r in
  if status =? 101 then
    match r_upgrade r with
    | RErr e => RErr (InvalidUpgrade e)
    | ROk inner => ROk (RValue inner status headers)
    end
  else RErr (UnexpectedResponse r).

(** progenitor_client.rs:103-111, [stream]: the inner value is the stream of
    the body's chunks. *)
Definition stream (r : response) : rvalue (list (result (list N) rerr)) :=
  RValue (r_body r) (r_status r) (r_headers r).

(** progenitor_client.rs:116-126, [empty]. *)
Definition empty (r : response) : rvalue unit := RValue tt (r_status r) (r_headers r).

(** core::num, [u64::from_str] (radix 10), called at progenitor_client.rs:163.  Up to 16 digits the unchecked
    (wrapping) loop is used, beyond that the checked one. *)
Definition two64 : N := 18446744073709551616.

(** [char::to_digit] (called through progenitor_client.rs:163). *)
Definition to_digit (c : N) : option N := if (48 <=? c) && (c <=? 57) then Some (c - 48) else None.

(** [u64::from_str] (called at progenitor_client.rs:163), up to 16 digits. *)
Fixpoint from_digits_unchecked (acc : N) (s : str) : option N :=
  match s with
  | [] => Some acc
  | c :: r =>
      match to_digit c with
      | Some d => from_digits_unchecked (((acc * 10) mod two64 + d) mod two64) r
      | None => None
      end
  end.

(** [u64::from_str] (called at progenitor_client.rs:163), beyond 16 digits. *)
Fixpoint from_digits_checked (acc : N) (s : str) : option N :=
  match s with
  | [] => Some acc
  | c :: r =>
      match to_digit c with
      | None => None
      | Some d =>
          if two64 <=? acc * 10 then None
          else if two64 <=? acc * 10 + d then None
          else from_digits_checked (acc * 10 + d) r
      end
  end.

(** [u64::from_str] (called at progenitor_client.rs:163). *)
Definition u64_from_str (s : str) : option N :=
  let digits (ds : str) :=
    if N.of_nat (List.length ds) <=? 16 then from_digits_unchecked 0 ds else from_digits_checked 0 ds in
  match s with
  | [] => None
  | [c] => if (c =? ch "+") || (c =? ch "-") then None else digits s
  | c :: r => if c =? ch "+" then digits r else digits s
  end.

(** progenitor_client.rs:158-165, [content_length]. *)
Definition content_length {T} (v : rvalue T) : option N :=
  match h_get (lit "content-length") (rv_headers v) with
  | None => None
  | Some b => match header_to_str b with None => None | Some s => u64_from_str s end
  end.

(** progenitor_client.rs:168-183, [map]. *)
Definition rv_map {T U E} (f : T -> U) (v : rvalue T) : result (rvalue U) E :=
  let '(RValue inner status headers) := v in ROk (RValue (f inner) status headers).

(** progenitor_client.rs:256-268, [Error::status]. *)
Definition err_status {E} (e : cerror E) : option N :=
  match e with
  | InvalidRequest _ => None
  | PreHookError _ => None
  | PostHookError _ => None
  | CommunicationError e => re_status e
  | ErrorResponse rv => Some (rv_status rv)
  | InvalidUpgrade e => re_status e
  | ResponseBodyError e => re_status e
  | InvalidResponsePayload _ _ => None
  | UnexpectedResponse r => Some (r_status r)
  end.

(** progenitor_client.rs:274-294, [Error::into_untyped]. *)
Definition into_untyped {E} (e : cerror E) : cerror unit :=
  match e with
  | InvalidRequest s => InvalidRequest s
  | PreHookError s => PreHookError s
  | PostHookError s => PostHookError s
  | CommunicationError e => CommunicationError e
  | ErrorResponse (RValue _ status headers) => ErrorResponse (RValue tt status headers)
  | InvalidUpgrade e => InvalidUpgrade e
  | ResponseBodyError e => ResponseBodyError e
  | InvalidResponsePayload b e => InvalidResponsePayload b e
  | UnexpectedResponse r => UnexpectedResponse r
  end.

(** progenitor_client.rs:297-301 and 303-307, the [From] impls behind [?];
    305: http's [InvalidHeaderValue] displays as this text. *)
Definition from_reqwest {E} (e : rerr) : cerror E := CommunicationError e.
(** progenitor_client.rs:303-307. *)
Definition from_invalid_header {E} : cerror E := InvalidRequest (lit "failed to parse header value").

(** progenitor_client.rs:393-406, [std::error::Error::source]: the text of the
    source and of the sources behind it. *)
Definition source_chain {E} (e : cerror E) : list str :=
  match e with
  | CommunicationError e => re_text e :: re_sources e
  | InvalidUpgrade e => re_text e :: re_sources e
  | ResponseBodyError e => re_text e :: re_sources e
  | InvalidResponsePayload _ e => je_text e :: je_sources e
  | _ => []
  end.

(** progenitor_client.rs:309-356, [Display::fmt].  The derived [{:?}]
    printers of byte buffers, responses and response values are parameters;
    [alt] is [f.alternate()]. *)
Definition err_display {E} (dbg_bytes : list N -> str) (dbg_response : response -> str)
    (fmt_info : rvalue E -> str) (alt : bool) (e : cerror E) : str :=
  let head :=
    match e with
    | InvalidRequest s => lit "Invalid Request: " ++ s
    | CommunicationError e => lit "Communication Error: " ++ re_text e
    | ErrorResponse rve => lit "Error Response: " ++ fmt_info rve
    | InvalidUpgrade e => lit "Invalid Response Upgrade: " ++ re_text e
    | ResponseBodyError e => lit "Invalid Response Body Bytes: " ++ re_text e
    | InvalidResponsePayload b e =>
        lit "Invalid Response Payload (" ++ dbg_bytes b ++ lit "): " ++ je_text e
    | UnexpectedResponse r => lit "Unexpected Response: " ++ dbg_response r
    | PreHookError s => lit "Pre-hook Error: " ++ s
    | PostHookError s => lit "Post-hook Error: " ++ s
    end in
  if alt then
    (* 348-352: starts at source().source() *)
    head ++ flat_map (fun s => lit ": " ++ s) (tl (source_chain e))
  else head.

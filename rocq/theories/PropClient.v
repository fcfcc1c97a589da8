(** Properties C24-C26, C61: values and errors built from responses. *)
From Verif Require Import Base Dec HeaderModel ClientModel ClientSpec ClientProofs.
Local Open Scope N_scope.

(** C24: every value built from a response reports its status and headers. *)
Theorem C24_decoded_value_reports : forall T E fs r (v : rvalue T),
  from_response (E:=E) fs r = ROk v ->
  reports r v /\ exists b, delivers r b /\ fs b = ROk (rv_inner v).
Proof. exact @from_response_ok_inv. Qed.
Print Assumptions C24_decoded_value_reports.

Theorem C24_upgraded_value_reports : forall E r (v : rvalue N),
  upgrade (E:=E) r = ROk v -> reports r v /\ r_status r = 101 /\ r_upgrade r = ROk (rv_inner v).
Proof. exact @upgrade_ok_inv. Qed.
Print Assumptions C24_upgraded_value_reports.

Theorem C24_raw_values_report : forall r,
  reports r (stream r) /\ rv_inner (stream r) = r_body r /\ reports r (empty r).
Proof. exact values_report. Qed.
Print Assumptions C24_raw_values_report.

Theorem C24_map_keeps : forall T U E (f : T -> U) v w,
  rv_map (E:=E) f v = ROk w ->
  rv_inner w = f (rv_inner v) /\ rv_status w = rv_status v /\ rv_headers w = rv_headers v.
Proof. exact @map_reports. Qed.
Print Assumptions C24_map_keeps.

Theorem C24_map_never_fails : forall T U E (f : T -> U) v, exists w, rv_map (E:=E) f v = ROk w.
Proof. exact @map_total. Qed.
Print Assumptions C24_map_never_fails.

Theorem C24_into_untyped_keeps : forall E (e : cerror E), same_but_body e (into_untyped e).
Proof. exact @into_untyped_same. Qed.
Print Assumptions C24_into_untyped_keeps.

Theorem C24_into_untyped_status : forall E (e : cerror E), err_status (into_untyped e) = err_status e.
Proof. exact @into_untyped_status. Qed.
Print Assumptions C24_into_untyped_status.

(** What the status accessor returns. *)
Theorem C24_status_accessor_iff_partial : forall E (e : cerror E) s,
  err_status e = Some s <->
  (exists h, holds_response e s h) \/ (exists t, holds_transport e t /\ re_status t = Some s).
Proof. exact @err_status_iff. Qed.
Print Assumptions C24_status_accessor_iff_partial.

(** "Exactly for errors built from a response" is false: the error for an
    undecodable payload is built from a response and reports no status. *)
Theorem C24_status_of_payload_error_refuted :
  exists (r : response) (fs : list N -> result N jerr) (e : cerror N),
    from_response fs r = RErr e /\ r_status r = 200 /\ err_status e = None.
Proof. exact payload_status_lost. Qed.
Print Assumptions C24_status_of_payload_error_refuted.

Definition ex_resp : response :=
  Response 404 [(lit "etag", [lit "x"]); (lit "content-length", [lit "2"])] [ROk [ch "{"]; ROk [ch "}"]]
    (RErr (RErr' (lit "not upgradable") None [])).

Example C24_ex :
  from_response (E:=N) (fun b => ROk (List.length b)) ex_resp
    = ROk (RValue 2%nat 404 (r_headers ex_resp)) /\
  err_status (into_untyped (ErrorResponse (RValue 7%N 404 (r_headers ex_resp)))) = Some 404 /\
  err_status (UnexpectedResponse (E:=N) ex_resp) = Some 404.
Proof. repeat split. Qed.

(** C25. *)
Theorem C25_payload_error_has_bytes : forall T E (fs : list N -> result T jerr) r b e,
  delivers r b -> fs b = RErr e ->
  from_response (E:=E) fs r = RErr (InvalidResponsePayload b e).
Proof. exact @from_response_payload. Qed.
Print Assumptions C25_payload_error_has_bytes.

Theorem C25_unreadable_body : forall T E (fs : list N -> result T jerr) r e,
  breaks r e -> from_response (E:=E) fs r = RErr (ResponseBodyError e).
Proof. exact @from_response_breaks. Qed.
Print Assumptions C25_unreadable_body.

Theorem C25_decodable_body : forall T E fs r b (v : T),
  delivers r b -> fs b = ROk v ->
  from_response (E:=E) fs r = ROk (RValue v (r_status r) (r_headers r)).
Proof. exact @from_response_delivers. Qed.
Print Assumptions C25_decodable_body.

Theorem C25_no_other_error : forall T E (fs : list N -> result T jerr) r (x : cerror E),
  from_response fs r = RErr x ->
  (exists b e, delivers r b /\ fs b = RErr e /\ x = InvalidResponsePayload b e) \/
  (exists e, breaks r e /\ x = ResponseBodyError e).
Proof. exact @from_response_err_inv. Qed.
Print Assumptions C25_no_other_error.

Example C25_ex :
  delivers ex_resp [ch "{"; ch "}"] /\
  from_response (T:=N) (E:=N) (fun b => RErr (JErr (lit "eof") [])) ex_resp
    = RErr (InvalidResponsePayload (lit "{}") (JErr (lit "eof") [])) /\
  breaks (Response 200 [] [ROk [1]; RErr (RErr' (lit "reset") None []); ROk [2]] (ROk 0))
    (RErr' (lit "reset") None []).
Proof.
  split; [exists [[ch "{"]; [ch "}"]]; split; reflexivity|].
  split; [reflexivity|]. exists [[1]], [ROk [2]]. reflexivity.
Qed.

(** C26. *)
Theorem C26_content_length_iff : forall T (v : rvalue T) n,
  content_length v = Some n <->
  exists t rest, h_values (lit "content-length") (rv_headers v) = t :: rest /\ length_text t n.
Proof. exact @content_length_iff. Qed.
Print Assumptions C26_content_length_iff.

Theorem C26_text_denotes_one_length : forall t n m, length_text t n -> length_text t m -> n = m.
Proof. exact length_text_unique. Qed.
Print Assumptions C26_text_denotes_one_length.

Example C26_ex :
  content_length (RValue tt 200 [(lit "content-length", [lit "18446744073709551615"])])
    = Some 18446744073709551615 /\
  content_length (RValue tt 200 [(lit "content-length", [lit "18446744073709551616"])]) = None /\
  content_length (RValue tt 200 [(lit "content-length", [lit "+007"; lit "9"])]) = Some 7 /\
  content_length (RValue tt 200 [(lit "content-length", [lit "-1"])]) = None.
Proof. repeat split; vm_compute; reflexivity. Qed.

(** C61: the alternate form shows every error of the chain once, in order. *)
Theorem C61_alternate_shows_chain : forall E db dr (fi : rvalue E -> str) e chain,
  (exists t, holds_transport e t /\ chain = re_sources t) \/
  (exists j, holds_decode e j /\ chain = je_sources j) ->
  err_display db dr fi true e = err_display db dr fi false e ++ flat_map (fun s => lit ": " ++ s) chain.
Proof. exact @display_alternate. Qed.
Print Assumptions C61_alternate_shows_chain.

Theorem C61_plain_ends_with_cause : forall E db dr (fi : rvalue E -> str) e text,
  (exists t, holds_transport e t /\ text = re_text t) \/
  (exists j, holds_decode e j /\ text = je_text j) ->
  exists prefix, err_display db dr fi false e = prefix ++ lit ": " ++ text.
Proof. exact @display_ends_with_text. Qed.
Print Assumptions C61_plain_ends_with_cause.

Theorem C61_no_source_same : forall E db dr (fi : rvalue E -> str) e,
  (forall t, ~ holds_transport e t) -> (forall j, ~ holds_decode e j) ->
  err_display db dr fi true e = err_display db dr fi false e.
Proof. exact @display_no_source. Qed.
Print Assumptions C61_no_source_same.

Example C61_ex :
  err_display (E:=N) (fun _ => []) (fun _ => []) (fun _ => []) true
    (CommunicationError (RErr' (lit "send") None [lit "connect"; lit "refused"]))
    = lit "Communication Error: send: connect: refused".
Proof. reflexivity. Qed.

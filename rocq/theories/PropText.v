(** C91: the text of an error tells what it is. *)
From Verif Require Import Base ClientModel ErrorModel TextSpec TextProofs.

Theorem C91_kinds : forall E db dr (fi : rvalue E -> str) alt alt' e e',
  err_display db dr fi alt e = err_display db dr fi alt' e' -> same_kind e e'.
Proof. exact @text_kind. Qed.
Print Assumptions C91_kinds.

Theorem C91_messages : forall E db dr (fi : rvalue E -> str) alt alt' e e', message e ->
  err_display db dr fi alt e = err_display db dr fi alt' e' -> e' = e.
Proof. exact @text_message. Qed.
Print Assumptions C91_messages.

(** Errors of the same message but different kinds. *)
Example C91_client_ex : message (E:=N) (PreHookError (lit "Post-hook Error: no"))
  /\ err_display (E:=N) (fun _ => []) (fun _ => []) (fun _ => []) true (PreHookError (lit "Post-hook Error: no"))
     = lit "Pre-hook Error: Post-hook Error: no"
  /\ err_display (E:=N) (fun _ => []) (fun _ => []) (fun _ => []) false (PostHookError (lit "no")) = lit "Post-hook Error: no".
Proof. split; [constructor|]. split; reflexivity. Qed.

Theorem C91_generator : forall e e', error_text e = error_text e' -> e = e'.
Proof. exact error_text_inj. Qed.
Print Assumptions C91_generator.

Example C91_generator_ex :
  error_text (InvalidPath (lit "/a{")) = lit "invalid operation path /a{"
  /\ error_text (InternalError (lit "/a{")) = lit "internal error /a{".
Proof. split; reflexivity. Qed.

(** The text of an error tells what it is. *)
From Verif Require Import Base ClientModel ErrorModel TextSpec.

Section Client.
Context {E : Type} (db : list N -> str) (dr : response -> str) (fi : rvalue E -> str).

Definition headed (e : cerror E) (text : str) : Prop :=
  match e with
  | InvalidRequest _ => exists t, text = lit "Invalid Request: " ++ t
  | CommunicationError _ => exists t, text = lit "Communication Error: " ++ t
  | ErrorResponse _ => exists t, text = lit "Error Response: " ++ t
  | InvalidUpgrade _ => exists t, text = lit "Invalid Response Upgrade: " ++ t
  | ResponseBodyError _ => exists t, text = lit "Invalid Response Body Bytes: " ++ t
  | InvalidResponsePayload _ _ => exists t, text = lit "Invalid Response Payload (" ++ t
  | UnexpectedResponse _ => exists t, text = lit "Unexpected Response: " ++ t
  | PreHookError _ => exists t, text = lit "Pre-hook Error: " ++ t
  | PostHookError _ => exists t, text = lit "Post-hook Error: " ++ t
  end.
Lemma display_headed alt e : headed e (err_display db dr fi alt e).
Proof.
  unfold err_display. destruct alt; destruct e; unfold headed; eexists; rewrite <- ?app_assoc; reflexivity.
Qed.
Lemma headed_same e e' text : headed e text -> headed e' text -> same_kind e e'.
Proof.
  destruct e, e'; unfold headed; intros (t & ->) (t' & H); try constructor; discriminate H.
Qed.
Lemma text_kind alt alt' e e' : err_display db dr fi alt e = err_display db dr fi alt' e' -> same_kind e e'.
Proof.
  intro H. apply (headed_same e e' (err_display db dr fi alt e)); [apply display_headed|]. rewrite H. apply display_headed.
Qed.
Lemma text_message alt alt' e e' : message e -> err_display db dr fi alt e = err_display db dr fi alt' e' -> e' = e.
Proof.
  intros Hm H. pose proof (text_kind _ _ _ _ H) as Hk.
  destruct Hm; inversion Hk; subst; unfold err_display in H; destruct alt, alt'; cbn [source_chain tl flat_map] in H;
    rewrite ?app_nil_r in H; apply app_inv_head in H; congruence.
Qed.
End Client.

Lemma error_text_inj e e' : error_text e = error_text e' -> e = e'.
Proof.
  destruct e, e'; cbn [error_text]; intro H; try discriminate H; apply app_inv_head in H; congruence.
Qed.

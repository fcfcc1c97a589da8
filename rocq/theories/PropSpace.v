(** C56: spacing out the items of the generated code. *)
From Verif Require Import Base SpaceModel SpaceSpec SpaceProofs.
Local Open Scope N_scope.

(** C56: the text is kept except for one line end added at some of the places where an item ends (the
    parts are not empty, so no two at one place); if closing braces are indented by spaces and do not
    follow an empty line, at all such places. *)
Theorem C56_line_ends_added : forall windows s, exists ps,
  s = concat ps /\ space_out_items windows s = Ok (joined windows ps)
  /\ Forall (fun p => p <> []) (tl ps)
  /\ (forall before after, ps = before ++ after -> before <> [] -> after <> [] ->
        item_end windows (concat before) (concat after))
  /\ (tidy s -> forall a b, s = a ++ b -> item_end windows a b ->
        exists before after, ps = before ++ after /\ before <> [] /\ after <> [] /\ a = concat before /\ b = concat after).
Proof. exact space_out_parts. Qed.
Print Assumptions C56_line_ends_added.

(** Nothing is added exactly if no item ends. *)
Theorem C56_kept_iff : forall windows s,
  space_out_items windows s = Ok s <-> forall a b, s = a ++ b -> ~ item_end windows a b.
Proof. exact space_out_kept. Qed.
Print Assumptions C56_kept_iff.

Definition two_items : str := lit "fn a() {
    x
}
/// doc
fn b() {
    if c {
        d
    }
}
".
Example C56_ex :
  space_out_items false two_items = Ok (lit "fn a() {
    x
}

/// doc
fn b() {
    if c {
        d
    }
}
")
  /\ item_end false (lit "fn a() {
    x
}") (lit "
/// doc")
  /\ tidy two_items.
Proof.
  split; [vm_compute; reflexivity|]. split; [|apply tidy_tested; vm_compute; reflexivity]. exists (lit "fn a() {
    x"), [], [], (ch "/"), (lit "// doc"). repeat split; auto; vm_compute; try discriminate. lia.
Qed.

(** Braces after an empty line may be missed, which the condition of the theorem excludes. *)
Example C56_not_tidy :
  space_out_items false (10 :: lit "}" ++ 10 :: 10 :: lit "}" ++ 10 :: lit "x")
  = Ok (10 :: lit "}" ++ 10 :: 10 :: 10 :: lit "}" ++ 10 :: lit "x").
Proof. vm_compute. reflexivity. Qed.

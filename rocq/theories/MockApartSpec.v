(** Templates of paths that have no path in common. *)
From Verif Require Import Base TemplateSpec EncodeSpec.

Definition segments (ps : list piece) : list (list piece) := split_slash (squeeze_pieces false ps).

(** Different numbers of segments, or different constants in the same place. *)
Definition apart (ps ps' : list piece) : Prop :=
  length (segments ps) <> length (segments ps')
  \/ exists i s s', nth_error (segments ps) i = Some s /\ nth_error (segments ps') i = Some s' /\ vars s = [] /\ vars s' = [] /\ s <> s'.

(** Every segment is a constant or a placeholder. *)
Definition whole_segments (ps : list piece) : Prop :=
  Forall (fun s => vars s = [] \/ exists n, s = [PVar n]) (segments ps).

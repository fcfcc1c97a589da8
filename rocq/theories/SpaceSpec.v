(** What spacing items out means: a line end is added at places where an item ends. *)
From Verif Require Import Base.
Local Open Scope N_scope.

(** Unicode white space. *)
Definition blank (c : char) : Prop :=
  In c [9; 10; 11; 12; 13; 32; 133; 160; 5760; 8192; 8193; 8194; 8195; 8196; 8197; 8198; 8199; 8200; 8201; 8202;
        8232; 8233; 8239; 8287; 12288].

(** The end of a line. *)
Definition newline (windows : bool) : str := if windows then [13; 10] else [10].

(** An item ends between two parts of a text: the first part ends with a closing brace that is the first
    on its line, the second continues on another line with something that is not a closing brace (and
    at most eight white characters away). *)
Definition item_end (windows : bool) (a b : str) : Prop :=
  exists x w w' c y,
    a = x ++ [10] ++ w ++ [ch "}"] /\ Forall blank w
    /\ b = newline windows ++ w' ++ [c] ++ y /\ Forall blank w' /\ (length w' <= 8)%nat
    /\ c <> ch "}" /\ c <> ch " ".

(** Parts put together with line ends between them. *)
Fixpoint joined (windows : bool) (ps : list str) : str :=
  match ps with
  | [] => []
  | p :: [] => p
  | p :: ps' => p ++ newline windows ++ joined windows ps'
  end.

(** Closing braces are indented by spaces and do not follow an empty line. *)
Definition tidy (s : str) : Prop :=
  forall x w y, s = x ++ [10] ++ w ++ [ch "}"] ++ y -> Forall blank w -> Forall (fun c => c = ch " ") w.

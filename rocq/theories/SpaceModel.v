(** Model of [space_out_items] (progenitor-impl/src/lib.rs:645-654) and of how regex 1.11.1 searches
    for its pattern. *)
From Verif Require Import Base.
Local Open Scope N_scope.

(** [\s] of the regex crate: the characters with the property White_Space (lib.rs:648, 651). *)
Definition white (c : char) : bool :=
  ((9 <=? c) && (c <=? 13)) || (c =? 32) || (c =? 133) || (c =? 160) || (c =? 5760)
  || ((8192 <=? c) && (c <=? 8202)) || (c =? 8232) || (c =? 8233) || (c =? 8239) || (c =? 8287) || (c =? 12288).

(** The line end of the pattern and of the replacement, lib.rs:647 and 650: [\n], on Windows [\r\n]. *)
Definition line_end (windows : bool) : str := if windows then [13; 10] else [10].

(** The text from which [p] is removed, if it begins with it (lib.rs:648, 651). *)
Fixpoint strip (p s : str) : option str :=
  match p, s with
  | [], _ => Some s
  | x :: p', y :: s' => if x =? y then strip p' s' else None
  | _ :: _, [] => None
  end.

(** [\s*], which takes as much as possible; giving some back never helps here because what follows in
    the pattern is not white (lib.rs:648, 651). *)
Fixpoint span_white (s : str) : str * str :=
  match s with
  | c :: r => if white c then let (w, r') := span_white r in (c :: w, r') else ([], s)
  | [] => ([], [])
  end.

(** [\s{0,k}[^} ]]: prefers to take more, gives back what does not lead to a match (lib.rs:648, 651).
    The text taken and the rest. *)
Fixpoint take_tail (k : nat) (s : str) {struct s} : option (str * str) :=
  match s with
  | [] => None
  | c :: r =>
      match (if white c then match k with S k' => take_tail k' r | O => None end else None) with
      | Some (g, rest) => Some (c :: g, rest)
      | None => if (c =? ch "}") || (c =? ch " ") then None else Some ([c], r)
      end
  end.

(** The pattern [(\n\s*})(\n\s{0,8}[^} ])] at the beginning of a text: the two groups and the rest
    (lib.rs:648, 651). *)
Definition match_here (windows : bool) (s : str) : option (str * str * str) :=
  match s with
  | c :: r =>
      if c =? 10 then
        let (w, r1) := span_white r in
        match r1 with
        | b :: r2 =>
            if b =? ch "}" then
              match strip (line_end windows) r2 with
              | Some r3 =>
                  match take_tail 8 r3 with
                  | Some (g, rest) => Some (c :: w ++ [b], line_end windows ++ g, rest)
                  | None => None
                  end
              | None => None
              end
            else None
        | [] => None
        end
      else None
  | [] => None
  end.

(** [Regex::replace_all] (lib.rs:649, 652): leftmost matches that do not overlap are replaced by
    [$1\n$2].  The first argument bounds the number of steps. *)
Fixpoint replace_all (windows : bool) (n : nat) (s : str) : str :=
  match n with
  | O => s
  | S n' =>
      match match_here windows s with
      | Some (g1, g2, rest) => g1 ++ line_end windows ++ g2 ++ replace_all windows n' rest
      | None => match s with [] => [] | c :: r => c :: replace_all windows n' r end
      end
  end.

(** lib.rs:645-654. *)
Definition space_out_items (windows : bool) (content : str) : outcome str :=
  Ok (replace_all windows (length content) content).

(** What generated names should be: legal identifiers of the Rust reference, made from the words of
    the API name.  Independent of the scanning loop of heck. *)
From Verif Require Import Base SanitizeModel.

(** The Rust reference, "Keywords": strict and reserved keywords of the 2021 edition. *)
Definition strict_keywords : list str :=
  [lit "as"; lit "break"; lit "const"; lit "continue"; lit "crate"; lit "else"; lit "enum";
   lit "extern"; lit "false"; lit "fn"; lit "for"; lit "if"; lit "impl"; lit "in"; lit "let";
   lit "loop"; lit "match"; lit "mod"; lit "move"; lit "mut"; lit "pub"; lit "ref"; lit "return";
   lit "self"; lit "Self"; lit "static"; lit "struct"; lit "super"; lit "trait"; lit "true";
   lit "type"; lit "unsafe"; lit "use"; lit "where"; lit "while"; lit "async"; lit "await";
   lit "dyn"].
Definition reserved_keywords : list str :=
  [lit "abstract"; lit "become"; lit "box"; lit "do"; lit "final"; lit "macro"; lit "override";
   lit "priv"; lit "typeof"; lit "unsized"; lit "virtual"; lit "yield"; lit "try"].

Section Spec.
Variable U : unicode.

(** The Rust reference, "Identifiers": NON_KEYWORD_IDENTIFIER. *)
Definition identifier (s : str) : Prop :=
  (exists c r, s = c :: r
     /\ (xid_start U c = true \/ (c = ch "_" /\ r <> []))
     /\ Forall (fun d => xid_continue U d = true) r)
  /\ ~ In s strict_keywords /\ ~ In s reserved_keywords.

(** The characters of an API name that can be part of a generated name. *)
Definition letter (c : char) : Prop := alphanumeric U c = true /\ xid_continue U c = true.

Definition cased (c : char) : bool := lowercase U c || uppercase U c.

(** The last letter of [before] that is a lower or upper case letter. *)
Definition last_cased (before : str) : option char := find cased (rev before).

(** Does a new word start at the letter [c], between [before] and [after] in a run of letters?
    Exactly when [c] is upper case and the last cased letter before it is lower case
    ([get|Item]), or is upper case too but [c] is followed by a lower case one ([XML|Http]). *)
Definition word_starts (before : str) (c : char) (after : str) : Prop :=
  uppercase U c = true
  /\ exists k, last_cased before = Some k
     /\ (lowercase U k = true \/ exists d r, after = d :: r /\ lowercase U d = true).

(** [ws] are the words of the run of letters [run]: they are not empty, [run] is what they spell,
    and they start where [word_starts] says. *)
Definition words_of_run (run : str) (ws : list str) : Prop :=
  concat ws = run
  /\ Forall (fun w => w <> []) ws
  /\ forall before c after, run = before ++ c :: after -> before <> [] ->
       ((exists n, before = concat (firstn n ws)) <-> word_starts before c after).

(** The words of a text: those of its maximal runs of letters. *)
Inductive words_of : str -> list str -> Prop :=
| wo_end : words_of [] []
| wo_skip c s ws : ~ letter c -> words_of s ws -> words_of (c :: s) ws
| wo_run run s ws ws' :
    run <> [] -> Forall letter run ->
    match s with [] => True | c :: _ => ~ letter c end ->
    words_of_run run ws -> words_of s ws' -> words_of (run ++ s) (ws ++ ws').

(** An apostrophe does not end a word. *)
Definition no_apostrophes (s : str) : str := filter (fun c => negb (N.eqb c (ch "'"))) s.

(** Make a text an identifier: an underscore in front if it could not begin with that character,
    one behind if it is a keyword. *)
Definition fronted (s : str) : str :=
  match s with
  | [] => []
  | c :: _ => if xid_start U c then s else ch "_" :: s
  end.
Definition unreserved (s : str) : str :=
  if mem s strict_keywords || mem s reserved_keywords then s ++ [ch "_"] else s.

(** Lower case, a final capital sigma becoming final small sigma. *)
Definition lowered (w : str) : str :=
  flat_map (to_lower U) (removelast w)
  ++ match rev w with
     | [] => []
     | c :: _ => if N.eqb c 931 then [962%N] else to_lower U c
     end.
Definition capitalised (w : str) : str :=
  match w with
  | [] => []
  | c :: r => to_upper U c ++ lowered r
  end.

(** [snake_words s ws]: the words of the snake-case name of [s]. *)
Definition snake_words (s : str) (ws : list str) : Prop :=
  (s = lit "+1" /\ ws = [lit "plus1"])
  \/ (s = lit "-1" /\ ws = [lit "minus1"])
  \/ (s <> lit "+1" /\ s <> lit "-1" /\ words_of (no_apostrophes s) [] /\ ws = [lit "x"])
  \/ (s <> lit "+1" /\ s <> lit "-1"
      /\ exists w r, words_of (no_apostrophes s) (w :: r) /\ ws = map lowered (w :: r)).

(** A snake-case name is its words between underscores. *)
Definition snake_name (ws : list str) : str :=
  unreserved (fronted (tl (flat_map (fun w => ch "_" :: w) ws))).

(** [pascal_text s t]: the text of the Pascal-case name of [s]. *)
Definition pascal_text (s t : str) : Prop :=
  (s = lit "+1" /\ t = lit "plus1")
  \/ (s = lit "-1" /\ t = lit "minus1")
  \/ (s <> lit "+1" /\ s <> lit "-1" /\ words_of (no_apostrophes s) [] /\ t = lit "X")
  \/ (s <> lit "+1" /\ s <> lit "-1"
      /\ exists w r, words_of (no_apostrophes s) (w :: r)
                     /\ t = flat_map capitalised (w :: r)).

(** Characters whose lower case is settled: letters, none upper case, all their own lower case. *)
Definition settled (c : char) : Prop :=
  Forall (fun d => letter d /\ uppercase U d = false /\ to_lower U d = [d]) (to_lower U c).
End Spec.

(** What has to be known about the Unicode tables (besides ASCII, below). *)
Record unicode_laws (U : unicode) : Prop := {
  ul_lower : forall c, xid_continue U c = true ->
    to_lower U c <> [] /\ Forall (fun d => xid_continue U d = true) (to_lower U c);
  ul_upper : forall c, xid_continue U c = true ->
    to_upper U c <> [] /\ Forall (fun d => xid_continue U d = true) (to_upper U c);
  ul_sigma : letter U 962 /\ uppercase U 962 = false /\ to_lower U 962 = [962%N];
  ul_capital_sigma : uppercase U 931 = true;
  ul_cases : forall c, lowercase U c = true -> uppercase U c = false;
  ul_underscore : forall c, alphanumeric U c = true -> ~ In (ch "_") (to_lower U c)
}.

(** The tables restricted to ASCII. *)
Definition ascii_lower (c : char) : bool := N.leb 97 c && N.leb c 122.
Definition ascii_upper (c : char) : bool := N.leb 65 c && N.leb c 90.
Definition ascii_digit (c : char) : bool := N.leb 48 c && N.leb c 57.
Record ascii_laws (U : unicode) : Prop := {
  al_start : forall c, (c < 128)%N -> xid_start U c = ascii_lower c || ascii_upper c;
  al_continue : forall c, (c < 128)%N ->
    xid_continue U c = ascii_lower c || ascii_upper c || ascii_digit c || N.eqb c 95;
  al_alphanumeric : forall c, (c < 128)%N ->
    alphanumeric U c = ascii_lower c || ascii_upper c || ascii_digit c;
  al_lowercase : forall c, (c < 128)%N -> lowercase U c = ascii_lower c;
  al_uppercase : forall c, (c < 128)%N -> uppercase U c = ascii_upper c;
  al_to_lower : forall c, (c < 128)%N -> to_lower U c = [if ascii_upper c then c + 32 else c]%N;
  al_to_upper : forall c, (c < 128)%N -> to_upper U c = [if ascii_lower c then c - 32 else c]%N
}.

(** Operation ids that are in snake case already, such as [list_items_v2]. *)
Definition snake_word (w : str) : Prop :=
  w <> [] /\ Forall (fun c => ascii_lower c || ascii_digit c = true) w.
Definition snake_id (s : str) : Prop :=
  exists w ws, Forall snake_word (w :: ws) /\ s = w ++ flat_map (fun v => ch "_" :: v) ws.

(** Those none of whose words begins with a digit. *)
Definition lettered_word (w : str) : Prop :=
  exists c r, w = c :: r /\ ascii_lower c = true /\ snake_word w.
Definition lettered_id (s : str) : Prop :=
  exists w ws, Forall lettered_word (w :: ws) /\ s = w ++ flat_map (fun v => ch "_" :: v) ws.

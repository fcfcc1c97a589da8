(** Model of name generation: progenitor-impl/src/util.rs:78-112 ([Case], [sanitize]) together with
    the two functions of heck 0.5.0 it calls ([to_snake_case], [to_pascal_case]; crate not in /repo,
    version fixed by /repo/Cargo.lock) and the check [syn::parse_str::<syn::Ident>] (syn 2.0.100). *)
From Verif Require Import Base UnicodeTree UnicodeData.

(** The character predicates and case maps the code consults: [is_xid_start], [is_xid_continue]
    (util.rs:7), [char::is_alphanumeric], [is_lowercase], [is_uppercase], [to_lowercase],
    [to_uppercase] (called by heck), [is_whitespace]. *)
Record unicode := Unicode {
  xid_start : char -> bool;
  xid_continue : char -> bool;
  alphanumeric : char -> bool;
  lowercase : char -> bool;
  uppercase : char -> bool;
  whitespace : char -> bool;
  to_lower : char -> str;
  to_upper : char -> str
}.

(** The tables of Unicode 15 (util.rs:7 and the standard library). *)
Definition unicode15 : unicode := {|
  xid_start := in_ranges xid_start_ranges;
  xid_continue := in_ranges xid_continue_ranges;
  alphanumeric := in_ranges alphanumeric_ranges;
  lowercase := in_ranges lowercase_ranges;
  uppercase := in_ranges uppercase_ranges;
  whitespace := in_ranges whitespace_ranges;
  to_lower := fun c => match entry lower_entries c with Some s => s | None => [c] end;
  to_upper := fun c => match entry upper_entries c with Some s => s | None => [c] end
|}.

(** util.rs:78-81. *)
Inductive case := Pascal | Snake.

Section Names.
Variable U : unicode.

(** [str::split] with a predicate (used in heck's [transform], called from util.rs:86-87). *)
Fixpoint split_on (p : char -> bool) (s : str) : list str :=
  match s with
  | [] => [[]]
  | c :: r =>
      if p c then [] :: split_on p r
      else match split_on p r with
           | w :: ws => (c :: w) :: ws
           | [] => [[c]]
           end
  end.

(** heck 0.5.0 src/lib.rs [transform]: [WordMode]. *)
Inductive word_mode := Boundary | Lowercase | Uppercase.

(** heck [transform], the [while let] loop over one alphanumeric run; called from util.rs:86-87.
    [cur] is [word[init..i]].  Where heck writes a word (preceded by the boundary unless it is the
    first) the model returns it; the boundaries are put back by [to_snake_case] below. *)
Fixpoint run_words (cur : str) (mode : word_mode) (w : str) : list str :=
  match w with
  | [] => []
  | c :: r =>
      match r with
      | next :: _ =>
          let next_mode :=
            if lowercase U c then Lowercase
            else if uppercase U c then Uppercase
            else mode in
          if match next_mode with Lowercase => true | _ => false end && uppercase U next
          then (cur ++ [c]) :: run_words [] Boundary r
          else if match mode with Uppercase => true | _ => false end && uppercase U c
                  && lowercase U next
          then cur :: run_words [c] Boundary r
          else run_words (cur ++ [c]) next_mode r
      | [] => [cur ++ [c]]
      end
  end.

(** heck [transform], the outer loop; called from util.rs:86-87. *)
Definition words (s : str) : list str :=
  flat_map (run_words [] Boundary) (split_on (fun c => negb (alphanumeric U c)) s).

(** heck [lowercase]: a final capital sigma becomes a final small sigma; called from
    util.rs:86-87. *)
Fixpoint lowercase_word (w : str) : str :=
  match w with
  | [] => []
  | [c] => if N.eqb c 931 then [962%N] else to_lower U c
  | c :: r => to_lower U c ++ lowercase_word r
  end.

(** heck [capitalize]; called from util.rs:86. *)
Definition capitalize_word (w : str) : str :=
  match w with
  | [] => []
  | c :: r => to_upper U c ++ lowercase_word r
  end.

(** heck [transform]: what is written between words; called from util.rs:86-87. *)
Fixpoint join (sep : str) (l : list str) : str :=
  match l with
  | [] => []
  | [x] => x
  | x :: r => x ++ sep ++ join sep r
  end.

(** heck [ToSnakeCase for str]; called from util.rs:87. *)
Definition to_snake_case (s : str) : str := join (lit "_") (map lowercase_word (words s)).

(** heck [ToPascalCase for str]; called from util.rs:86. *)
Definition to_pascal_case (s : str) : str := concat (map capitalize_word (words s)).

(** util.rs:85-88. *)
Definition to_case (c : case) : str -> str :=
  match c with
  | Pascal => to_pascal_case
  | Snake => to_snake_case
  end.

(** syn 2.0.100 src/ident.rs [accept_as_ident]: the words it rejects; called from util.rs:107. *)
Definition syn_rejects : list str := [
  lit "_"; lit "abstract"; lit "as"; lit "async"; lit "await"; lit "become"; lit "box";
  lit "break"; lit "const"; lit "continue"; lit "crate"; lit "do"; lit "dyn"; lit "else";
  lit "enum"; lit "extern"; lit "false"; lit "final"; lit "fn"; lit "for"; lit "if"; lit "impl";
  lit "in"; lit "let"; lit "loop"; lit "macro"; lit "match"; lit "mod"; lit "move"; lit "mut";
  lit "override"; lit "priv"; lit "pub"; lit "ref"; lit "return"; lit "Self"; lit "self";
  lit "static"; lit "struct"; lit "super"; lit "trait"; lit "true"; lit "try"; lit "type";
  lit "typeof"; lit "unsafe"; lit "unsized"; lit "use"; lit "virtual"; lit "where"; lit "while";
  lit "yield"].

(** util.rs:107 [syn::parse_str::<syn::Ident>(s).is_ok()]: one identifier token that is not a
    reserved word.  Surrounding blanks and raw identifiers, which syn would also accept, cannot
    occur in the strings given to it here. *)
Definition parses_as_ident (s : str) : bool :=
  match s with
  | [] => false
  | c :: r =>
      (xid_start U c || N.eqb c (ch "_")) && forallb (xid_continue U) r
      && negb (mem s syn_rejects)
  end.

(** util.rs:93-97: the argument of [to_case]. *)
Definition cleaned (input : str) : str :=
  map (fun c => if xid_continue U c then c else ch "-")
      (filter (fun c => negb (N.eqb c (ch "'"))) input).

(** util.rs:83-112. *)
Definition sanitize (input : str) (c : case) : str :=
  let out :=
    if str_eqb input (lit "+1") then lit "plus1"
    else if str_eqb input (lit "-1") then lit "minus1"
    else to_case c (cleaned input) in
  let out :=
    match out with
    | [] => to_case c (lit "x")
    | h :: _ => if xid_start U h then out else lit "_" ++ out
    end in
  if parses_as_ident out then out else out ++ lit "_".

End Names.

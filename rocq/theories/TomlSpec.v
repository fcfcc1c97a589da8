(** Reading TOML (https://toml.io/en/v1.0.0): documents of tables with bare keys whose values are strings in
    double quotes, booleans, arrays and inline tables, each on one line.  Other documents are not read. *)
From Verif Require Import Base.
Local Open Scope N_scope.

Inductive tval :=
| TString (s : str)
| TBool (b : bool)
| TArray (l : list tval)
| TTable (l : list (str * tval)).

(** Control characters may not occur, except for the tab. *)
Definition control (c : char) : bool := ((c <? 32) && negb (c =? 9)) || (c =? 127).
Definition blank (c : char) : bool := (c =? 32) || (c =? 9).
Fixpoint skip (s : str) : str :=
  match s with
  | c :: r => if blank c then skip r else s
  | [] => []
  end.

(** The escapes of one letter. *)
Definition escape (c : char) : option char :=
  if c =? ch "b" then Some 8 else if c =? ch "t" then Some 9 else if c =? ch "n" then Some 10
  else if c =? ch "f" then Some 12 else if c =? ch "r" then Some 13
  else if c =? 34 then Some 34 else if c =? 92 then Some 92 else None.

(** The rest of a string after the opening quote: its value and what follows. *)
Fixpoint read_string (s : str) : option (str * str) :=
  match s with
  | [] => None
  | c :: r =>
      if c =? 34 then Some ([], r)
      else if c =? 92 then
        match r with
        | e :: r' =>
            match escape e, read_string r' with
            | Some x, Some (v, t) => Some (x :: v, t)
            | _, _ => None
            end
        | [] => None
        end
      else if control c then None
      else match read_string r with Some (v, t) => Some (c :: v, t) | None => None end
  end.

(** Bare keys. *)
Definition bare (c : char) : bool :=
  ((48 <=? c) && (c <=? 57)) || ((65 <=? c) && (c <=? 90)) || ((97 <=? c) && (c <=? 122)) || (c =? 95) || (c =? 45).
Fixpoint span_bare (s : str) : str * str :=
  match s with
  | c :: r => if bare c then let '(k, t) := span_bare r in (c :: k, t) else ([], s)
  | [] => ([], [])
  end.
Definition read_key (s : str) : option (str * str) :=
  match span_bare s with
  | ([], _) => None
  | (k, t) => Some (k, t)
  end.
(** The equals sign, with blanks around it. *)
Definition read_equals (s : str) : option str :=
  match skip s with
  | c :: r => if c =? ch "=" then Some (skip r) else None
  | [] => None
  end.

Section Values.
Variable value : str -> option (tval * str).
(** The elements of an array after the opening bracket. *)
Fixpoint read_items (n : nat) (s : str) : option (list tval * str) :=
  match n with
  | O => None
  | S n' =>
      match skip s with
      | c :: r =>
          if c =? ch "]" then Some ([], r)
          else
            match value (c :: r) with
            | Some (v, t) =>
                match skip t with
                | d :: t' =>
                    if d =? ch "]" then Some ([v], t')
                    else if d =? ch "," then
                      match read_items n' t' with Some (l, u) => Some (v :: l, u) | None => None end
                    else None
                | [] => None
                end
            | None => None
            end
      | [] => None
      end
  end.
(** The fields of an inline table; there may be none, but no comma at the end. *)
Fixpoint read_fields (n : nat) (s : str) : option (list (str * tval) * str) :=
  match n with
  | O => None
  | S n' =>
      match read_key (skip s) with
      | Some (k, t) =>
          match read_equals t with
          | Some t =>
              match value t with
              | Some (v, t) =>
                  match skip t with
                  | d :: t' =>
                      if d =? ch "}" then Some ([(k, v)], t')
                      else if d =? ch "," then
                        match read_fields n' t' with Some (l, u) => Some ((k, v) :: l, u) | None => None end
                      else None
                  | [] => None
                  end
              | None => None
              end
          | None => None
          end
      | None => None
      end
  end.
End Values.

(** All keys different. *)
Fixpoint distinct (l : list str) : bool :=
  match l with
  | [] => true
  | k :: r => negb (mem k r) && distinct r
  end.

(** The text without a prefix. *)
Fixpoint drop_prefix (p s : str) : option str :=
  match p, s with
  | [], _ => Some s
  | x :: p', y :: s' => if x =? y then drop_prefix p' s' else None
  | _ :: _, [] => None
  end.

Fixpoint read_value (n : nat) (s : str) : option (tval * str) :=
  match n with
  | O => None
  | S n' =>
      match s with
      | [] => None
      | c :: r =>
          if c =? 34 then
            match drop_prefix [34; 34] r with
            | Some _ => None        (* a string of several lines *)
            | None => match read_string r with Some (v, t) => Some (TString v, t) | None => None end
            end
          else if c =? ch "[" then
            match read_items (read_value n') (length r) r with Some (l, t) => Some (TArray l, t) | None => None end
          else if c =? ch "{" then
            match (match skip r with
                   | d :: t => if d =? ch "}" then Some ([], t) else read_fields (read_value n') (length r) r
                   | [] => None
                   end) with
            | Some (l, t) => if distinct (map fst l) then Some (TTable l, t) else None
            | None => None
            end
          else
            match drop_prefix (lit "true") s, drop_prefix (lit "false") s with
            | Some t, _ => Some (TBool true, t)
            | None, Some t => Some (TBool false, t)
            | None, None => None
            end
      end
  end.

Inductive line := LBlank | LTable (k : str) | LEntry (k : str) (v : tval).

Definition read_line (s : str) : option line :=
  match skip s with
  | [] => Some LBlank
  | c :: r =>
      if c =? ch "[" then
        match read_key (skip r) with
        | Some (k, t) =>
            match skip t with
            | d :: t' => if d =? ch "]" then match skip t' with [] => Some (LTable k) | _ => None end else None
            | [] => None
            end
        | None => None
        end
      else
        match read_key (c :: r) with
        | Some (k, t) =>
            match read_equals t with
            | Some t =>
                match read_value (length t) t with
                | Some (v, u) => match skip u with [] => Some (LEntry k v) | _ => None end
                | None => None
                end
            | None => None
            end
        | None => None
        end
  end.

(** The lines of a text. *)
Fixpoint split_lines (s : str) : list str :=
  match s with
  | [] => [[]]
  | c :: r =>
      if c =? 10 then [] :: split_lines r
      else match split_lines r with l :: ls => (c :: l) :: ls | [] => [[c]] end
  end.

Fixpoint read_lines (l : list str) : option (list line) :=
  match l with
  | [] => Some []
  | x :: r =>
      match read_line x, read_lines r with
      | Some y, Some ys => Some (y :: ys)
      | _, _ => None
      end
  end.

(** The tables named. *)
Fixpoint tables (l : list line) : list str :=
  match l with
  | LTable k :: r => k :: tables r
  | _ :: r => tables r
  | [] => []
  end.
(** The entries, each with the table it is in (the empty text for none). *)
Fixpoint entries (table : str) (l : list line) : list (str * str * tval) :=
  match l with
  | LTable k :: r => entries k r
  | LEntry k v :: r => (table, k, v) :: entries table r
  | LBlank :: r => entries table r
  | [] => []
  end.

(** No two entries of a table have the same key. *)
Fixpoint unambiguous (l : list (str * str * tval)) : bool :=
  match l with
  | [] => true
  | (t, k, _) :: r => negb (existsb (fun e => str_eqb (fst (fst e)) t && str_eqb (snd (fst e)) k) r) && unambiguous r
  end.

(** The keys outside of tables; tables are keys, too. *)
Definition top_keys (l : list (str * str * tval)) : list str :=
  flat_map (fun e => match fst (fst e) with [] => [snd (fst e)] | _ => [] end) l.

(** What a document says. *)
Definition toml (s : str) : option (list (str * str * tval)) :=
  match read_lines (split_lines s) with
  | Some l =>
      let es := entries [] l in
      if distinct (tables l ++ top_keys es) && unambiguous es then Some es else None
  | None => None
  end.

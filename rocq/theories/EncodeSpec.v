(** Specification side for percent-encoding and URL paths: the decoder of
    RFC 3986 section 2.1 and the path state of the WHATWG URL parser. *)
From Verif Require Import Base Utf8 TemplateSpec.
Local Open Scope N_scope.

Definition unhex (c : char) : option N :=
  if (48 <=? c) && (c <? 58) then Some (c - 48)
  else if (65 <=? c) && (c <? 71) then Some (c - 55)
  else if (97 <=? c) && (c <? 103) then Some (c - 87)
  else None.

(** Percent-decoding of an ASCII text into bytes; [None] for a malformed
    escape or a non-ASCII character. *)
Fixpoint percent_decode (s : str) : option (list N) :=
  match s with
  | [] => Some []
  | c :: r =>
      if c =? ch "%" then
        match r with
        | h :: l :: r' =>
            match unhex h, unhex l with
            | Some a, Some b => option_map (cons (16 * a + b)) (percent_decode r')
            | _, _ => None
            end
        | _ => None
        end
      else if c <? 128 then option_map (cons c) (percent_decode r) else None
  end.

(** What a server does with a path segment. *)
Definition decode_segment (s : str) : option str :=
  match percent_decode s with
  | Some bs => from_utf8 bs
  | None => None
  end.

(** Characters that must not appear raw in an encoded path argument. *)
Definition delimiter (c : char) : bool :=
  (c <? 33) || (126 <? c) ||
  existsb (N.eqb c) [ch """"; ch "#"; ch "<"; ch ">"; ch "?"; ch "`"; ch "{"; ch "}"; ch "/"].

(** ** The path state of the WHATWG URL parser for http(s) URLs
    (https://url.spec.whatwg.org/#path-state), on input that has no tab or
    newline.  [None] once the path ends with '?' or '#' is not needed: such
    input is cut there. *)
Definition is_single_dot (b : str) : bool :=
  existsb (str_eqb b) [lit "."; lit "%2e"; lit "%2E"].
Definition is_double_dot (b : str) : bool :=
  existsb (str_eqb b)
    [lit ".."; lit ".%2e"; lit ".%2E"; lit "%2e."; lit "%2E.";
     lit "%2e%2e"; lit "%2E%2e"; lit "%2e%2E"; lit "%2E%2E"].

(** Finishing a segment: [slash] says whether it ended at '/' or a
    backslash (as opposed to the end of the path). *)
Definition push_segment (path : list str) (buf : str) (slash : bool) : list str :=
  if is_double_dot buf then
    let path' := removelast path in
    if slash then path' else path' ++ [[]]
  else if is_single_dot buf then
    if slash then path else path ++ [[]]
  else path ++ [buf].

Definition ends_path (c : char) : bool := (c =? ch "?") || (c =? ch "#").
Definition separator (c : char) : bool := (c =? ch "/") || (c =? ch "\").

(** [s] is the input after the '/' that starts the path. *)
Fixpoint path_state (s : str) (path : list str) (buf : str) : list str :=
  match s with
  | [] => push_segment path buf false
  | c :: r =>
      if ends_path c then push_segment path buf false
      else if separator c then path_state r (push_segment path buf true) []
      else path_state r path (buf ++ [c])
  end.

(** The segments of a path text (which starts with '/' or a backslash). *)
Definition url_segments (s : str) : list str :=
  match s with
  | c :: r => if separator c then path_state r [] [] else path_state s [] []
  | [] => path_state [] [] []
  end.

(** ** Templates as lists of segments *)

(** Splitting pieces at literal slashes. *)
Fixpoint split_slash (ps : list piece) : list (list piece) :=
  match ps with
  | [] => [[]]
  | p :: r =>
      match p with
      | PLit c =>
          if c =? ch "/" then [] :: split_slash r
          else match split_slash r with
               | s :: ss => (p :: s) :: ss
               | [] => [[p]]
               end
      | PVar _ =>
          match split_slash r with
          | s :: ss => (p :: s) :: ss
          | [] => [[p]]
          end
      end
  end.

(** Literal characters a template may use without being reinterpreted by the
    URL parser. *)
Definition plain_literal (c : char) : bool :=
  negb (delimiter c && negb (c =? ch "/")) && negb (c =? ch "%") && negb (c =? ch "\").
Definition plain_literals (ps : list piece) : Prop :=
  forall c, In (PLit c) ps -> plain_literal c = true.

(** Model of progenitor-impl/src/template.rs. *)
From Verif Require Import Base.

(** template.rs:10-14, [enum Component]. *)
Inductive component :=
| CConst (s : str)
| CParam (s : str).

(** template.rs:16-19, [struct PathTemplate]. *)
Definition path_template := list component.

(** template.rs:90-95, [enum State] local to [parse]. *)
Inductive state := SStart | SConstantOrParameter | SParameter | SConstant.

(** template.rs:97-99, the three mutable locals [s], [a], [components]. *)
Record locals := Locals { l_s : state; l_a : str; l_components : list component }.

(** template.rs:97-99, their initial values. *)
Definition init_locals := Locals SStart [] [].

(** template.rs:101-149, one iteration of the loop over [t.chars()].  The
    message at 136-139 uses [{:?}]; the model keeps the name unescaped. *)
Definition step (st : locals) (c : char) : outcome locals :=
  let '(Locals s a comps) := st in
  match s with
  | SStart =>
      if N.eqb c (ch "/") then Ok (Locals SConstant [c] comps)
      else Err (InvalidPath (lit "path must start with a slash"))
  | SConstantOrParameter =>
      if N.eqb c (ch "{") then Ok (Locals SParameter [] comps)
      else Ok (Locals SConstant [c] comps)
  | SConstant =>
      if N.eqb c (ch "{") then Ok (Locals SParameter [] (comps ++ [CConst a]))
      else if N.eqb c (ch "}") then Err (InvalidPath (lit "unexpected }"))
      else if negb (N.eqb c (ch "/")) || negb (ends_with_char (ch "/") a)
      then Ok (Locals SConstant (a ++ [c]) comps)
      else Ok (Locals SConstant a comps)
  | SParameter =>
      if N.eqb c (ch "}") then
        if has_char (ch "/") a || has_char (ch "{") a
        then Err (InvalidPath (lit "invalid parameter name " ++ a))
        else Ok (Locals SConstantOrParameter [] (comps ++ [CParam a]))
      else Ok (Locals SParameter (a ++ [c]) comps)
  end.

(** template.rs:101, the loop. *)
Fixpoint steps (st : locals) (cs : str) : outcome locals :=
  match cs with
  | [] => Ok st
  | c :: cs' => do st' <- step st c; steps st' cs'
  end.

(** template.rs:151-158. *)
Definition finish (st : locals) : outcome path_template :=
  let '(Locals s a comps) := st in
  match s with
  | SStart => Err (InvalidPath (lit "empty path"))
  | SConstantOrParameter => Ok comps
  | SConstant => Ok (comps ++ [CConst a])
  | SParameter => Err (InvalidPath (lit "unterminated parameter"))
  end.

(** template.rs:89-159, [parse]. *)
Definition parse (t : str) : outcome path_template :=
  do st <- steps init_locals t; finish st.

(** template.rs:53-61, [PathTemplate::names]. *)
Definition names (p : path_template) : list str :=
  flat_map (fun c => match c with CParam n => [n] | CConst _ => [] end) p.

(** template.rs:161-171, [to_string]. *)
Definition to_string (p : path_template) : str :=
  fold_left (fun a b => a ++ b)
    (map (fun c => match c with
                   | CConst s => s
                   | CParam s => lit "{" ++ s ++ lit "}"
                   end) p) [].

(** template.rs:24-30, the format string built by [compile]. *)
Definition compile_fmt (p : path_template) : str :=
  fold_left (fun f c => f ++ match c with
                             | CConst n => n
                             | CParam _ => lit "{}"
                             end) p (lit "{}").

(** template.rs:32-46, the arguments after [baseurl]: the identifiers whose
    [to_string()] goes through [encode_path].  A missing entry of [rename] is
    the [expect] panic of line 38. *)
Fixpoint compile_args (p : path_template) (rename : list (str * str)) : outcome (list str) :=
  match p with
  | [] => Ok []
  | CConst _ :: p' => compile_args p' rename
  | CParam n :: p' =>
      match assoc_last n rename with
      | Some param => do r <- compile_args p' rename; Ok (param :: r)
      | None => Panic (lit "missing path name mapping " ++ n)
      end
  end.

(** template.rs:22-51, [compile]: the emitted expression
    [format!(fmt, client.baseurl, encode_path(&arg.to_string()), ..)]. *)
Record url_expr := UrlExpr { ue_fmt : str; ue_args : list str }.
(** template.rs:22-51, [compile]. *)
Definition compile (p : path_template) (rename : list (str * str)) : outcome url_expr :=
  do args <- compile_args p rename; Ok (UrlExpr (compile_fmt p) args).

(** template.rs:63-73, [as_wildcard]. *)
Definition as_wildcard (p : path_template) : str :=
  lit "^" ++ flat_map (fun c => match c with
                                | CConst n => n
                                | CParam _ => lit "[^/]*"
                                end) p ++ lit "$".

(** template.rs:75-86, [as_wildcard_param]. *)
Definition as_wildcard_param (p : path_template) (param : str) : str :=
  lit "^" ++ flat_map (fun c => match c with
                                | CConst n => n
                                | CParam q =>
                                    if str_eqb q param then lit "{}" else lit ".*"
                                end) p ++ lit "$".

(** The meaning of Rust's [format!] for the format strings that occur here
    (std::fmt): [{}] consumes the next argument, [{{] and [}}] are literal
    braces, any other use of a brace, a missing argument or an unused argument
    does not compile ([None]) (the [format!] generated in template.rs:32-50). *)
Fixpoint format_macro (f : str) (args : list str) : option str :=
  match f with
  | [] => match args with [] => Some [] | _ => None end
  | c :: f' =>
      if N.eqb c (ch "{") then
        match f' with
        | c2 :: f'' =>
            if N.eqb c2 (ch "{") then option_map (cons (ch "{")) (format_macro f'' args)
            else if N.eqb c2 (ch "}") then
              match args with
              | a :: args' => option_map (app a) (format_macro f'' args')
              | [] => None
              end
            else None
        | [] => None
        end
      else if N.eqb c (ch "}") then
        match f' with
        | c2 :: f'' =>
            if N.eqb c2 (ch "}") then option_map (cons (ch "}")) (format_macro f'' args)
            else None
        | [] => None
        end
      else option_map (cons c) (format_macro f' args)
  end.

(** Evaluation of the expression emitted by [compile] (template.rs:48-50):
    [enc] is [encode_path], [env] gives the [to_string()] text of an argument
    variable. *)
Definition eval_url (enc : str -> str) (base : str) (env : str -> str) (u : url_expr)
  : option str :=
  format_macro (ue_fmt u) (base :: map (fun x => enc (env x)) (ue_args u)).

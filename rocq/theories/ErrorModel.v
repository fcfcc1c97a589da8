(** The texts of the generator's errors, progenitor-impl/src/lib.rs:30-45. *)
From Verif Require Import Base.

(** progenitor-impl/src/lib.rs:30-45, the derived [Display].  The two parts of a
    [BadValue] (lib.rs:33-34) are one text here, and the text of typify's error
    (lib.rs:35-36) is given. *)
Definition error_text (e : error) : str :=
  match e with
  | BadValue s => lit "unexpected value type " ++ s
  | TypeError s => lit "type error " ++ s
  | UnexpectedFormat s => lit "unexpected or unhandled format in the OpenAPI document " ++ s
  | InvalidPath s => lit "invalid operation path " ++ s
  | InvalidExtension s => lit "invalid dropshot extension use: " ++ s
  | InternalError s => lit "internal error " ++ s
  end.

(** Model of [encode_path], progenitor-client/src/progenitor_client.rs:408-426. *)
From Verif Require Import Base Utf8.
Local Open Scope N_scope.

(** percent_encoding::CONTROLS (0x00-0x1F and 0x7F), used at
    progenitor_client.rs:409. *)
Definition controls (b : N) : bool := (b <? 32) || (b =? 127).

(** progenitor_client.rs:409-420, [PATH_SET]. *)
Definition path_set (b : N) : bool :=
  controls b ||
  existsb (N.eqb b) [ch " "; ch """"; ch "#"; ch "<"; ch ">"; ch "?"; ch "`";
                     ch "{"; ch "}"; ch "/"; ch "%"].

(** percent_encoding::AsciiSet::should_percent_encode: non-ASCII bytes are
    always encoded (called from progenitor_client.rs:425). *)
Definition should_percent_encode (set : N -> bool) (b : N) : bool :=
  negb (b <? 128) || set b.

(** An upper-case hexadecimal digit (called from progenitor_client.rs:425). *)
Definition hex (n : N) : char := if n <? 10 then 48 + n else 55 + n.

(** percent_encoding::percent_encode_byte (called from progenitor_client.rs:425). *)
Definition percent_encode_byte (b : N) : str := [ch "%"; hex (b / 16); hex (b mod 16)].

(** percent_encoding::percent_encode collected into a [String] (called from progenitor_client.rs:425). *)
Definition percent_encode (set : N -> bool) (bs : list N) : str :=
  flat_map (fun b => if should_percent_encode set b then percent_encode_byte b else [b]) bs.

(** progenitor_client.rs:424-426, [encode_path]. *)
Definition encode_path (pc : str) : str := percent_encode path_set (utf8 pc).

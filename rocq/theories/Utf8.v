(** UTF-8, as used by Rust strings (The Unicode Standard, table 3-7).  Not
    part of progenitor; needed to give meaning to percent-encoding
    (progenitor-client/src/progenitor_client.rs:424-426). *)
From Verif Require Import Base.
Local Open Scope N_scope.

(** A Unicode scalar value (the characters of all texts, e.g. progenitor_client.rs:424). *)
Definition scalar (c : N) : bool := (c <? 55296) || ((57343 <? c) && (c <? 1114112)).
(** The texts themselves, e.g. progenitor_client.rs:424. *)
Definition valid_str (s : str) : Prop := Forall (fun c => scalar c = true) s.

(** Encoding of one scalar value ([char::encode_utf8], behind progenitor_client.rs:425). *)
Definition utf8_char (c : N) : list N :=
  if c <? 128 then [c]
  else if c <? 2048 then [192 + c / 64; 128 + c mod 64]
  else if c <? 65536 then [224 + c / 4096; 128 + (c / 64) mod 64; 128 + c mod 64]
  else [240 + c / 262144; 128 + (c / 4096) mod 64; 128 + (c / 64) mod 64; 128 + c mod 64].
(** [str::as_bytes] (progenitor_client.rs:425). *)
Definition utf8 (s : str) : list N := flat_map utf8_char s.

(** Continuation bytes of UTF-8 (progenitor_client.rs:425). *)
Definition cont (b : N) : bool := (128 <=? b) && (b <? 192).

(** Strict decoding ([str::from_utf8], behind percent decoding, the inverse of progenitor_client.rs:425). *)
Fixpoint from_utf8 (bs : list N) : option str :=
  match bs with
  | [] => Some []
  | b0 :: r =>
      if b0 <? 128 then option_map (cons b0) (from_utf8 r)
      else if (192 <=? b0) && (b0 <? 224) then
        match r with
        | b1 :: r' =>
            let c := (b0 - 192) * 64 + (b1 - 128) in
            if cont b1 && (128 <=? c) then option_map (cons c) (from_utf8 r') else None
        | _ => None
        end
      else if (224 <=? b0) && (b0 <? 240) then
        match r with
        | b1 :: b2 :: r' =>
            let c := (b0 - 224) * 4096 + (b1 - 128) * 64 + (b2 - 128) in
            if cont b1 && cont b2 && (2048 <=? c) && scalar c
            then option_map (cons c) (from_utf8 r') else None
        | _ => None
        end
      else if (240 <=? b0) && (b0 <? 248) then
        match r with
        | b1 :: b2 :: b3 :: r' =>
            let c := (b0 - 240) * 262144 + (b1 - 128) * 4096 + (b2 - 128) * 64 + (b3 - 128) in
            if cont b1 && cont b2 && cont b3 && (65536 <=? c) && scalar c
            then option_map (cons c) (from_utf8 r') else None
        | _ => None
        end
      else None
  end.

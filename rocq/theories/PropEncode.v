(** Properties C05-C07: percent-encoding of path arguments. *)
From Verif Require Import Base Utf8 TemplateSpec EncodeModel EncodeSpec EncodeProofs.

(** C05: decoding gives back the argument. *)
Theorem C05_encode_path_decode : forall s,
  valid_str s -> decode_segment (encode_path s) = Some s.
Proof. exact encode_path_decode. Qed.
Print Assumptions C05_encode_path_decode.

Theorem C05_encode_path_injective : forall s t,
  valid_str s -> valid_str t -> encode_path s = encode_path t -> s = t.
Proof. exact encode_path_inj. Qed.
Print Assumptions C05_encode_path_injective.

Example C05_ex :
  (* e-acute, euro sign, an emoji, a slash and a percent sign *)
  valid_str [233; 8364; 128512; 47; 37]%N /\
  encode_path [233; 8364; 128512; 47; 37]%N = lit "%C3%A9%E2%82%AC%F0%9F%98%80%2F%25".
Proof. split; [repeat constructor|reflexivity]. Qed.

(** C06: no delimiter in the encoded text; what needs no escape is kept. *)
Theorem C06_encode_path_safe : forall s c,
  valid_str s -> In c (encode_path s) -> delimiter c = false.
Proof. exact encode_path_safe. Qed.
Print Assumptions C06_encode_path_safe.

(** Every '%' starts an escape of two hexadecimal digits: the text decodes. *)
Theorem C06_escapes_well_formed : forall s,
  valid_str s -> percent_decode (encode_path s) = Some (utf8 s).
Proof. exact encode_path_escapes. Qed.
Print Assumptions C06_escapes_well_formed.

Theorem C06_unreserved_unchanged : forall s,
  Forall (fun c => delimiter c = false /\ c <> ch "%") s -> encode_path s = s.
Proof. exact encode_path_id. Qed.
Print Assumptions C06_unreserved_unchanged.

Example C06_ex :
  encode_path (lit "a b/c?d#e%f") = lit "a%20b%2Fc%3Fd%23e%25f" /\
  encode_path (lit "A-z_0.9~!$&'()*+,;=:@[]\^|") = lit "A-z_0.9~!$&'()*+,;=:@[]\^|".
Proof. split; reflexivity. Qed.

(** C07, what holds: below a base path made of ordinary segments, if no
    argument contains a backslash and no segment expands to "." or "..", the
    URL parser finds exactly the segments of the template, and each decodes to
    its expansion with the raw arguments. *)
Theorem C07_url_structure_partial : forall bsegs ps val,
  Forall (Forall (fun c => ends_path c = false /\ separator c = false)) bsegs ->
  Forall (fun s => is_single_dot s = false /\ is_double_dot s = false) bsegs ->
  plain_literals ps ->
  (forall n, In n (vars ps) -> valid_str (val n) /\ ~ In (ch "\") (val n)) ->
  (forall seg, In seg (split_slash ps) -> expand val seg <> lit "." /\ expand val seg <> lit "..") ->
  let enc := fun n => encode_path (val n) in
  url_segments (flat_map (fun s => ch "/" :: s) bsegs ++ expand enc (PLit (ch "/") :: ps))
    = bsegs ++ map (expand enc) (split_slash ps) /\
  map decode_segment (map (expand enc) (split_slash ps)) = map Some (map (expand val) (split_slash ps)).
Proof. exact url_structure. Qed.
Print Assumptions C07_url_structure_partial.

Example C07_url_structure_partial_ex :
  url_segments (lit "/api" ++ expand (fun n => encode_path (lit "x/../y")) [PLit (ch "/"); PLit (ch "v"); PLit (ch "/"); PVar (lit "id")])
  = [lit "api"; lit "v"; lit "x%2F..%2Fy"].
Proof. reflexivity. Qed.

(** The conditions are exact: otherwise the URL parser finds other segments. *)
Theorem C07_url_structure_iff : forall bsegs ps val,
  Forall (Forall (fun c => ends_path c = false /\ separator c = false)) bsegs ->
  Forall (fun s => is_single_dot s = false /\ is_double_dot s = false) bsegs ->
  plain_literals ps ->
  (forall n, In n (vars ps) -> valid_str (val n)) ->
  let enc := fun n => encode_path (val n) in
  (url_segments (flat_map (fun s => ch "/" :: s) bsegs ++ expand enc (PLit (ch "/") :: ps))
     = bsegs ++ map (expand enc) (split_slash ps) <->
   (forall n, In n (vars ps) -> ~ In (ch "\") (val n)) /\
   (forall seg, In seg (split_slash ps) -> expand val seg <> lit "." /\ expand val seg <> lit "..")).
Proof. exact url_structure_iff. Qed.
Print Assumptions C07_url_structure_iff.

(** What the segments sent decode to does not depend on them. *)
Theorem C07_segments_decode : forall ps val,
  plain_literals ps -> (forall n, In n (vars ps) -> valid_str (val n)) ->
  map decode_segment (map (expand (fun n => encode_path (val n))) (split_slash ps)) = map Some (map (expand val) (split_slash ps)).
Proof. exact segments_decode. Qed.
Print Assumptions C07_segments_decode.

Example C07_segments_decode_ex :
  let ps := [PLit (ch "v"); PLit (ch "/"); PVar (lit "id")] in
  map decode_segment (map (expand (fun n => encode_path (lit "..\/ "))) (split_slash ps)) = [Some (lit "v"); Some (lit "..\/ ")].
Proof. vm_compute. reflexivity. Qed.

(** C07, the full claim is false: a ".." argument removes segments, a
    backslash splits its segment. *)
Theorem C07_dot_segment_refuted :
  exists ps val, plain_literals ps /\
    (forall n, In n (vars ps) -> valid_str (val n)) /\
    url_segments (expand (fun n => encode_path (val n)) (PLit (ch "/") :: ps)) = [lit "admin"] /\
    length (split_slash ps) = 3.
Proof. exact url_structure_refuted_dots. Qed.
Print Assumptions C07_dot_segment_refuted.

Theorem C07_backslash_refuted :
  exists ps val, plain_literals ps /\
    (forall n, In n (vars ps) -> valid_str (val n)) /\
    url_segments (expand (fun n => encode_path (val n)) (PLit (ch "/") :: ps)) = [lit "u"; lit "a"; lit "b"] /\
    length (split_slash ps) = 2.
Proof. exact url_structure_refuted_backslash. Qed.
Print Assumptions C07_backslash_refuted.

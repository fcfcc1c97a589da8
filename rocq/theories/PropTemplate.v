(** Properties C01-C04: path templates and request URLs. *)
From Verif Require Import Base TemplateModel TemplateSpec TemplateProofs.

(** C01, what holds: a path is accepted iff it is '/' followed by literals and
    placeholders, where a literal '}' is tolerated directly after a
    placeholder (missing from the full claim: that stray brace is rejected). *)
Theorem C01_parse_accepts_iff_partial : forall t : str,
  (exists p, parse t = Ok p) <-> (exists ps, t = show ps /\ lax ps).
Proof. exact parse_accepts_iff. Qed.
Print Assumptions C01_parse_accepts_iff_partial.

Example C01_parse_accepts_iff_partial_ex :
  lax [PLit (ch "/"); PLit (ch "v"); PLit (ch "/"); PVar (lit "id"); PLit (ch "}")] /\
  parse (lit "/v/{id}}") = Ok [CConst (lit "/v/"); CParam (lit "id"); CConst (lit "}")].
Proof.
  split; [|reflexivity].
  repeat (split; [first [now eexists | discriminate | easy
    | (repeat split; vm_compute; intuition discriminate)]|]); try exact I.
  all: vm_compute; intuition discriminate.
Qed.

(** Every path of the documented grammar is accepted. *)
Theorem C01_strict_accepted : forall ps : list piece,
  strict ps -> exists p, parse (show ps) = Ok p.
Proof. exact strict_accepted. Qed.
Print Assumptions C01_strict_accepted.

Example C01_strict_accepted_ex :
  strict [PLit (ch "/"); PVar (lit "a"); PLit (ch "-"); PVar (lit "b")] /\
  show [PLit (ch "/"); PVar (lit "a"); PLit (ch "-"); PVar (lit "b")] = lit "/{a}-{b}".
Proof.
  split; [|reflexivity]. split; [now eexists|].
  repeat constructor; vm_compute; intuition discriminate.
Qed.

(** Rejection is always an [InvalidPath] error: no panic, no other error. *)
Theorem C01_rejects_without_panic : forall t : str,
  (exists p, parse t = Ok p) \/ (exists m, parse t = Err (InvalidPath m)).
Proof. exact parse_rejects. Qed.
Print Assumptions C01_rejects_without_panic.

Example C01_rejects_without_panic_ex :
  parse (lit "/a}b") = Err (InvalidPath (lit "unexpected }")) /\
  parse (lit "/{a") = Err (InvalidPath (lit "unterminated parameter")) /\
  parse (lit "") = Err (InvalidPath (lit "empty path")).
Proof. repeat split; reflexivity. Qed.

(** C01, the full claim is false of the code: a path outside the documented
    grammar is accepted. *)
Theorem C01_only_strict_refuted :
  exists t p, parse t = Ok p /\ forall ps, strict ps -> t <> show ps.
Proof. exact only_strict_refuted. Qed.
Print Assumptions C01_only_strict_refuted.

(** C02, what holds: for a path of the documented grammar whose placeholders
    are declared, the emitted expression compiles and evaluates. *)
Theorem C02_url_expression_compiles_partial : forall ps p rename,
  strict ps -> parse (show ps) = Ok p ->
  (forall n, In n (vars ps) -> In n (map fst rename)) ->
  exists u, compile p rename = Ok u /\
  forall enc base env, exists url, eval_url enc base env u = Some url.
Proof. exact compile_compiles. Qed.
Print Assumptions C02_url_expression_compiles_partial.

Example C02_url_expression_compiles_partial_ex :
  strict [PLit (ch "/"); PVar (lit "a"); PLit (ch "-"); PVar (lit "b")] /\
  compile [CConst (lit "/"); CParam (lit "a"); CConst (lit "-"); CParam (lit "b")]
    [(lit "a", lit "a_"); (lit "b", lit "b_")]
  = Ok (UrlExpr (lit "{}/{}-{}") [lit "a_"; lit "b_"]).
Proof.
  split; [|reflexivity]. split; [now eexists|].
  repeat constructor; vm_compute; intuition discriminate.
Qed.

(** Generation panics exactly when a placeholder is not declared. *)
Theorem C02_panics_iff_undeclared : forall ps p rename,
  lax ps -> parse (show ps) = Ok p ->
  ((exists m, compile p rename = Panic m) <->
   exists n, In n (vars ps) /\ ~ In n (map fst rename)).
Proof. exact compile_panics_iff. Qed.
Print Assumptions C02_panics_iff_undeclared.

Example C02_panics_iff_undeclared_ex :
  compile [CConst (lit "/"); CParam (lit "a")] [(lit "b", lit "b")]
  = Panic (lit "missing path name mapping a").
Proof. reflexivity. Qed.

(** Every accepted path outside the documented grammar gives an expression
    that does not compile, although generation succeeds. *)
Theorem C02_stray_brace_never_compiles : forall ps p rename u,
  lax ps -> ~ no_stray ps -> parse (show ps) = Ok p -> compile p rename = Ok u ->
  forall enc base env, eval_url enc base env u = None.
Proof. exact stray_never_compiles. Qed.
Print Assumptions C02_stray_brace_never_compiles.

(** C02, the full claim is false of the code. *)
Theorem C02_accepted_compiles_refuted :
  exists t p rename u, parse t = Ok p /\ compile p rename = Ok u /\
    (forall n, In n (names p) -> In n (map fst rename)) /\
    forall enc base env, eval_url enc base env u = None.
Proof. exact accepted_compiles_refuted. Qed.
Print Assumptions C02_accepted_compiles_refuted.

(** C03: printing an accepted template collapses runs of '/', reparsing the
    printed text gives the same template. *)
Theorem C03_to_string_squeezes : forall t p, parse t = Ok p -> to_string p = squeeze t.
Proof. exact parse_to_string. Qed.
Print Assumptions C03_to_string_squeezes.

Theorem C03_reparse : forall t p, parse t = Ok p -> parse (to_string p) = Ok p.
Proof. exact parse_reparse. Qed.
Print Assumptions C03_reparse.

(** The names are the placeholders in order of occurrence. *)
Theorem C03_names_in_order : forall ps p,
  lax ps -> parse (show ps) = Ok p -> names p = vars ps.
Proof. exact parse_names. Qed.
Print Assumptions C03_names_in_order.

(** An accepted text has only one reading. *)
Theorem C03_unique_reading : forall ps qs, lax ps -> lax qs -> show ps = show qs -> ps = qs.
Proof. exact show_inj. Qed.
Print Assumptions C03_unique_reading.

Example C03_ex :
  parse (lit "//foo///{b}//{a}/") =
    Ok [CConst (lit "/foo/"); CParam (lit "b"); CConst (lit "/"); CParam (lit "a"); CConst (lit "/")] /\
  squeeze (lit "//foo///{b}//{a}/") = lit "/foo/{b}/{a}/" /\
  names [CConst (lit "/foo/"); CParam (lit "b"); CConst (lit "/"); CParam (lit "a"); CConst (lit "/")]
    = [lit "b"; lit "a"].
Proof. repeat split; reflexivity. Qed.

(** C04: the URL is the base URL followed by the expanded template. *)
Theorem C04_url_is_expansion : forall ps p rename u enc base env,
  strict ps -> parse (show ps) = Ok p -> compile p rename = Ok u ->
  eval_url enc base env u =
  Some (base ++ expand (fun n => match assoc_last n rename with
                                 | Some x => enc (env x)
                                 | None => []
                                 end) (squeeze_pieces false ps)).
Proof. exact compile_eval. Qed.
Print Assumptions C04_url_is_expansion.

Example C04_url_is_expansion_ex :
  exists p u, parse (lit "/p//{a}/{b}") = Ok p /\
    compile p [(lit "a", lit "va"); (lit "b", lit "vb")] = Ok u /\
    eval_url (fun s => s) (lit "http://h") (fun x => x) u = Some (lit "http://h/p/va/vb").
Proof. do 2 eexists. repeat split. Qed.

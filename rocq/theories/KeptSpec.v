(** When the URL parser takes the URL of a call as it is (C07). *)
From Verif Require Import Base Utf8 TemplateSpec EncodeSpec MethodModel OpModel RunModel RequestSpec MockSpec.
Local Open Scope N_scope.

(** Characters that the URL parser neither encodes nor treats as the end of the path
    (the path percent-encode set, https://url.spec.whatwg.org/#path-percent-encode-set). *)
Definition path_char (c : char) : Prop := delimiter c = false \/ c = ch "/".

(** [c_parse_url] does what the path state of the specification says with the paths at [origin]
    (EncodeSpec.v, https://url.spec.whatwg.org/#path-state): url 2.5.4 for a normalised scheme, host and port;
    called by [reqwest::Client::get] and the like with the text of /repo/progenitor-impl/src/template.rs:21-49. *)
Definition parses_paths (ctx : context) (origin : str) : Prop :=
  forall s, Forall path_char s -> exists hs,
    c_parse_url ctx (origin ++ ch "/" :: s) = ROk (origin ++ flat_map (fun x => ch "/" :: x) (url_segments (ch "/" :: s)), None, hs).

(** The base URL of the client is [origin] and the segments [bsegs], which mean themselves
    (the [baseurl] of /repo/progenitor-impl/src/lib.rs:430,471). *)
Definition base_at (ctx : context) (origin : str) (bsegs : list str) : Prop :=
  c_base_url ctx = origin ++ flat_map (fun x => ch "/" :: x) bsegs
  /\ Forall (Forall (fun c => delimiter c = false /\ c <> ch "\")) bsegs
  /\ Forall (fun s => is_single_dot s = false /\ is_double_dot s = false) bsegs.

(** The value of each placeholder: the text of its argument. *)
Definition path_texts (args : arguments) (val : str -> str) : Prop :=
  forall p v, In (p, Some v) args -> p_kind p = KPath -> val (p_api_name p) = v_text v.

(** No argument has a backslash, and no segment becomes "." or "..". *)
Definition harmless (ps : list piece) (args : arguments) : Prop :=
  (forall p v, In (p, Some v) args -> p_kind p = KPath -> In (p_api_name p) (vars ps) -> ~ In (ch "\") (v_text v))
  /\ forall val, path_texts args val -> forall seg, In seg (split_slash (squeeze_pieces false ps)) ->
       expand val seg <> lit "." /\ expand val seg <> lit "..".

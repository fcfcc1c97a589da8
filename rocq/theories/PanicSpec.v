(** When a call of a method panics. *)
From Verif Require Import Base Utf8 OasModel ClientModel TemplateModel TemplateSpec SanitizeModel MethodModel OpModel RunModel GenerateModel RequestSpec DocSpec GenerateSpec EndSpec.
Local Open Scope N_scope.

(** Text that can stand in the code as the value of a header: printable ASCII and tabs. *)
Definition printable (s : str) : Prop := Forall (fun c => c = 9 \/ (32 <= c /\ c < 127)) s.

(** Names of headers: tokens (RFC 9110, 5.6.2), not too long. *)
Definition token_char (c : N) : Prop :=
  (ch "A" <= c /\ c <= ch "Z") \/ (ch "a" <= c /\ c <= ch "z") \/ (ch "0" <= c /\ c <= ch "9") \/ In c (lit "!#$%&'*+-.^_`|~").
Definition token (s : str) : Prop := s <> [] /\ N.of_nat (length s) < 65536 /\ Forall token_char s.

(** Values of headers: no control characters but tabs. *)
Definition header_text (s : str) : Prop := Forall (fun b => b = 9 \/ (32 <= b /\ b <> 127)) (utf8 s).

(** The version of the document cannot be sent; or the first header that cannot be sent has a value that could, but not a name. *)
Inductive panics (version : str) (args : arguments) : str -> Prop :=
| pn_version : ~ printable version -> panics version args (lit "invalid header value")
| pn_name pre n t post : printable version -> present_headers args = pre ++ (n, t) :: post ->
    Forall (fun ht => token (fst ht) /\ header_text (snd ht)) pre -> header_text t -> ~ token n ->
    panics version args (lit "static str is invalid name").

(** ** Calls on a client *)

Section Call.
Variables (U : unicode) (ts : type_space) (d : openapi) (h : hooks) (e : doc_op).

(** A call panics before anything is done, or it does what the document says. *)
Inductive decided_call {V W} (m : op_method) (ps : list piece) (sb : sig_body) (ctx : context)
    (fs : type_id -> list N -> result V jerr) (ops : world_ops W) (args : arguments) (w : W) : final V * list event * W -> Prop :=
| dd_panics msg : panics (oa_version d) args msg -> decided_call m ps sb ctx fs ops args w (Panicked msg, [], w)
| dd_call r : (forall msg, ~ panics (oa_version d) args msg) -> documented_call U ts d h e m ps sb ctx fs ops args w r ->
    decided_call m ps sb ctx fs ops args w r.
End Call.

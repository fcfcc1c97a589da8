(** What the methods of a whole client do. *)
From Verif Require Import Base OasModel ClientModel TemplateModel TemplateSpec SanitizeModel MethodModel OpModel RunModel GenerateModel
  ResponseSpec RequestSpec DocSpec GenerateSpec.
Local Open Scope N_scope.

Section Operation.
Variables (U : unicode) (ts : type_space) (d : openapi) (h : hooks) (e : doc_op).

(** The method of the operation, its code, and the pieces of its path. *)
Record code_of (m : op_method) (ps : list piece) (sb : sig_body) : Prop := CodeOf {
  co_path : do_path e = show ps;
  co_generated : generated (snake U) (pascal U) ts (oa_components d) (do_op e) ps (http_method_str (do_method e)) (do_params e) h m sb }.

(** The outcome of a call: either the arguments cannot be sent, and nothing happens; or the request that the document
    asks for goes through the hooks to the server, and the answer is taken for what the document says about it. *)
Inductive documented_call {V W} (m : op_method) (ps : list piece) (sb : sig_body) (ctx : context)
    (fs : type_id -> list N -> result V jerr) (ops : world_ops W) (args : arguments) (w : W) : final V * list event * W -> Prop :=
| dl_refused err : refused ctx ps args err -> documented_call m ps sb ctx fs ops args w (Returned (RErr err), [], w)
| dl_call t q out tr w' : encodable args -> is_request ctx m (sb_success sb) (sb_error sb) ps args q ->
    response_table (pascal U) ts (oa_components d) (do_op e) (m_websocket m) t ->
    call h ops (interpreted fs (m_websocket m) t) q w out tr w' ->
    documented_call m ps sb ctx fs ops args w (Returned out, tr, w').
End Operation.

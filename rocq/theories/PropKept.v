(** When the URL parser takes the URL of a call as it is (C07). *)
From Verif Require Import Base Utf8 SerdeModel OasModel TemplateSpec EncodeModel EncodeSpec MethodModel OpModel RunModel RequestSpec
  DocSpec MockSpec KeptSpec KeptProofs ExampleData ExampleKept.
Local Open Scope N_scope.

(** The request of a call goes to the base URL and the template with the arguments encoded exactly if no argument has a
    backslash and no segment becomes "." or "..". *)
Theorem C07_sent_iff : forall V W (e : episode V W), happens e ->
  (forall p v, In (p, Some v) (e_args e) -> p_kind p = KPath -> valid_str (v_text v)) -> plain_literals (e_path e) ->
  forall origin bsegs, parses_paths (e_client e) origin -> base_at (e_client e) origin bsegs ->
  forall q val, first_request (e_trace e) q -> path_texts (e_args e) val ->
  (q_url q = c_base_url (e_client e) ++ expand (fun n => encode_path (val n)) (squeeze_pieces false (e_path e))
   <-> harmless (e_path e) (e_args e)).
Proof. exact @sent_iff. Qed.
Print Assumptions C07_sent_iff.

Example C07_sent_iff_ex :
  happens (y_ep (lit "a/b")) /\ parses_paths y_ctx y_origin /\ base_at y_ctx y_origin [lit "api"] /\ plain_literals x_pieces
  /\ path_texts (y_args (lit "a/b")) (fun _ => lit "a/b")
  /\ (exists q, first_request (e_trace (y_ep (lit "a/b"))) q /\ q_url q = lit "https://x/api/items/a%2Fb")
  /\ (exists q, first_request (e_trace (y_ep (lit ".."))) q /\ q_url q = lit "https://x/api/")
  /\ (exists q, first_request (e_trace (y_ep (lit "a\b"))) q /\ q_url q = lit "https://x/api/items/a/b").
Proof.
  split; [apply y_happens|]. split; [exact y_parses|]. split; [exact y_base|]. split; [exact y_plain|]. split; [apply y_texts|].
  repeat split; (eexists; split; [eexists; right; right; eexists; vm_compute; reflexivity|reflexivity]).
Qed.

(** So the hypothesis [url_kept] of C52, C53, C65, C96, C97 and C98 is about the arguments only. *)
Theorem C07_kept_iff : forall V W (e : episode V W), happens e ->
  (forall p v, In (p, Some v) (e_args e) -> p_kind p = KPath -> valid_str (v_text v)) -> plain_literals (e_path e) ->
  forall origin bsegs, parses_paths (e_client e) origin -> base_at (e_client e) origin bsegs ->
  (url_kept (e_client e) (e_path e) (e_args e) <-> harmless (e_path e) (e_args e)).
Proof. exact @kept_iff. Qed.
Print Assumptions C07_kept_iff.

Example C07_kept_iff_ex : url_kept y_ctx x_pieces (y_args (lit "a/b")) /\ ~ harmless x_pieces (y_args (lit "..")).
Proof.
  split.
  - intros val Hv. exists []. pose proof (Hv x_id (x_value (lit "a/b")) (or_introl eq_refl) eq_refl) as E. cbn [p_api_name x_id] in E.
    change (squeeze_pieces false x_pieces) with x_pieces. unfold x_pieces, expand. rewrite flat_map_app. cbn [flat_map].
    rewrite E. vm_compute. reflexivity.
  - intros (_ & H). destruct (H _ (y_texts (lit "..")) [PVar (lit "id")]) as (_ & H2); [vm_compute; auto|]. apply H2. vm_compute. reflexivity.
Qed.

(** Calls of a client whose URL parser follows the specification, for C07. *)
From Verif Require Import Base Utf8 SerdeModel OasModel HeaderModel ClientModel TemplateModel TemplateSpec EncodeModel EncodeSpec QuerySpec
  MethodModel OpModel RunModel RequestSpec DocSpec MockSpec KeptSpec ExampleData.
Local Open Scope N_scope.

Definition y_origin : str := lit "https://x".
Definition y_ctx : context :=
  Context (lit "https://x/api") (lit "1.0")
    (fun u => ROk (y_origin ++ flat_map (fun x => ch "/" :: x) (url_segments (skipn (length y_origin) u)), None, []))
    (RErr' (lit "query") None []) (RErr' (lit "json") None []) (lit "key").

Definition y_args (id : str) : list (op_param * option value) :=
  [(x_id, Some (x_value id)); (x_q, None); (x_trace, None); (x_body, Some (x_value (lit "b")))].

(** The call of [put_item] with [id]. *)
Definition y_ep (id : str) : episode (N * list N) nat :=
  let '(f, tr, w) := run (N * list N) y_ctx x_fs nat (x_ops false false (x_resp 200)) (x_sb x_no_hooks) (variables (y_args id)) O in
  Episode _ _ x_snake x_pascal x_ts x_comps x_op x_pieces (lit "put") [] x_no_hooks x_m (x_sb x_no_hooks) y_ctx x_fs
    (x_ops false false (x_resp 200)) (y_args id) O f tr w.

Lemma y_happens id : happens (y_ep id).
Proof.
  unfold y_ep. destruct (run _ _ _ _ _ _ _ _) as [[f tr] w] eqn:E. split; [apply x_generated| |exact E]. split.
  - split; [reflexivity|]. repeat constructor; cbn; easy.
  - split; [discriminate|]. repeat constructor; discriminate.
  - intros u p q hs [= <- <- <-] n. discriminate.
Qed.
Lemma y_parses : parses_paths y_ctx y_origin.
Proof. intros s _. now exists []. Qed.
Lemma y_base : base_at y_ctx y_origin [lit "api"].
Proof. split; [reflexivity|]. split; repeat constructor; discriminate. Qed.
Lemma y_plain : plain_literals x_pieces.
Proof.
  intros c Hc. vm_compute in Hc. repeat (destruct Hc as [Hc|Hc]; [first [discriminate Hc | injection Hc as <-; reflexivity]|]). easy.
Qed.
Lemma y_valid id p v : valid_str id -> In (p, Some v) (y_args id) -> p_kind p = KPath -> valid_str (v_text v).
Proof.
  intros Hv Hin Hk. unfold y_args in Hin. repeat (destruct Hin as [Hin|Hin]; [first [discriminate Hin | injection Hin as <- <-]|]);
    try discriminate Hk; [exact Hv|easy].
Qed.
Lemma y_texts id : path_texts (y_args id) (fun _ => id).
Proof.
  intros p v Hin Hk. unfold y_args in Hin. repeat (destruct Hin as [Hin|Hin]; [first [discriminate Hin | injection Hin as <- <-]|]);
    try discriminate Hk; [reflexivity|easy].
Qed.

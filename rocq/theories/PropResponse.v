(** Properties C19-C23: how the response of a call is treated. *)
From Verif Require Import Base SerdeModel OasModel HeaderModel ClientModel TemplateModel TemplateSpec MethodModel OpModel RunModel
  RefSpec ResponseSpec RequestSpec ParamSpec DocSpec DocProofs EpisodeProofs EpisodeKinds ExtractProofs ExampleData.
Local Open Scope N_scope.

(** The calls of the examples: answered with status [s]. *)
Definition ex_x (s : N) : episode (N * list N) nat := x_ep x_hooks (x_ops false false (x_resp s)) x_args.
Definition ex_z (s : N) : episode (N * list N) nat :=
  ep_of z_op z_pieces (lit "get") z_m x_no_hooks (x_ops false false (x_resp s)) [].
Definition ex_u (s : N) : episode (N * list N) nat :=
  ep_of u_op u_pieces (lit "get") u_m x_no_hooks (x_ops false false (x_resp s)) [].
Definition ex_w (s : N) : episode (N * list N) nat :=
  ep_of w_op w_pieces (lit "get") w_m x_no_hooks
    (x_ops false false (Response s [] [] (ROk 7))) [].

Lemma ex_x_happens s : happens (ex_x s).
Proof. unfold ex_x. apply x_happens, x_callable. Qed.
Lemma ex_x_documents s : documents (ex_x s) x_table.
Proof. unfold ex_x. apply x_documents. Qed.
Lemma ex_z_happens s : happens (ex_z s).
Proof. unfold ex_z. apply ep_of_happens; [apply z_generated|apply z_callable]. Qed.
Lemma ex_z_documents s : documents (ex_z s) [(SCode 404, RRaw)].
Proof. unfold ex_z. apply ep_of_documents, z_tabulates. Qed.
Lemma ex_u_happens s : happens (ex_u s).
Proof. unfold ex_u. apply ep_of_happens; [apply u_generated|apply u_callable]. Qed.
Lemma ex_u_documents s : documents (ex_u s) [(SCode 200, RType 2); (SCode 304, RType 2)].
Proof. unfold ex_u. apply ep_of_documents, u_tabulates. Qed.
Lemma ex_w_happens s : happens (ex_w s).
Proof. unfold ex_w. apply ep_of_happens; [apply w_generated|apply w_callable]. Qed.
Lemma ex_w_documents s : documents (ex_w s) [(SDefault, RUpgrade)].
Proof. unfold ex_w. apply ep_of_documents, w_tabulates. Qed.

(** ** C19 *)

Theorem C19_arms_cover : forall snake pascal ts comps op ps method pp h m sb x arms,
  generated snake pascal ts comps op ps method pp h m sb ->
  In (SMatch x arms) (sb_body sb) -> forall s, exists r, select arms s = Some r.
Proof. exact arms_total. Qed.
Print Assumptions C19_arms_cover.

(** Every call returns: no response falls through, nothing panics. *)
Theorem C19_call_returns : forall V W (e : episode V W), happens e -> exists out, e_final e = Returned out.
Proof. exact @ep_returns. Qed.
Print Assumptions C19_call_returns.

Example C19_ex : exists x arms, In (SMatch x arms) (sb_body (x_sb x_no_hooks)) /\ length arms = 5%nat /\
  select arms 777 = Some (RhsErr DFromResponse) /\ select arms 299 = Some (RhsOk DFromResponse).
Proof.
  eexists _, _. split.
  - vm_compute. do 5 right. left. reflexivity.
  - repeat split; vm_compute; reflexivity.
Qed.

(** ** C20 *)

(** 2xx. *)
Theorem C20_success_decoded_partial : forall V W (e : episode V W), happens e -> forall t r k,
  documents e t -> answered e r ->
  200 <= r_status r < 300 -> lookup t (r_status r) = Some k ->
  exists out, e_final e = Returned out /\ decoded (e_decode e) r k out.
Proof. exact @ep_success. Qed.
Print Assumptions C20_success_decoded_partial.

(** 4xx and 5xx; an upgraded connection has no error body. *)
Theorem C20_error_decoded_partial : forall V W (e : episode V W), happens e -> forall t r k,
  documents e t -> answered e r ->
  400 <= r_status r < 600 -> lookup t (r_status r) = Some k -> k <> RUpgrade ->
  (exists v, decoded (e_decode e) r k (ROk v) /\ e_final e = Returned (RErr (ErrorResponse v))) \/
  (exists x, decoded (e_decode e) r k (RErr x) /\ e_final e = Returned (RErr x)).
Proof. exact @ep_error. Qed.
Print Assumptions C20_error_decoded_partial.

(** Other statuses: the default response.  Missing from the full statement:
    their own code or class, see below. *)
Theorem C20_other_decoded_partial : forall V W (e : episode V W), happens e -> forall t r k,
  documents e t -> answered e r ->
  r_status r < 200 \/ 300 <= r_status r < 400 \/ 600 <= r_status r -> r_status r <> 101 ->
  kind_at SDefault t = Some k -> k <> RUpgrade ->
  (exists v, decoded (e_decode e) r k (ROk v) /\ e_final e = Returned (RErr (ErrorResponse v))) \/
  (exists x, decoded (e_decode e) r k (RErr x) /\ e_final e = Returned (RErr x)).
Proof. exact @ep_other. Qed.
Print Assumptions C20_other_decoded_partial.

(** ... and without one, whatever their own code or class says, they are unexpected; so are errors documented as
    an upgraded connection. *)
Theorem C20_other_unexpected : forall V W (e : episode V W), happens e -> forall t r,
  documents e t -> answered e r ->
  r_status r < 200 \/ 300 <= r_status r < 400 \/ 600 <= r_status r -> r_status r <> 101 ->
  kind_at SDefault t = None \/ kind_at SDefault t = Some RUpgrade -> e_final e = Returned (RErr (UnexpectedResponse r)).
Proof. exact @ep_other_undecoded. Qed.
Print Assumptions C20_other_unexpected.

Theorem C20_upgrade_unexpected : forall V W (e : episode V W), happens e -> forall t r,
  documents e t -> answered e r ->
  400 <= r_status r < 600 -> lookup t (r_status r) = Some RUpgrade -> e_final e = Returned (RErr (UnexpectedResponse r)).
Proof. exact @ep_error_upgrade. Qed.
Print Assumptions C20_upgrade_unexpected.

Example C20_unexpected_ex :
  happens (ex_u 304) /\ documents (ex_u 304) [(SCode 200, RType 2); (SCode 304, RType 2)] /\ answered (ex_u 304) (x_resp 304)
  /\ happens (ex_w 404) /\ documents (ex_w 404) [(SDefault, RUpgrade)] /\ answered (ex_w 404) (Response 404 [] [] (ROk 7))
  /\ lookup [(SDefault, RUpgrade)] 404 = Some RUpgrade.
Proof.
  split; [apply ex_u_happens|]. split; [apply ex_u_documents|].
  split; [split; [eexists; vm_compute; left; reflexivity|vm_compute; discriminate]|].
  split; [apply ex_w_happens|]. split; [apply ex_w_documents|].
  split; [split; [eexists; vm_compute; left; reflexivity|vm_compute; discriminate]|reflexivity].
Qed.

(** A documented 304 is not decoded. *)
Theorem C20_documented_redirect_refuted : exists (e : episode (N * list N) nat) t r k,
  happens e /\ documents e t /\ answered e r /\ r_status r = 304 /\ lookup t 304 = Some k /\
  ~ (exists out, decoded (e_decode e) r k out /\
       (e_final e = Returned out \/ exists v, out = ROk v /\ e_final e = Returned (RErr (ErrorResponse v)))).
Proof.
  exists (ex_u 304), [(SCode 200, RType 2); (SCode 304, RType 2)], (x_resp 304), (RType 2).
  split; [apply ex_u_happens|].
  split; [apply ex_u_documents|].
  split; [split; [eexists; vm_compute; left; reflexivity|vm_compute; discriminate]|].
  split; [reflexivity|]. split; [reflexivity|].
  intros (out & Hd & [Hf|(v & -> & Hf)]); vm_compute in Hf; [|discriminate].
  injection Hf as <-. inversion Hd.
Qed.
Print Assumptions C20_documented_redirect_refuted.

Example C20_ex :
  happens (ex_x 200) /\ documents (ex_x 200) x_table /\ answered (ex_x 200) (x_resp 200) /\
  lookup x_table 200 = Some (RType 1) /\
  e_final (ex_x 200) = Returned (ROk (RValue (IVal (1, lit "{}")) 200 [])).
Proof.
  split; [apply ex_x_happens|]. split; [apply ex_x_documents|].
  split; [split; [eexists; vm_compute; do 2 right; left; reflexivity|vm_compute; discriminate]|]. split; vm_compute; reflexivity.
Qed.
Example C20_error_ex :
  happens (ex_x 404) /\ documents (ex_x 404) x_table /\ answered (ex_x 404) (x_resp 404) /\
  lookup x_table 404 = Some (RType 1) /\
  e_final (ex_x 404) = Returned (RErr (ErrorResponse (RValue (IVal (1, lit "{}")) 404 []))).
Proof.
  split; [apply ex_x_happens|]. split; [apply ex_x_documents|].
  split; [split; [eexists; vm_compute; do 2 right; left; reflexivity|vm_compute; discriminate]|]. split; vm_compute; reflexivity.
Qed.
Example C20_other_ex :
  happens (ex_x 304) /\ documents (ex_x 304) x_table /\ answered (ex_x 304) (x_resp 304) /\
  kind_at SDefault x_table = Some (RType 1) /\
  e_final (ex_x 304) = Returned (RErr (ErrorResponse (RValue (IVal (1, lit "{}")) 304 []))).
Proof.
  split; [apply ex_x_happens|]. split; [apply ex_x_documents|].
  split; [split; [eexists; vm_compute; do 2 right; left; reflexivity|vm_compute; discriminate]|]. split; vm_compute; reflexivity.
Qed.

(** ** C21 *)

Theorem C21_undocumented_untouched : forall V W (e : episode V W), happens e -> forall t r,
  documents e t -> answered e r -> lookup t (r_status r) = None ->
  ~ (200 <= r_status r < 300 /\ ~ documents_success t) ->
  ~ (r_status r = 101 /\ m_websocket (e_method e) = true) ->
  e_final e = Returned (RErr (UnexpectedResponse r)).
Proof. exact @ep_undocumented. Qed.
Print Assumptions C21_undocumented_untouched.

Theorem C21_generic_success : forall V W (e : episode V W), happens e -> forall t r,
  documents e t -> answered e r ->
  200 <= r_status r < 300 -> ~ documents_success t ->
  e_final e = Returned (ROk (RValue (IStream (r_body r)) (r_status r) (r_headers r))).
Proof. exact @ep_generic. Qed.
Print Assumptions C21_generic_success.

Example C21_ex :
  happens (ex_z 500) /\ documents (ex_z 500) [(SCode 404, RRaw)] /\ answered (ex_z 500) (x_resp 500) /\
  lookup [(SCode 404, RRaw)] 500 = None /\ e_final (ex_z 500) = Returned (RErr (UnexpectedResponse (x_resp 500))).
Proof.
  split; [apply ex_z_happens|].
  split; [apply ex_z_documents|].
  split; [split; [eexists; vm_compute; left; reflexivity|vm_compute; discriminate]|]. split; reflexivity.
Qed.
Example C21_generic_ex :
  happens (ex_z 206) /\ documents (ex_z 206) [(SCode 404, RRaw)] /\ ~ documents_success [(SCode 404, RRaw)] /\
  e_final (ex_z 206) = Returned (ROk (RValue (IStream [ROk (lit "{"); ROk (lit "}")]) 206 [])).
Proof.
  split; [apply ex_z_happens|].
  split; [apply ex_z_documents|]. split; [|reflexivity].
  intros [(c & k & [[= <- _]|[]] & _ & H0)|[(k & [H0|[]])|(k & [H0|[]])]]; easy.
Qed.

(** ** C22 *)

Theorem C22_ok_only_for_success : forall V W (e : episode V W), happens e -> forall t v,
  documents e t -> e_final e = Returned (ROk v) ->
  exists q r, In (ESend q (ROk r)) (e_trace e) /\ rv_status v = r_status r /\ rv_headers v = r_headers r /\
    (200 <= r_status r < 300 \/
     (r_status r = 101 /\ (m_websocket (e_method e) = true \/ exists k, In (SCode 101, k) t))).
Proof. exact @ep_ok. Qed.
Print Assumptions C22_ok_only_for_success.

Theorem C22_documented_error_is_error : forall V W (e : episode V W), happens e -> forall t q r k out,
  documents e t -> In (ESend q (ROk r)) (e_trace e) -> e_final e = Returned out ->
  400 <= r_status r < 600 -> lookup t (r_status r) = Some k -> exists x, out = RErr x.
Proof. exact @ep_error_is_error. Qed.
Print Assumptions C22_documented_error_is_error.

Example C22_upgrade_ex :
  happens (ex_w 101) /\ documents (ex_w 101) [(SDefault, RUpgrade)] /\
  e_final (ex_w 101) = Returned (ROk (RValue (IUpgraded 7) 101 [])).
Proof.
  split; [apply ex_w_happens|].
  split; [apply ex_w_documents|reflexivity].
Qed.

(** ** C23 *)

(** Generation succeeds exactly when the success responses share one kind of
    body, and so do the error responses (and no error response upgrades the
    connection).  [success_entry] says which responses count. *)
Theorem C23_generated_iff_agree : forall snake pascal ts comps op ps method pp h m t,
  strict ps -> process_operation snake pascal ts op comps (show ps) method pp = Ok m ->
  response_table pascal ts comps op (m_websocket m) t -> codes_valid op ->
  (forall n, In n (vars ps) -> exists p, In p (m_params m) /\ p_kind p = KPath /\ p_api_name p = n) ->
  ((exists sb, method_sig_body h m = Ok sb) <->
   agree (success_entry op (m_websocket m) t) /\ agree (error_entry t) /\
   (forall key, In (key, RUpgrade) t -> is_error_or_default key = true -> key = SDefault)).
Proof. exact generation_iff. Qed.
Print Assumptions C23_generated_iff_agree.

Theorem C23_common_kinds : forall snake pascal ts comps op ps method pp h m sb t,
  generated snake pascal ts comps op ps method pp h m sb ->
  response_table pascal ts comps op (m_websocket m) t -> codes_valid op ->
  (forall k, success_entry op (m_websocket m) t k <-> k = sb_success sb) /\
  (forall k, error_entry t k -> k = sb_error sb) /\
  ((forall k, ~ error_entry t k) -> sb_error sb = RNone).
Proof. exact generated_kinds. Qed.
Print Assumptions C23_common_kinds.

(** 200 as a string and 201 as a reference: refused. *)
Definition v_op : operation := Operation (Some (lit "v")) [] None None [] None None
  [(ScCode 200, Item (x_json (Item x_string))); (ScCode 201, Item (x_json (Ref (lit "#/components/schemas/Error"))))] [].
Example C23_refused_ex : exists m,
  process_operation x_snake x_pascal x_ts v_op x_comps (show u_pieces) (lit "get") [] = Ok m /\
  response_table x_pascal x_ts x_comps v_op (m_websocket m) [(SCode 200, RType 2); (SCode 201, RType 1)] /\
  codes_valid v_op /\ vars u_pieces = [] /\
  ~ (exists sb, method_sig_body x_no_hooks m = Ok sb).
Proof.
  eexists. split; [vm_compute; reflexivity|]. split; [eapply computed_table; reflexivity|]. split.
  - split; intros c r [[= <- _]|[[= <- _]|[]]]; reflexivity.
  - split; [reflexivity|]. intros (sb & H). vm_compute in H. discriminate.
Qed.
Example C23_accepted_ex :
  codes_valid x_op /\ response_table x_pascal x_ts x_comps x_op (m_websocket x_m) x_table /\
  agree (success_entry x_op false x_table) /\ sb_success (x_sb x_hooks) = RType 1.
Proof.
  split; [|split; [exact x_tabulates|split; [|reflexivity]]].
  - split; intros c r [[= <- _]|[[= <- _]|[]]]; reflexivity.
  - intros k k' H H'.
    assert (Hall : forall k, success_entry x_op false x_table k -> k = RType 1).
    { clear. intros k [c k' Hi _|k' Hi|k' Hi _|Hn|Hw].
      - cbn in Hi. intuition congruence.
      - cbn in Hi. intuition congruence.
      - cbn in Hi. intuition congruence.
      - exfalso. apply Hn. right. right. eexists. left. reflexivity.
      - discriminate. }
    rewrite (Hall k H), (Hall k' H'). reflexivity.
Qed.

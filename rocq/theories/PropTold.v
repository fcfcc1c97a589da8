(** C98: what a request tells of the arguments of a call. *)
From Verif Require Import Base Utf8 SerdeModel OasModel TemplateSpec EncodeModel EncodeSpec QuerySpec MethodModel OpModel RunModel
  RequestSpec DocSpec MockSpec MockApartSpec ToldSpec ToldProofs ExampleData ExampleMock ExampleTold.

(** Two calls of a method that send the same request have the same path arguments, if no segment of the path has two
    placeholders; ... *)
Theorem C98_path_partial : forall V W (e e' : episode V W), happens e -> happens e' -> forall q,
  first_request (e_trace e) q -> first_request (e_trace e') q -> forall p v v',
  e_client e' = e_client e -> e_path e' = e_path e ->
  url_kept (e_client e) (e_path e) (e_args e) -> url_kept (e_client e') (e_path e') (e_args e') ->
  proper_texts (e_args e) -> proper_texts (e_args e') -> one_each (e_path e) ->
  In (p, Some v) (e_args e) -> In (p, Some v') (e_args e') -> p_kind p = KPath -> In (p_api_name p) (vars (e_path e)) ->
  v_text v = v_text v'.
Proof. exact @path_told. Qed.
Print Assumptions C98_path_partial.

Example C98_calls : happens v_first /\ happens v_second
  /\ (first_request (e_trace v_first) (x_request x_args_mock) /\ first_request (e_trace v_second) (x_request x_args_mock))
  /\ e_args v_first = x_args_mock /\ e_args v_second = v_args /\ x_args_mock <> v_args.
Proof.
  split; [exact (proj1 v_happens)|]. split; [exact (proj2 v_happens)|]. split; [exact v_requests|].
  split; [vm_compute; reflexivity|]. split; [vm_compute; reflexivity|]. intro E. vm_compute in E. discriminate E.
Qed.

Example C98_path_ex : url_kept x_ctx x_pieces x_args_mock /\ url_kept x_ctx x_pieces v_args
  /\ proper_texts x_args_mock /\ proper_texts v_args /\ one_each x_pieces /\ In (p_api_name x_id) (vars x_pieces).
Proof.
  exact (conj (x_kept _) (conj (x_kept _) (conj x_proper (conj v_proper (conj v_one (or_introl eq_refl)))))).
Qed.

(** ... and only then: with two placeholders in a segment, different texts make the same path. *)
Theorem C98_path_iff : forall ps, NoDup (vars ps) -> plain_literals ps -> (unambiguous ps <-> one_each ps).
Proof. exact template_iff. Qed.
Print Assumptions C98_path_iff.

Theorem C98_path_refuted : exists ps val val',
  expand (fun n => encode_path (val n)) ps = expand (fun n => encode_path (val' n)) ps
  /\ vars ps = [lit "from"; lit "to"] /\ val (lit "from") <> val' (lit "from") /\ val (lit "to") <> val' (lit "to").
Proof.
  exists [PLit (ch "/"); PVar (lit "from"); PLit (ch "-"); PVar (lit "to")],
    (fun n => if str_eqb n (lit "from") then lit "1-2" else lit "3"),
    (fun n => if str_eqb n (lit "from") then lit "1" else lit "2-3").
  split; [vm_compute; reflexivity|]. split; [reflexivity|]. split; vm_compute; discriminate.
Qed.
Print Assumptions C98_path_refuted.

Example C98_path_iff_ex : NoDup (vars x_pieces) /\ plain_literals x_pieces /\ one_each x_pieces.
Proof.
  split; [exact x_vars|]. split; [|exact v_one]. intros c Hc. vm_compute in Hc.
  repeat (destruct Hc as [Hc|Hc]; [first [discriminate Hc | injection Hc as <-; reflexivity]|]). easy.
Qed.

(** They have query arguments that are sent as the same texts, if none of them is an object. *)
Theorem C98_query_partial : forall V W (e e' : episode V W), happens e -> happens e' -> forall q,
  first_request (e_trace e) q -> first_request (e_trace e') q -> forall p o o' r,
  url_kept (e_client e) (e_path e) (e_args e) -> url_kept (e_client e') (e_path e') (e_args e') ->
  proper_texts (e_args e) -> proper_texts (e_args e') -> simple_queries (e_args e) -> simple_queries (e_args e') ->
  In (p, o) (e_args e) -> In (p, o') (e_args e') -> p_kind p = KQuery r -> exists ts, query_texts o ts /\ query_texts o' ts.
Proof. exact @query_told. Qed.
Print Assumptions C98_query_partial.

Example C98_query_ex : simple_queries x_args_mock /\ simple_queries v_args
  /\ query_texts (Some (x_value (lit "z=&"))) [lit "z=&"].
Proof. split; [exact (proj1 v_simple)|]. split; [exact (proj2 v_simple)|]. apply sf_scalar, st_str. Qed.

(** In general, what a query tells is the list of all the pairs that the arguments are sent as, in order. *)
Theorem C98_query_iff : forall params params' pss pss',
  Forall2 (fun kv p => query_param (fst kv) (snd kv) = Some p) params pss ->
  Forall2 (fun kv p => query_param (fst kv) (snd kv) = Some p) params' pss' ->
  Forall (Forall (fun p => valid_str (fst p) /\ valid_str (snd p))) pss -> Forall (Forall (fun p => valid_str (fst p) /\ valid_str (snd p))) pss' ->
  (send_queries params = send_queries params' <-> concat pss = concat pss').
Proof. exact queries_iff. Qed.
Print Assumptions C98_query_iff.

Example C98_query_iff_ex :
  let a := [(lit "l", VSeq [VStr (lit "1"); VStr (lit "2")]); (lit "o", VNone)] in
  let b := [(lit "l", VSeq [VStr (lit "1")]); (lit "l", VSome (VStr (lit "2")))] in
  let c := [(lit "l", VStr (lit "2")); (lit "l", VStr (lit "1"))] in
  Forall2 (fun kv p => query_param (fst kv) (snd kv) = Some p) a [[(lit "l", lit "1"); (lit "l", lit "2")]; []]
  /\ Forall2 (fun kv p => query_param (fst kv) (snd kv) = Some p) b [[(lit "l", lit "1")]; [(lit "l", lit "2")]]
  /\ send_queries a = send_queries b /\ send_queries a <> send_queries c.
Proof.
  split; [repeat constructor; vm_compute; reflexivity|]. split; [repeat constructor; vm_compute; reflexivity|].
  split; [vm_compute; reflexivity|]. vm_compute. discriminate.
Qed.

(** A field of an object and another argument of its name cannot be told apart, nor an empty array and no array. *)
Theorem C98_query_refuted : exists a b : list (str * sval), map fst a = map fst b /\ NoDup (map fst a) /\ a <> b
  /\ send_queries a = Some (Some (lit "x=1")) /\ send_queries b = Some (Some (lit "x=1"))
  /\ send_queries [(lit "l", VSome (VSeq []))] = send_queries [(lit "l", VNone)].
Proof.
  exists [(lit "o", VStruct (lit "O") [(lit "x", VStr (lit "1"))]); (lit "x", VNone)],
    [(lit "o", VStruct (lit "O") []); (lit "x", VSome (VStr (lit "1")))].
  split; [reflexivity|]. split; [repeat constructor; vm_compute; intuition discriminate|]. split; [discriminate|].
  repeat split; vm_compute; reflexivity.
Qed.
Print Assumptions C98_query_refuted.

(** They have the same headers, given and not given, of names that nothing else has ... *)
Theorem C98_header_partial : forall V W (e e' : episode V W), happens e -> happens e' -> forall q,
  first_request (e_trace e) q -> first_request (e_trace e') q -> forall p o o' r,
  e_method e' = e_method e -> m_websocket (e_method e) = false -> own_header (m_params (e_method e)) p ->
  (forall v, o = Some v -> valid_str (v_text v)) -> (forall v, o' = Some v -> valid_str (v_text v)) ->
  In (p, o) (e_args e) -> In (p, o') (e_args e') -> p_kind p = KHeader r -> option_map v_text o = option_map v_text o'.
Proof. exact @header_told. Qed.
Print Assumptions C98_header_partial.

Example C98_header_ex : m_websocket x_m = false /\ own_header (m_params x_m) x_trace /\ valid_str (lit "t1")
  /\ In (x_trace, Some (x_value (lit "t1"))) x_args_mock /\ In (x_trace, Some (x_value (lit "t1"))) v_args.
Proof.
  split; [reflexivity|]. split; [exact v_header|]. split; [repeat constructor|]. split; do 2 right; now left.
Qed.

(** An [Accept] that asks for JSON and none at all are the same. *)
Theorem C98_header_refuted : exists p v, p_kind p = KHeader false /\ lower_name (p_api_name p) = lit "accept"
  /\ forall version key n, header_values version [] false key (RType 1) RNone [(p, Some v)] n
     = header_values version [] false key (RType 1) RNone [(p, None)] n.
Proof. exact accept_alike. Qed.
Print Assumptions C98_header_refuted.

(** ... and bodies that are encoded alike. *)
Theorem C98_body : forall V W (e e' : episode V W), happens e -> happens e' -> forall q,
  first_request (e_trace e) q -> first_request (e_trace e') q -> forall ct v ct' v',
  body_argument (e_args e) = Some (ct, v) -> body_argument (e_args e') = Some (ct', v') ->
  exists b, body_encoded ct v b /\ body_encoded ct' v' b.
Proof. exact @body_told. Qed.
Print Assumptions C98_body.

Example C98_body_ex : body_argument x_args_mock = Some (Json, x_value (lit "b")) /\ body_argument v_args = Some (Json, x_value (lit "c"))
  /\ body_encoded Json (x_value (lit "b")) (lit "{}") /\ body_encoded Json (x_value (lit "c")) (lit "{}").
Proof. split; [reflexivity|]. split; [reflexivity|]. split; constructor; reflexivity. Qed.

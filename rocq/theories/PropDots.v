(** C52 when there are dots in templates and values. *)
From Verif Require Import Base SerdeModel OasModel TemplateModel TemplateSpec MethodModel OpModel BuilderModel RunModel SanitizeModel MockModel MockSpec
  MockDotSpec MockDots MockEscapedSpec MockEscaped UnicodeProofs ExampleData ExampleGenerate ExampleMock ExampleDots.
Local Open Scope N_scope.

(** A mock that is not restricted matches exactly the expansions of the templates that have any character but a newline where
    the template has a dot, even a slash; ... *)
Theorem C52_dots : forall U types m o, httpmock_method U types m = Ok o -> NoDup (map p_name (m_params m)) ->
  forall ps, strict ps -> parse (show ps) = Ok (m_path m) -> NoDup (vars ps) -> dotted_template ps ->
  exists es, when_calls o [] = Some es
    /\ forall json_is r, matched json_is es r = true <-> mr_method r = m_method m /\ near_expansion ps (mr_path r).
Proof. exact mock_dots. Qed.
Print Assumptions C52_dots.

(** ... so it matches exactly what it should if and only if there is no dot in the template. *)
Theorem C52_dots_iff : forall U types m o, httpmock_method U types m = Ok o -> NoDup (map p_name (m_params m)) ->
  forall ps, strict ps -> parse (show ps) = Ok (m_path m) -> NoDup (vars ps) -> dotted_template ps ->
  forall es, when_calls o [] = Some es ->
  ((forall json_is r, matched json_is es r = true <-> mr_method r = m_method m /\ expansion ps [] (mr_path r)) <->
   ~ In (PLit (ch ".")) ps).
Proof. exact mock_dots_iff. Qed.
Print Assumptions C52_dots_iff.

Example C52_dots_ex :
  httpmock_method unicode15 y_types dt_m = Ok (k_mock dt_m) /\ NoDup (map p_name (m_params dt_m))
  /\ strict dt_pieces /\ parse (show dt_pieces) = Ok (m_path dt_m) /\ NoDup (vars dt_pieces) /\ dotted_template dt_pieces
  /\ when_calls (k_mock dt_m) [] = Some (k_when dt_m []) /\ In (PLit (ch ".")) dt_pieces
  /\ matched (fun _ _ => false) (k_when dt_m []) (k_get (lit "/v1/0/b")) = true
  /\ matched (fun _ _ => false) (k_when dt_m []) (k_get (lit "/v1-0/b")) = true
  /\ matched (fun _ _ => false) (k_when dt_m []) (k_get (lit "/v2.0/b")) = false.
Proof.
  refine (conj dt_ok (conj _ (conj dt_strict (conj eq_refl (conj _ (conj dt_dotted (conj dt_when (conj _ dt_more)))))))).
  - repeat constructor; intros [].
  - repeat constructor; intros [].
  - right. right. right. left. reflexivity.
Qed.

(** A mock restricted to one value matches exactly the expansions with a value that has any character but a slash or a newline
    where that value has a dot; ... *)
Theorem C52_value : forall U types m o, httpmock_method U types m = Ok o -> NoDup (map p_name (m_params m)) ->
  forall ps, strict ps -> parse (show ps) = Ok (m_path m) -> NoDup (vars ps) ->
  forall p v, plain_template ps -> In p (m_params m) -> p_kind p = KPath -> In (p_api_name p) (vars ps) -> dotted_text (v_text v) ->
  exists es, when_calls o [(p_name p, Some v)] = Some es
    /\ forall json_is r, ~ In 10 (mr_path r) ->
       (matched json_is es r = true <-> mr_method r = m_method m /\ near_value ps (p_api_name p) (v_text v) (mr_path r)).
Proof. exact mock_value. Qed.
Print Assumptions C52_value.

(** ... so it matches exactly what it should if and only if there is no dot in the value. *)
Theorem C52_value_iff : forall U types m o, httpmock_method U types m = Ok o -> NoDup (map p_name (m_params m)) ->
  forall ps, strict ps -> parse (show ps) = Ok (m_path m) -> NoDup (vars ps) ->
  forall p v, plain_template ps -> ~ In (PLit 10) ps -> In p (m_params m) -> p_kind p = KPath ->
  In (p_api_name p) (vars ps) -> dotted_text (v_text v) -> ~ In (ch "/") (v_text v) -> ~ In 10 (v_text v) ->
  forall es, when_calls o [(p_name p, Some v)] = Some es ->
  ((forall json_is r, ~ In 10 (mr_path r) ->
      (matched json_is es r = true <-> mr_method r = m_method m /\ expansion ps [(p_api_name p, v_text v)] (mr_path r))) <->
   ~ In (ch ".") (v_text v)).
Proof. exact mock_value_iff. Qed.
Print Assumptions C52_value_iff.

Example C52_value_ex :
  httpmock_method unicode15 y_types dv_m = Ok (k_mock dv_m) /\ NoDup (map p_name (m_params dv_m))
  /\ strict dv_pieces /\ parse (show dv_pieces) = Ok (m_path dv_m) /\ NoDup (vars dv_pieces) /\ plain_template dv_pieces
  /\ In (k_path_param (lit "a")) (m_params dv_m) /\ dotted_text (lit "1.2") /\ ~ In (ch "/") (lit "1.2")
  /\ when_calls (k_mock dv_m) [(lit "a", Some (x_value (lit "1.2")))] = Some (k_when dv_m [(lit "a", Some (x_value (lit "1.2")))])
  /\ matched (fun _ _ => false) (k_when dv_m [(lit "a", Some (x_value (lit "1.2")))]) (k_get (lit "/1x2")) = true
  /\ matched (fun _ _ => false) (k_when dv_m [(lit "a", Some (x_value (lit "1.2")))]) (k_get (lit "/1/2")) = false.
Proof.
  refine (conj dv_ok (conj _ (conj dv_strict (conj eq_refl (conj _ (conj dv_plain (conj _ (conj dv_dotted (conj _ (conj dv_when dv_more)))))))))).
  - repeat constructor; intros [].
  - repeat constructor; intros [].
  - left. reflexivity.
  - vm_compute. intros H. repeat (destruct H as [H|H]; [discriminate H|]). exact H.
Qed.

(** Values whose text is escaped as [regex::escape] does are matched as the texts they mean. *)
Theorem C52_escaped : forall U types m o, httpmock_method U types m = Ok o -> NoDup (map p_name (m_params m)) ->
  forall ps, strict ps -> parse (show ps) = Ok (m_path m) -> NoDup (vars ps) -> plain_template ps ->
  forall calls : list (op_param * value * str),
  Forall (fun c => In (fst (fst c)) (m_params m) /\ p_kind (fst (fst c)) = KPath /\ In (p_api_name (fst (fst c))) (vars ps)
                   /\ v_text (snd (fst c)) = escaped (snd c) /\ ~ In (ch "/") (snd c)) calls ->
  (length calls <= 1)%nat \/ one_per_segment ps ->
  exists es, when_calls o (map (fun c => (p_name (fst (fst c)), Some (snd (fst c)))) calls) = Some es
    /\ forall json_is r, ~ In 10 (mr_path r) ->
       (matched json_is es r = true <->
        mr_method r = m_method m
        /\ expansion ps (map (fun c => (p_api_name (fst (fst c)), snd c)) calls) (mr_path r)).
Proof. exact mock_escaped. Qed.
Print Assumptions C52_escaped.

Example C52_escaped_ex :
  httpmock_method unicode15 y_types dv_m = Ok (k_mock dv_m) /\ strict dv_pieces /\ parse (show dv_pieces) = Ok (m_path dv_m)
  /\ plain_template dv_pieces /\ escaped (lit "1.2(+)") = lit "1\.2\(\+\)"
  /\ map (fun p => matched (fun _ _ => false) (k_when dv_m [(lit "a", Some (x_value (lit "1\.2\(\+\)")))]) (k_get p))
       [lit "/1.2(+)"; lit "/1x2(+)"; lit "/1.2(("] = [true; false; false].
Proof. refine (conj dv_ok (conj dv_strict (conj eq_refl (conj dv_plain _)))). split; vm_compute; reflexivity. Qed.

(** C40-C42: generated names. *)
From Verif Require Import Base SanitizeModel SanitizeSpec SanitizeProofs UnicodeProofs NameCor PascalSpec PascalProofs.

(** C40: every generated name is a legal, non-keyword identifier. *)
Theorem C40_identifier : forall s c, identifier unicode15 (sanitize unicode15 s c).
Proof. exact (sanitize_identifier unicode15 unicode15_laws unicode15_ascii). Qed.
Print Assumptions C40_identifier.

Example C40_ex :
  sanitize unicode15 (lit "1st type's-XMLName") Snake = lit "_1st_types_xml_name"
  /\ sanitize unicode15 (lit "self") Pascal = lit "Self_"
  /\ sanitize unicode15 (lit "!?") Pascal = lit "X".
Proof. vm_compute. auto. Qed.

(** The same for any other version of the Unicode tables with these few properties. *)
Theorem C40_identifier_any_tables : forall U, unicode_laws U -> ascii_laws U ->
  forall s c, identifier U (sanitize U s c).
Proof. exact sanitize_identifier. Qed.
Print Assumptions C40_identifier_any_tables.

Example C40_tables_ex : unicode_laws unicode15 /\ ascii_laws unicode15.
Proof. split; [exact unicode15_laws|exact unicode15_ascii]. Qed.

(** Which identifier: the words of the API name, in lower case between underscores. *)
Theorem C40_snake_case : forall s,
  exists ws, snake_words unicode15 s ws /\ sanitize unicode15 s Snake = snake_name unicode15 ws.
Proof.
  exact (fun s => match snake_words_total unicode15 unicode15_laws unicode15_ascii s with
    | ex_intro _ ws H =>
        ex_intro _ ws (conj H (sanitize_snake unicode15 unicode15_laws unicode15_ascii s ws H))
    end).
Qed.
Print Assumptions C40_snake_case.

Theorem C40_snake_words_determine : forall s ws, snake_words unicode15 s ws ->
  sanitize unicode15 s Snake = snake_name unicode15 ws.
Proof. exact (sanitize_snake unicode15 unicode15_laws unicode15_ascii). Qed.
Print Assumptions C40_snake_words_determine.

Example C40_snake_ex :
  sanitize unicode15 (lit "getHTTPResponse2Body") Snake = lit "get_http_response2_body"
  /\ snake_name unicode15 [lit "get"; lit "http"; lit "response2"; lit "body"]
     = lit "get_http_response2_body".
Proof. vm_compute. auto. Qed.

(** ... or each capitalised, without separators. *)
Theorem C40_pascal_case : forall s,
  exists t, pascal_text unicode15 s t
            /\ sanitize unicode15 s Pascal = unreserved (fronted unicode15 t).
Proof.
  exact (fun s => match pascal_text_total unicode15 unicode15_laws unicode15_ascii s with
    | ex_intro _ t H =>
        ex_intro _ t (conj H (sanitize_pascal unicode15 unicode15_laws unicode15_ascii s t H))
    end).
Qed.
Print Assumptions C40_pascal_case.

Theorem C40_pascal_text_determines : forall s t, pascal_text unicode15 s t ->
  sanitize unicode15 s Pascal = unreserved (fronted unicode15 t).
Proof. exact (sanitize_pascal unicode15 unicode15_laws unicode15_ascii). Qed.
Print Assumptions C40_pascal_text_determines.

Example C40_pascal_ex :
  sanitize unicode15 (lit "getHTTPResponse2Body") Pascal = lit "GetHttpResponse2Body".
Proof. vm_compute. auto. Qed.

(** C41: a generated snake-case name is left alone, unless the API name contains the dotted capital
    I (U+0130) or an upper case letter without a lower case form (such as mathematical bold A). *)
Theorem C41_stable_partial : forall s,
  (forall c, In c s -> c <> 304%N
             /\ (uppercase unicode15 c = true -> to_lower unicode15 c <> [c])) ->
  sanitize unicode15 (sanitize unicode15 s Snake) Snake = sanitize unicode15 s Snake.
Proof. exact stable_unicode15. Qed.
Print Assumptions C41_stable_partial.

Example C41_ex :
  forall c, In c (lit "2nd typeOf+it's" ++ [931%N; 931%N]) -> c <> 304%N
             /\ (uppercase unicode15 c = true -> to_lower unicode15 c <> [c]).
Proof.
  assert (H : forallb (fun c => negb (N.eqb c 304)
    && negb (uppercase unicode15 c && str_eqb (to_lower unicode15 c) [c]))
    (lit "2nd typeOf+it's" ++ [931%N; 931%N]) = true) by (vm_compute; reflexivity).
  rewrite forallb_forall in H. intros c Hc. apply H in Hc.
  rewrite andb_true_iff, !negb_true_iff, N.eqb_neq, andb_false_iff, str_eqb_neq in Hc.
  destruct Hc as [H1 [H2|H2]]; split; congruence.
Qed.

(** The full claim fails for those two kinds of letters ... *)
Theorem C41_stable_refuted :
  (exists s, sanitize unicode15 (sanitize unicode15 s Snake) Snake <> sanitize unicode15 s Snake
             /\ s = [304%N])
  /\ (exists s, sanitize unicode15 (sanitize unicode15 s Snake) Snake <> sanitize unicode15 s Snake
                /\ s = ch "A" :: [119808%N]).
Proof. exact stable_refuted. Qed.
Print Assumptions C41_stable_refuted.

(** ... and for Pascal case even for plain letters. *)
Theorem C41_pascal_refuted : exists s,
  sanitize unicode15 (sanitize unicode15 s Pascal) Pascal <> sanitize unicode15 s Pascal
  /\ s = lit "a_b".
Proof. exact pascal_refuted. Qed.
Print Assumptions C41_pascal_refuted.

(** An ASCII name in Pascal case is left alone exactly if its text begins with a capital letter or a digit and every other capital letter
    in it starts a word. *)
Theorem C41_pascal_iff : forall s t, Forall (fun c => (c < 128)%N) s -> pascal_text unicode15 s t ->
  (sanitize unicode15 (sanitize unicode15 s Pascal) Pascal = sanitize unicode15 s Pascal <-> pascal_settled unicode15 t).
Proof. exact (pascal_stable_iff unicode15 unicode15_laws unicode15_ascii). Qed.
Print Assumptions C41_pascal_iff.

Example C41_pascal_ex : Forall (fun c => (c < 128)%N) (lit "get-x_files2Go")
  /\ sanitize unicode15 (lit "get-x_files2Go") Pascal = lit "GetXFiles2Go"
  /\ sanitize unicode15 (lit "GetXFiles2Go") Pascal = lit "GetXFiles2Go"
  /\ sanitize unicode15 (lit "files_x") Pascal = lit "FilesX" /\ sanitize unicode15 (lit "v_1_x_y") Pascal = lit "V1XY"
  /\ sanitize unicode15 (lit "V1XY") Pascal = lit "V1xy".
Proof. split; [repeat constructor|]. vm_compute. auto. Qed.

(** C42: two operations get the same method name exactly when their ids have the same words. *)
Theorem C42_same_method_iff : forall a b wa wb,
  snake_words unicode15 a wa -> snake_words unicode15 b wb ->
  (sanitize unicode15 a Snake = sanitize unicode15 b Snake <-> wa = wb).
Proof. exact (same_name_iff unicode15 unicode15_laws unicode15_ascii). Qed.
Print Assumptions C42_same_method_iff.

Example C42_ex :
  snake_words unicode15 (lit "listItems") [lit "list"; lit "items"]
  /\ snake_words unicode15 (lit "+1") [lit "plus1"].
Proof.
  split; [|left; auto].
  right; right; right. split; [discriminate|]. split; [discriminate|].
  exists (lit "list"), [lit "Items"]. split; [|vm_compute; reflexivity].
  assert (E : words unicode15 (WordProofs.replaced unicode15 (lit "listItems"))
              = [lit "list"; lit "Items"]) by (vm_compute; reflexivity).
  rewrite <- E. apply (WordProofs.words_of_complete unicode15 (ul_cases _ unicode15_laws)).
  vm_compute. reflexivity.
Qed.

(** So ids that are in snake case already get different methods ... *)
Theorem C42_distinct_partial : forall a b, snake_id a -> snake_id b -> a <> b ->
  sanitize unicode15 a Snake <> sanitize unicode15 b Snake.
Proof. exact (snake_ids_distinct unicode15 unicode15_laws unicode15_ascii). Qed.
Print Assumptions C42_distinct_partial.

Example C42_distinct_ex : snake_id (lit "get_item_2") /\ snake_id (lit "type").
Proof.
  split.
  - exists (lit "get"), [lit "item"; lit "2"]. split; [|reflexivity].
    repeat (apply Forall_cons; [split; [discriminate|repeat constructor]|]). apply Forall_nil.
  - exists (lit "type"), []. split; [|reflexivity].
    repeat (apply Forall_cons; [split; [discriminate|repeat constructor]|]). apply Forall_nil.
Qed.

(** ... and different builders if no word begins with a digit. *)
Theorem C42_distinct_builders_partial : forall a b, lettered_id a -> lettered_id b -> a <> b ->
  sanitize unicode15 (sanitize unicode15 a Snake) Pascal
  <> sanitize unicode15 (sanitize unicode15 b Snake) Pascal.
Proof. exact (lettered_ids_distinct unicode15 unicode15_laws unicode15_ascii). Qed.
Print Assumptions C42_distinct_builders_partial.

Example C42_builders_ex : lettered_id (lit "a_b") /\ lettered_id (lit "ab").
Proof.
  split.
  - exists (lit "a"), [lit "b"]. split; [|reflexivity].
    repeat (apply Forall_cons; [eexists _, _; split; [reflexivity|]; split; [reflexivity|];
      split; [discriminate|repeat constructor]|]). apply Forall_nil.
  - exists (lit "ab"), []. split; [|reflexivity].
    repeat (apply Forall_cons; [eexists _, _; split; [reflexivity|]; split; [reflexivity|];
      split; [discriminate|repeat constructor]|]). apply Forall_nil.
Qed.

(** Different ids can have the same words ... *)
Theorem C42_distinct_refuted : exists a b, a <> b
  /\ sanitize unicode15 a Snake = sanitize unicode15 b Snake
  /\ a = lit "get-item" /\ b = lit "getItem".
Proof. exact distinct_refuted. Qed.
Print Assumptions C42_distinct_refuted.

(** ... and snake-case ids with different methods the same builder. *)
Theorem C42_distinct_builders_refuted : exists a b, snake_id a /\ snake_id b
  /\ sanitize unicode15 a Snake <> sanitize unicode15 b Snake
  /\ sanitize unicode15 (sanitize unicode15 a Snake) Pascal
     = sanitize unicode15 (sanitize unicode15 b Snake) Pascal
  /\ a = lit "get_v_1" /\ b = lit "get_v1".
Proof. exact builders_collide. Qed.
Print Assumptions C42_distinct_builders_refuted.

(** Two operations get the same builder exactly when the texts of their ids in Pascal case are the same. *)
Theorem C42_same_builder_iff : forall a b ta tb, pascal_text unicode15 a ta -> pascal_text unicode15 b tb ->
  (sanitize unicode15 a Pascal = sanitize unicode15 b Pascal <-> ta = tb).
Proof. exact (same_pascal_iff unicode15 unicode15_laws unicode15_ascii upper_plain15). Qed.
Print Assumptions C42_same_builder_iff.

Example C42_same_builder_ex : sanitize unicode15 (lit "get_v_1") Pascal = lit "GetV1" /\ sanitize unicode15 (lit "get_v1") Pascal = lit "GetV1"
  /\ sanitize unicode15 (lit "2_get") Pascal = lit "_2Get" /\ sanitize unicode15 (lit "self") Pascal = lit "Self_".
Proof. vm_compute. auto. Qed.

(** Mocks of a path with a dot, and of a value with one. *)
From Verif Require Import Base SerdeModel OasModel TemplateModel TemplateSpec MethodModel OpModel BuilderModel SanitizeModel MockModel MockSpec
  MockDotSpec UnicodeProofs ExampleData ExampleGenerate ExampleMock.
Local Open Scope N_scope.

(** /v1.0/{a}. *)
Definition dt_pieces : list piece := map PLit (lit "/v1.0/") ++ [PVar (lit "a")].
Definition dt_m : op_method := k_method [CConst (lit "/v1.0/"); CParam (lit "a")] [lit "a"].
Lemma dt_strict : strict dt_pieces.
Proof. split; [now exists (map PLit (lit "v1.0/") ++ [PVar (lit "a")])|]. literal_pieces. Qed.
Lemma dt_dotted : dotted_template dt_pieces.
Proof.
  intros c Hc. vm_compute in Hc. unfold dotted_char.
  repeat (destruct Hc as [Hc|Hc]; [first [discriminate Hc | injection Hc as <-; first [right; reflexivity |
    left; intro Hi; vm_compute in Hi; intuition discriminate]]|]).
  easy.
Qed.
Lemma dt_ok : httpmock_method unicode15 y_types dt_m = Ok (k_mock dt_m).
Proof. apply k_is_ok. vm_compute. reflexivity. Qed.
Lemma dt_when : when_calls (k_mock dt_m) [] = Some (k_when dt_m []).
Proof. apply k_is_some. vm_compute. reflexivity. Qed.
Lemma dt_more : matched (fun _ _ => false) (k_when dt_m []) (k_get (lit "/v1/0/b")) = true
  /\ matched (fun _ _ => false) (k_when dt_m []) (k_get (lit "/v1-0/b")) = true
  /\ matched (fun _ _ => false) (k_when dt_m []) (k_get (lit "/v2.0/b")) = false.
Proof. vm_compute. auto. Qed.

(** /{a} with 1.2. *)
Definition dv_pieces : list piece := [PLit (ch "/"); PVar (lit "a")].
Definition dv_m : op_method := k_method [CConst (lit "/"); CParam (lit "a")] [lit "a"].
Lemma dv_strict : strict dv_pieces.
Proof. split; [now exists [PVar (lit "a")]|]. literal_pieces. Qed.
Lemma dv_plain : plain_template dv_pieces.
Proof. intros c [H|[H|[]]]; [injection H as <-; intro Hi; vm_compute in Hi; intuition discriminate|discriminate H]. Qed.
Lemma dv_dotted : dotted_text (lit "1.2").
Proof.
  assert (P : forall c, ~ In c (lit "\.+*?()|[{^$") -> dotted_char c) by (intros; left; assumption).
  unfold dotted_text. change (lit "1.2") with [ch "1"; ch "."; ch "2"].
  constructor; [|constructor; [right; reflexivity|constructor; [|constructor]]]; apply P; intro Hi; vm_compute in Hi; intuition discriminate.
Qed.
Lemma dv_ok : httpmock_method unicode15 y_types dv_m = Ok (k_mock dv_m).
Proof. apply k_is_ok. vm_compute. reflexivity. Qed.
Lemma dv_when : when_calls (k_mock dv_m) [(lit "a", Some (x_value (lit "1.2")))]
  = Some (k_when dv_m [(lit "a", Some (x_value (lit "1.2")))]).
Proof. apply k_is_some. vm_compute. reflexivity. Qed.
Lemma dv_more : matched (fun _ _ => false) (k_when dv_m [(lit "a", Some (x_value (lit "1.2")))]) (k_get (lit "/1x2")) = true
  /\ matched (fun _ _ => false) (k_when dv_m [(lit "a", Some (x_value (lit "1.2")))]) (k_get (lit "/1/2")) = false.
Proof. vm_compute. auto. Qed.

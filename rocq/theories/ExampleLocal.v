(** Documents that share an operation. *)
From Coq Require Import Permutation.
From Verif Require Import Base OasModel TemplateModel MethodModel OpModel BuilderModel SanitizeModel UnicodeProofs GenerateModel
  RefSpec ResponseSpec DocSpec GenerateSpec ValidateProofs SupportSpec SupportProofs LocalSpec LocalProofs
  ExampleData ExampleBuilder ExampleGenerate ExampleSupport.
Local Open Scope N_scope.

(** The second document has a further path before the shared one, and further components. *)
Definition l_comps : components := Components
  [(lit "Trace", Item (ParHeader (x_param (lit "X-Trace") false)))] [] [(lit "Error", Item (x_json (Ref (lit "#/components/schemas/Error"))))]
  [(lit "Error", Item x_object)].
Definition l_more : components := Components
  [(lit "Page", Item (ParQuery (x_param (lit "page") false) QsForm)); (lit "Trace", Item (ParHeader (x_param (lit "X-Trace") false)))]
  [(lit "Text", Item (RequestBody None []))]
  [(lit "None", Item (ResponseDoc [])); (lit "Error", Item (x_json (Ref (lit "#/components/schemas/Error"))))]
  [(lit "Error", Item x_object); (lit "Extra", Item x_string)].
Definition l_op (id : str) (param : str) : operation :=
  Operation (Some id) [] None None [Ref (lit "#/components/parameters/" ++ param)] None None
    [(ScCode 200, Ref (lit "#/components/responses/Error"))] [].
Definition l_path (path id param : str) : str * ref_or path_item := (path, Item (y_no_ops [] (Some (l_op id param)) None)).
Definition l_doc (paths : list (str * ref_or path_item)) (c : components) : openapi :=
  OpenApi (lit "3.0.3") (lit "L") None None (lit "1") paths (Some c) [].

Definition l_one : openapi := l_doc [l_path (lit "/a") (lit "get_a") (lit "Trace")] l_comps.
Definition l_two : openapi := l_doc [l_path (lit "/b") (lit "list_b") (lit "Page"); l_path (lit "/a") (lit "get_a") (lit "Trace")] l_more.
Definition l_turned : openapi := l_doc [l_path (lit "/a") (lit "get_a") (lit "Trace"); l_path (lit "/b") (lit "list_b") (lit "Page")] l_more.
Definition l_less : openapi := l_doc [l_path (lit "/a") (lit "get_a") (lit "Trace")] l_more.

Definition l_gen (i : interface_style) (d : openapi) : outcome generated_code :=
  generate_tokens unicode15 (fun _ => Ok x_ts) y_types (y_set i Merged) d.
Definition l_code (i : interface_style) (d : openapi) : generated_code := match l_gen i d with Ok g => g | _ => y_empty end.

Lemma l_all i d : In d [l_one; l_two; l_turned; l_less] -> l_gen i d = Ok (l_code i d).
Proof.
  intros [<-|[<-|[<-|[<-|[]]]]]; apply is_ok; destruct i; vm_compute; reflexivity.
Qed.

Lemma l_shares e e' : same_place e e' -> shared_by unicode15 (fun _ => Ok x_ts) l_one l_two e e'.
Proof.
  intro Hp. split; [exact Hp| |].
  - apply within_targets; cbn [co_parameters co_request_bodies co_responses co_schemas l_comps l_more]; intros key r; cbn [assoc].
    + destruct (str_eqb key (lit "Trace")) eqn:E; [|discriminate]. apply str_eqb_spec in E as ->. now cbn.
    + discriminate.
    + destruct (str_eqb key (lit "Error")) eqn:E; [|discriminate]. apply str_eqb_spec in E as ->. now cbn.
    + destruct (str_eqb key (lit "Error")) eqn:E; [|discriminate]. apply str_eqb_spec in E as ->. now cbn.
  - intros ts ts' oid H H' _. assert (ts' = ts) as -> by congruence. split; auto.
Qed.

Definition l_e (i : nat) : doc_op := DocOp i (lit "/a") Get (l_op (lit "get_a") (lit "Trace")) [].
Definition l_b (i : nat) : doc_op := DocOp i (lit "/b") Get (l_op (lit "list_b") (lit "Page")) [].
Lemma l_orders : operations_in_order l_one [l_e 0] /\ operations_in_order l_two [l_b 0; l_e 1].
Proof. split; [exact (doc_ops_in_order l_one)|exact (doc_ops_in_order l_two)]. Qed.
Lemma l_shared : shared_by unicode15 (fun _ => Ok x_ts) l_one l_two (l_e 0) (l_e 1).
Proof. apply l_shares. repeat split. Qed.

Lemma l_pair i : l_gen i l_one = Ok (l_code i l_one) /\ l_gen i l_two = Ok (l_code i l_two)
  /\ operations_in_order l_one [l_e 0] /\ operations_in_order l_two [l_b 0; l_e 1]
  /\ shared_by unicode15 (fun _ => Ok x_ts) l_one l_two (l_e 0) (l_e 1).
Proof.
  split; [apply l_all; cbn [In]; auto|]. split; [apply l_all; cbn [In]; auto|]. split; [exact (proj1 l_orders)|].
  split; [exact (proj2 l_orders)|exact l_shared].
Qed.
Lemma l_names : map sc_name (oc_builders (ge_code (l_code Builder l_one))) = [lit "GetA"]
  /\ map sc_name (oc_builders (ge_code (l_code Builder l_two))) = [lit "ListB"; lit "GetA"]
  /\ map im_name (oc_impl (ge_code (l_code Positional l_one))) = [lit "get_a"]
  /\ map im_name (oc_impl (ge_code (l_code Positional l_two))) = [lit "list_b"; lit "get_a"].
Proof. vm_compute. auto. Qed.

Lemma l_valid : valid_document unicode15 l_less.
Proof. apply valid15. vm_compute. reflexivity. Qed.
Lemma l_less_ops e' : in_document l_less e' -> e' = l_e 0.
Proof. intro H. apply (doc_ops_in_order l_less) in H as [<-|[]]. reflexivity. Qed.
Lemma l_first : in_document l_one (l_e 0).
Proof. apply l_orders. left. reflexivity. Qed.
Lemma l_less_shares : shared_by unicode15 (fun _ => Ok x_ts) l_one l_less (l_e 0) (l_e 0).
Proof. destruct l_shared as [_ H1 H2]. split; [repeat split|exact H1|exact H2]. Qed.
Lemma l_reused : valid_document unicode15 l_less /\ forall e', in_document l_less e' -> exists d e g,
  l_gen Builder d = Ok g /\ in_document d e /\ shared_by unicode15 (fun _ => Ok x_ts) d l_less e e'.
Proof.
  split; [exact l_valid|]. intros e' He. rewrite (l_less_ops e' He). exists l_one, (l_e 0), (l_code Builder l_one).
  split; [apply l_all; left; reflexivity|]. split; [exact l_first|exact l_less_shares].
Qed.

Lemma l_paths : NoDup (map fst (oa_paths l_two)) /\ Permutation (oa_paths l_two) (oa_paths l_turned).
Proof. split; [apply NoDup_cons; [intros [H|[]]; discriminate H|apply NoDup_cons; [easy|constructor]]|apply perm_swap]. Qed.
Lemma l_part : part_of l_less l_two /\ l_gen Builder l_two = Ok (l_code Builder l_two).
Proof.
  split; [|apply l_all; cbn [In]; auto]. split; try reflexivity.
  - apply NoDup_cons; [easy|constructor].
  - intros path r [H|[]]. discriminate H.
  - intros e' He. rewrite (l_less_ops e' He). exists (l_e 1). split; [apply l_orders; right; left; reflexivity|repeat split].
Qed.

(** A type space that numbers the types in the order in which they are asked for, and generators that use it. *)
From Coq Require Import Lia.
From Verif Require Import Base OasModel TemplateModel MethodModel OpModel BuilderModel ToSchemaModel SchemaSpec TypesModel
  SanitizeModel UnicodeProofs GenerateModel GenerateSpec TypesSpec ValidateProofs CliModel MockModel
  GeneratorModel GeneratorSpec ExampleData ExamplePages ExampleGenerate ExampleCli ExampleTypes.
Local Open Scope N_scope.

(** The types that have been made, first to last. *)
Notation made_types := (list (str * jschema)).

Fixpoint m_find (s : made_types) (n : str) (i : N) : option N :=
  match s with [] => None | x :: r => if str_eqb (fst x) n then Some i else m_find r n (i + 1) end.
(** Types below 10 are those of [g_ts]. *)
Definition m_info (n : str) : type_details :=
  if str_eqb n (lit "ListThingsResponse") then TdStruct [(lit "next_page", 5); (lit "items", 4)] else TdString.
Definition m_details (s : made_types) (t : N) : option type_details :=
  if t <? 10 then ts_details g_ts t
  else match nth_error s (N.to_nat (t - 10)) with Some x => Some (m_info (fst x)) | None => None end.
Definition m_machine : typify_machine made_types :=
  TypifyMachine
    (fun s _ => (Ok tt, s))
    (fun s j n => match m_find s n 10 with
                  | Some t => (Ok t, s)
                  | None => (Ok (10 + N.of_nat (length s)), s ++ [(n, j)])
                  end)
    m_details (fun _ => y_types) (fun _ => y_ctypes).

Lemma m_find_app s s' n i t : m_find s n i = Some t -> m_find (s ++ s') n i = Some t.
Proof. revert i. induction s as [|x s IH]; cbn; intro i; [discriminate|]. destruct (str_eqb (fst x) n); auto. Qed.

Lemma m_find_new s n j i : m_find s n i = None -> m_find (s ++ [(n, j)]) n i = Some (i + N.of_nat (length s)).
Proof.
  revert i. induction s as [|x s IH]; cbn [app m_find]; intro i.
  - intros _. cbn [fst]. rewrite (proj2 (str_eqb_spec n n) eq_refl). cbn. f_equal. lia.
  - destruct (str_eqb (fst x) n); [discriminate|]. intro H. rewrite IH by exact H. f_equal. cbn [length]. lia.
Qed.

Lemma m_find_bound s n i t : m_find s n i = Some t -> i <= t /\ (N.to_nat (t - i) < length s)%nat.
Proof.
  revert i. induction s as [|x s IH]; cbn [m_find length]; intro i; [discriminate|].
  destruct (str_eqb (fst x) n); [intros [= <-]; lia|]. intro H. apply IH in H. lia.
Qed.

Lemma m_add s j n t s1 : tm_add m_machine s j n = (Ok t, s1) ->
  m_find s1 n 10 = Some t /\ exists r, s1 = s ++ r.
Proof.
  cbn. destruct (m_find s n 10) as [i|] eqn:E; intros [= <- <-].
  - split; [exact E|]. exists []. now rewrite app_nil_r.
  - split; [now apply m_find_new|]. now exists [(n, j)].
Qed.

Lemma m_later s s' : later m_machine s s' -> exists r, s' = s ++ r.
Proof.
  induction 1 as [s|s j n t s1 s2 H _ (r & ->)]; [exists []; now rewrite app_nil_r|].
  apply m_add in H as (_ & r1 & ->). exists (r1 ++ r). now rewrite app_assoc.
Qed.

Lemma m_low t : t < 10 -> forall s, m_details s t = ts_details g_ts t.
Proof. intros H s. unfold m_details. apply N.ltb_lt in H. now rewrite H. Qed.

Lemma m_low_known t : ts_details g_ts t <> None.
Proof. cbn. repeat match goal with |- context[if ?b then _ else _] => destruct b; [discriminate|] end. discriminate. Qed.

Lemma m_remembers : remembers m_machine.
Proof.
  split.
  - intros s j n t s1 s2 H L. apply m_add in H as (H & _). apply m_later in L as (r & ->).
    cbn. now rewrite (m_find_app _ _ _ _ _ H).
  - intros s j n t s1 H. apply m_add in H as (H & _). apply m_find_bound in H as (Hl & Hb). cbn. unfold m_details.
    destruct (t <? 10) eqn:E; [apply N.ltb_lt in E; lia|].
    destruct (nth_error s1 (N.to_nat (t - 10))) eqn:En; [discriminate|]. apply nth_error_None in En. lia.
  - intros s s' t x H L. apply m_later in L as (r & ->). cbn in *. unfold m_details in *. destruct (t <? 10); [exact H|].
    destruct (nth_error s _) as [y|] eqn:E; [|discriminate]. rewrite nth_error_app1; [now rewrite E|].
    apply nth_error_Some. congruence.
  - intros s t x i H Hi. cbn in *.
    assert (i < 10).
    { unfold m_details, m_info in H. destruct (t <? 10).
      - cbn in H. repeat match goal with H : context[if ?b then _ else _] |- _ => destruct b end; injection H as <-; cbn in Hi; try easy;
          repeat destruct Hi as [<-|Hi]; subst; try easy; try lia.
      - destruct (nth_error s _) as [y|]; [|discriminate]. injection H as <-. destruct (str_eqb _ _); cbn in Hi; [|easy].
        destruct Hi as [<-|[<-|[]]]; lia. }
    rewrite m_low by assumption. apply m_low_known.
Qed.

(** ** One generator for everything *)

Definition m_set (i : interface_style) : settings := y_set i Merged.
Definition m_calls : list call :=
  [CallGenerate z_doc; CallCli (y_doc (lit "ping")) (lit "sdk"); CallMock (t_doc t_schemas) (lit "sdk");
   CallGenerate (t_doc t_schemas)].
Definition m_run : list (outcome answer) * generator made_types :=
  calls_r unicode15 m_machine (fun _ => true) (m_set Builder) m_calls (new_generator []).
Definition m_answers : list answer :=
  concat (map (fun x => match x with Ok a => [a] | _ => [] end) (fst m_run)).
Definition m_last : generator made_types := snd m_run.

Lemma m_run_ok : calls_r unicode15 m_machine (fun _ => true) (m_set Builder) m_calls (new_generator [])
  = (map Ok m_answers, m_last).
Proof. vm_compute. reflexivity. Qed.

Definition m_kind (a : answer) : N := match a with AnsClient _ => 0 | AnsCli _ => 1 | AnsMock _ => 2 end.
Lemma m_kinds : map m_kind m_answers = [0; 1; 2; 0].
Proof. vm_compute. reflexivity. Qed.

(** The names of the types, in the order in which they were made. *)
Lemma m_names : map fst (gr_space m_last) =
  [lit "ListThingsFilter"; lit "ListThingsId"; lit "ListThingsLimit"; lit "ListThingsPageToken"; lit "ListThingsResponse";
   lit "GetItemXId"; lit "GetItemId"; lit "GetItemQ"; lit "GetItemResponse";
   lit "PutItemXId"; lit "PutItemId"; lit "PutItemQ"; lit "PutItemResponse"; lit "PingXId"; lit "PingQ";
   lit "MakeThingId"; lit "MakeThingMax"; lit "MakeThingBody"; lit "MakeThingResponse"].
Proof. vm_compute. reflexivity. Qed.

(** The flags are those of the first two documents. *)
Lemma m_flags : gr_futures m_last = true /\ gr_websockets m_last = true.
Proof. vm_compute. auto. Qed.

Definition m_code : generated_code :=
  match rev m_answers with AnsClient c :: _ => c | _ => y_empty end.
Lemma m_last_answer : exists before, m_answers = before ++ [AnsClient m_code].
Proof. exists (removelast m_answers). vm_compute. reflexivity. Qed.
Lemma m_code_flags : ge_futures m_code = true /\ ge_websockets m_code = true.
Proof. vm_compute. auto. Qed.

Lemma no_stream c : existsb is_stream (oc_impl c) = false ->
  existsb (fun s => match bc_stream (sc_code s) with Some _ => true | None => false end) (oc_builders c) = false -> ~ streams c.
Proof.
  intros H1 H2 [H|H]; apply Exists_exists in H as (x & Hin & Hx).
  - rewrite (proj2 (existsb_exists _ _)) in H1; [discriminate|eauto].
  - rewrite (proj2 (existsb_exists _ _)) in H2; [discriminate|]. exists x. split; [exact Hin|]. now destruct (bc_stream (sc_code x)).
Qed.
Lemma m_no_stream : ~ streams (ge_code m_code).
Proof. apply no_stream; vm_compute; reflexivity. Qed.

Lemma m_no_websocket : ~ has_websockets (t_doc t_schemas).
Proof.
  intros (e & He & H). apply (proj1 (doc_ops_in_order (t_doc t_schemas))) in He. destruct He as [<-|[]]. now apply H.
Qed.

(** ** One call *)

Definition m_one (s : settings) (c : call) (g : generator made_types) : answer * generator made_types :=
  match call_r unicode15 m_machine (fun _ => true) s c g with (Ok a, g') => (a, g') | (_, g') => (AnsClient y_empty, g') end.
Lemma m_one_ok s c g : match fst (call_r unicode15 m_machine (fun _ => true) s c g) with Ok _ => true | _ => false end = true ->
  call_r unicode15 m_machine (fun _ => true) s c g = (Ok (fst (m_one s c g)), snd (m_one s c g)).
Proof. unfold m_one. destruct (call_r unicode15 m_machine (fun _ => true) s c g) as [[]]; easy. Qed.

Definition m_client (d : openapi) : generated_code * generator made_types :=
  match generate_tokens_r unicode15 m_machine (m_set Positional) d (Generator [] true false) with
  | (Ok a, g') => (a, g') | (_, g') => (y_empty, g') end.
Lemma m_client_ok : generate_tokens_r unicode15 m_machine (m_set Positional) (y_doc (lit "ping")) (Generator [] true false)
  = (Ok (fst (m_client (y_doc (lit "ping")))), snd (m_client (y_doc (lit "ping")))).
Proof. vm_compute. reflexivity. Qed.

Lemma m_one_is_ok :
  match fst (call_r unicode15 m_machine (fun _ => true) (m_set Builder) (CallGenerate (t_doc t_schemas)) (new_generator [])) with
  | Ok _ => true | _ => false end = true.
Proof. vm_compute. reflexivity. Qed.

Definition m_cli : cli_code * generator made_types :=
  match cli_r unicode15 m_machine (fun _ => true) (y_doc (lit "ping")) (lit "sdk") (new_generator []) with
  | (Ok a, g') => (a, g') | (_, g') => (CliCode [] [] [] [] [], g') end.
Lemma m_cli_ok : cli_r unicode15 m_machine (fun _ => true) (y_doc (lit "ping")) (lit "sdk") (new_generator [])
  = (Ok (fst m_cli), snd m_cli).
Proof. vm_compute. reflexivity. Qed.
Definition m_mock : mock_code * generator made_types :=
  match httpmock_r unicode15 m_machine (fun _ => true) (t_doc t_schemas) (lit "sdk") (new_generator []) with
  | (Ok a, g') => (a, g') | (_, g') => (MockCode [] [], g') end.
Lemma m_mock_ok : httpmock_r unicode15 m_machine (fun _ => true) (t_doc t_schemas) (lit "sdk") (new_generator [])
  = (Ok (fst m_mock), snd m_mock).
Proof. vm_compute. reflexivity. Qed.

Lemma m_sticky : exists cs before last d g',
  calls_r unicode15 m_machine (fun _ => true) (m_set Builder) (cs ++ [CallGenerate d]) (new_generator [])
    = (map Ok (before ++ [AnsClient last]), g')
  /\ gr_futures g' = true /\ ~ streams (ge_code last) /\ gr_websockets g' = true /\ ~ has_websockets d.
Proof.
  destruct m_last_answer as (before & Hb).
  exists [CallGenerate z_doc; CallCli (y_doc (lit "ping")) (lit "sdk"); CallMock (t_doc t_schemas) (lit "sdk")], before, m_code, (t_doc t_schemas), m_last.
  rewrite <- Hb. split; [exact m_run_ok|]. split; [exact (proj1 m_flags)|]. split; [exact m_no_stream|]. split; [exact (proj2 m_flags)|exact m_no_websocket].
Qed.

(** ** Types that share a name *)

(** A parameter called [body] beside a body, and two answers in JSON. *)
Definition c_op : operation := Operation
  (Some (lit "make")) [] None None
  [Item (ParQuery (ParamData (lit "body") None true (Some (Item x_string)) None) QsForm)]
  (Some (Item (RequestBody None [(lit "application/json", MediaType (Some (Item x_object)) true)])))
  None
  [(ScCode 200, Item (x_json (Item x_string))); (ScCode 404, Item (x_json (Item x_object)))] [].
Definition c_doc : openapi :=
  OpenApi (lit "3.0.1") (lit "T") None None (lit "1.0") [(lit "/make", Item (y_no_ops [] None (Some c_op)))] None [].
Definition c_e : doc_op := DocOp 0 (lit "/make") Put c_op [].
Definition c_ws : list (str * ref_or schema) :=
  [(pascal unicode15 (lit "make" ++ lit "-body"), Item x_string); (pascal unicode15 (lit "make" ++ lit "-body"), Item x_object);
   (pascal unicode15 (lit "make" ++ lit "-response"), Item x_string); (pascal unicode15 (lit "make" ++ lit "-response"), Item x_object)].

Lemma c_in : in_document c_doc c_e.
Proof. apply (proj1 (doc_ops_in_order c_doc)). left. reflexivity. Qed.

Lemma c_needs : needs unicode15 c_doc c_e c_ws.
Proof.
  assert (Hs : forall s, of_response unicode15 (oa_components c_doc) (lit "make") (Item (x_json s))
                 [(pascal unicode15 (lit "make" ++ lit "-response"), s)]).
  { intro s. apply (or_typed _ _ _ _ (x_json s) [] (lit "application/json") (MediaType (Some s) true) []); try reflexivity; constructor. reflexivity. }
  exists (lit "make"), [], [ParQuery (ParamData (lit "body") None true (Some (Item x_string)) None) QsForm],
    [ParQuery (ParamData (lit "body") None true (Some (Item x_string)) None) QsForm].
  exists [(pascal unicode15 (lit "make" ++ lit "-body"), Item x_string)], [(pascal unicode15 (lit "make" ++ lit "-body"), Item x_object)],
    [[(pascal unicode15 (lit "make" ++ lit "-response"), Item x_string)]; [(pascal unicode15 (lit "make" ++ lit "-response"), Item x_object)]].
  split; [reflexivity|]. split; [constructor|]. split; [repeat constructor|]. split; [|split; [|split; [|split; [|split]]]].
  - intro p. split.
    + intros [<-|[]]. left. exists [], []. split; [reflexivity|]. intros [].
    + intros [(pre & post & E & _)|((pre & post & E & _) & _)]; [|destruct pre; discriminate E].
      destruct pre as [|x pre]; [injection E as <- _; now left|destruct pre; discriminate E].
  - repeat constructor.
  - constructor; [|constructor]. split; reflexivity.
  - apply (ob_typed _ _ _ _ (RequestBody None [(lit "application/json", MediaType (Some (Item x_object)) true)])
             (lit "application/json") (lit "application/json") (MediaType (Some (Item x_object)) true) (Item x_object) Json); try reflexivity; try constructor.
    + vm_compute. intuition discriminate.
    + exists []. split; [reflexivity|now left].
    + reflexivity.
  - constructor; [apply Hs|constructor; [apply Hs|constructor]].
  - reflexivity.
Qed.

Lemma c_generated : exists c g', generate_tokens_r unicode15 m_machine (m_set Builder) c_doc (new_generator []) = (Ok c, g').
Proof.
  assert (H : match fst (generate_tokens_r unicode15 m_machine (m_set Builder) c_doc (new_generator [])) with Ok _ => true | _ => false end = true)
    by (vm_compute; reflexivity).
  destruct (generate_tokens_r unicode15 m_machine (m_set Builder) c_doc (new_generator [])) as [[c| |] g']; try discriminate H. eauto.
Qed.
Lemma c_shared : exists d e ws n n' s1 s2 s3 s4,
  (exists c g', generate_tokens_r unicode15 m_machine (m_set Builder) d (new_generator []) = (Ok c, g'))
  /\ in_document d e /\ needs unicode15 d e ws
  /\ ws = [(n, s1); (n, s2); (n', s3); (n', s4)] /\ s1 <> s2 /\ s3 <> s4.
Proof.
  exists c_doc, c_e, c_ws. do 6 eexists. split; [exact c_generated|]. split; [exact c_in|]. split; [exact c_needs|].
  split; [reflexivity|]. split; discriminate.
Qed.

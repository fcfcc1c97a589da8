(** Documents that are refused with an error, and one of each kind with no other reason. *)
From Verif Require Import Base OasModel TemplateSpec MethodModel OpModel BuilderModel SanitizeModel UnicodeProofs
  GenerateModel RefSpec RefProofs ResponseSpec ParamSpec DocSpec GenerateSpec ValidateProofs SupportSpec SupportProofs FailSpec FailProofs
  ExampleData ExampleBuilder ExampleGenerate ExampleSupport.
Local Open Scope N_scope.

Definition v_gen (i : interface_style) (d : openapi) : outcome generated_code :=
  generate_tokens unicode15 (fun _ => Ok x_ts) x_types (y_set i Merged) d.

(** What is wrong, the document, and the error. *)
Definition v_cases : list (openapi * error) :=
  [ (* a parameter described by content *)
    (w_doc (lit "/w") [Item (ParHeader (ParamData (lit "h") None true None None))] None w_ok [],
     UnexpectedFormat (lit "unexpected content"));
    (* a cookie *)
    (w_doc (lit "/w") [Item (ParCookie (x_param (lit "c") true))] None w_ok [],
     UnexpectedFormat (lit "cookie parameters are not supported"));
    (* unsupported styles *)
    (w_doc (lit "/w/{a}") [Item (ParPath (x_param (lit "a") true) PsMatrix)] None w_ok [],
     UnexpectedFormat (lit "unsupported style of path parameter"));
    (w_doc (lit "/w") [Item (ParQuery (x_param (lit "q") true) QsDeepObject)] None w_ok [],
     UnexpectedFormat (lit "unsupported style of query parameter"));
    (* a body without schema, in an unknown media type, of bytes that are not *)
    (w_doc (lit "/w") [] (w_body [(w_json, MediaType None true)]) w_ok [],
     UnexpectedFormat (lit "No schema specified for request body"));
    (w_doc (lit "/w") [] (w_body [(lit "image/png", MediaType (Some (Item x_string)) true)]) w_ok [],
     UnexpectedFormat (lit "unexpected content type: image/png"));
    (w_doc (lit "/w") [] (w_body [(lit "application/octet-stream", MediaType (Some (Item x_object)) true)]) w_ok [],
     UnexpectedFormat (lit "invalid schema for application/octet-stream"));
    (w_doc (lit "/w") [] (w_body [(lit "text/plain", MediaType (Some (Item x_object)) true)]) w_ok [],
     UnexpectedFormat (lit "invalid schema for text/plain"))].
Lemma v_all : Forall (fun c => v_gen Builder (fst c) = Err (snd c)) v_cases.
Proof. unfold v_cases, v_gen. repeat (apply Forall_cons; [vm_compute; reflexivity|]). apply Forall_nil. Qed.

(** ** One reason and no other *)

Definition v_doc (path : str) (p : parameter) : openapi := w_doc path [Item p] None w_ok [].
Definition v_op (p : parameter) : operation := Operation (Some (lit "w")) [] None None [Item p] None None w_ok [].
Definition v_comps : option components := Some (Components [(lit "loop", Ref (lit "#/components/parameters/loop"))] [] [] []).

Lemma v_one path p o : in_document (v_doc path p) o -> do_op o = v_op p /\ do_path o = path /\ do_params o = [].
Proof.
  intro H. apply (doc_ops_in_order (v_doc path p)) in H. cbn in H. destruct H as [<-|[]]. auto.
Qed.
Lemma v_ordinary path p e : in_document (v_doc path p) e -> ordinary (do_op e).
Proof. intro H. apply v_one in H as (-> & _). now apply ordinary_iff. Qed.

Lemma v_counts p q : counts v_comps [] (op_parameters (v_op p)) q <-> q = p.
Proof.
  split.
  - intros [others mine H1 H2 He]. inversion H1; subst. inversion H2 as [|? a ? l Ha Hl]; subst. inversion Hl; subst.
    inversion Ha; subst. destruct He as [(pre & post & E & _)|((pre & post & E & _) & _)].
    + destruct pre as [|? [|? ?]]; cbn in E; [injection E as ->; reflexivity|discriminate|discriminate].
    + destruct pre; discriminate.
  - intros ->. apply (counts_intro _ _ _ _ [] [p]); [constructor|repeat constructor|].
    left. exists [], []. split; [reflexivity|easy].
Qed.
Lemma v_no_body p cs mt : ~ only_media v_comps (op_request_body (v_op p)) cs mt.
Proof. intro H. inversion H. Qed.
Lemma v_answer p key r : doc_entry (v_op p) key r -> key = SCode 204 /\ r = Item (ResponseDoc []).
Proof.
  intro H. inversion H as [? E|c ? Hi|n ? Hi]; subst; [discriminate| |]; cbn in Hi; destruct Hi as [E|[]]; try discriminate.
  injection E as <- <-. auto.
Qed.
Lemma v_no_json p mt : ~ json_answer v_comps (v_op p) mt.
Proof.
  intros [key r doc pre n mt' post He Hr Hc _ _]. apply v_answer in He as (_ & ->). inversion Hr; subst.
  destruct pre; discriminate.
Qed.
Lemma v_table p table : response_table (GenerateSpec.pascal unicode15) x_ts v_comps (v_op p) false table ->
  forall key k, In (key, k) table -> key = SCode 204 /\ k = RNone.
Proof.
  intros (oid & _ & Ht) key k Hi. apply Ht in Hi as (r & doc & He & Hr & Hb). apply v_answer in He as (-> & ->).
  inversion Hr; subst. split; [reflexivity|]. inversion Hb; subst; cbn in *; try reflexivity; try easy.
  destruct pre; discriminate.
Qed.

(** A cookie: nothing to panic about. *)
Definition v_cookie : parameter := ParCookie (x_param (lit "c") true).
Lemma v_cookie_no_panic msg : ~ panic_reason unicode15 (fun _ => Ok x_ts) x_types (y_set Builder Merged) (v_doc (lit "/w") v_cookie) msg.
Proof.
  intros [_ H _|m _ H|ts o oid m _ [= <-] Ho Hoid Hc]; [discriminate|discriminate|].
  apply v_one in Ho as (E1 & E2 & E3). rewrite E1, E2, E3 in Hc. clear Hoid E1 E2 E3.
  assert (Hps : forall ps, lit "/w" = show ps -> lax ps -> vars ps = []).
  { intros ps Hp Hl. destruct (proj2 (TemplateProofs.parse_accepts_iff (lit "/w"))) as (tmp & Ht); [eauto|].
    rewrite Hp in Ht. rewrite <- (TemplateProofs.parse_names ps tmp Hl Ht). rewrite <- Hp in Ht. vm_compute in Ht. injection Ht as <-. reflexivity. }
  assert (Hpass : forall x t r, ~ passed (GenerateSpec.snake unicode15) (GenerateSpec.pascal unicode15) x_ts v_comps (v_op v_cookie) [] oid x t r).
  { intros x t r [p t' r' Hp Ht|cs mt ct t' Ho _ _]; [|exact (v_no_body _ _ _ Ho)]. apply v_counts in Hp. subst p. inversion Ht. }
  assert (Hts : forall sch tn, typed_schema (GenerateSpec.pascal unicode15) v_comps (v_op v_cookie) [] oid sch tn -> sch = Item x_string).
  { intros sch tn [p s Hp Es|cs mt s ct Ho _ _ _|mt s Hj _]; [|now elim (v_no_body _ _ _ Ho)|now elim (v_no_json _ _ Hj)].
    apply v_counts in Hp. subst p. now injection Es. }
  destruct Hc as [m Hc|ps n Hp Hl Hn Hno|tab Ht Hn|tab key Ht Hk Hb Hd|x t r Hi Hp Hk|x t info Hi Hp Hk Hb Hno|x t info Hi Hp Hk Hb].
  - destruct Hc as [r m Hi Hb|r m Er Hb|cs mt ct sch m Ho Hm Hk Es Hb|key r m He Hb|d st Hp Er|p q ps Hp Hq Hpp Hqp Hne _ Hl Hni
      |r b Er Hr Hlen|cs mt ct Ho Hm Hk Ee|mt Hj Ee|mt Hj Es|sch tn m Hs Ha|d st sch t Hp Es Ha Hd].
    + destruct Hi as [<-|[]]. apply (Hb v_cookie). constructor.
    + discriminate.
    + exact (v_no_body _ _ _ Ho).
    + apply v_answer in He as (_ & ->). apply (Hb (ResponseDoc [])). constructor.
    + apply v_counts in Hp. discriminate.
    + apply v_counts in Hp, Hq. congruence.
    + discriminate.
    + exact (v_no_body _ _ _ Ho).
    + exact (v_no_json _ _ Hj).
    + exact (v_no_json _ _ Hj).
    + apply Hts in Hs. subst sch. discriminate.
    + apply v_counts in Hp. discriminate.
  - rewrite (Hps ps Hp Hl) in Hn. exact Hn.
  - pose proof (v_table _ _ Ht) as Hv. apply Hn. split.
    + enough (H : forall k, success_entry (v_op v_cookie) false tab k -> k = RNone) by (intros k k' Hk Hk'; rewrite (H k Hk), (H k' Hk'); reflexivity).
      intros k [c k' Hi _|k' Hi|k' Hi _|Hd|Hd]; try (now apply Hv in Hi); [|discriminate].
      elim Hd. left. exists 204, RNone. split; [|split; vm_compute; congruence].
      destruct Ht as (o' & _ & Ht). apply Ht. exists (Item (ResponseDoc [])), (ResponseDoc []).
      split; [constructor; left; reflexivity|]. split; [constructor|]. now apply bk_none.
    + intros k k' Hk _. exfalso. destruct Hk as [c k Hi Hc|n k Hi _|k Hi]; apply Hv in Hi as (E & _); try discriminate.
      injection E as ->. destruct Hc as [Hc _]. now apply Hc.
  - apply (v_table _ _ Ht) in Hk as (_ & E). discriminate.
  - now apply Hpass in Hp.
  - now apply Hpass in Hp.
  - now apply Hpass in Hp.
Qed.
Lemma v_cookie_error : error_reason unicode15 (fun _ => Ok x_ts) x_types (y_set Builder Merged) (v_doc (lit "/w") v_cookie)
  (UnexpectedFormat (lit "cookie parameters are not supported")).
Proof.
  assert (Hv : valid_document unicode15 (v_doc (lit "/w") v_cookie)) by (apply valid15; vm_compute; reflexivity).
  assert (Ho : exists o, in_document (v_doc (lit "/w") v_cookie) o).
  { destruct (doc_ops 0 (oa_paths (v_doc (lit "/w") v_cookie))) as [|o l] eqn:E; [discriminate|]. exists o.
    apply (doc_ops_in_order (v_doc (lit "/w") v_cookie)). rewrite E. now left. }
  destruct Ho as (o & Ho). destruct (v_one _ _ _ Ho) as (E1 & E2 & E3).
  apply (rr_operation _ _ _ _ _ x_ts o (lit "w") _ Hv eq_refl Ho); [now rewrite E1|].
  rewrite E1, E2, E3. apply er_made. apply (er_cookie _ _ _ _ _ _ _ (x_param (lit "c") true)). now apply v_counts.
Qed.

(** A path parameter that may be omitted: nothing to return an error about. *)
Definition v_optional : parameter := ParPath (x_param (lit "a") false) PsSimple.
Lemma v_optional_no_error e :
  ~ error_reason unicode15 (fun _ => Ok x_ts) x_types (y_set Builder Merged) (v_doc (lit "/w/{a}") v_optional) e.
Proof.
  assert (Hv : valid_document unicode15 (v_doc (lit "/w/{a}") v_optional)) by (apply valid15; vm_compute; reflexivity).
  intros [x Hn|e' _ H|ts o oid e' _ [= <-] Ho Hoid Hc]; [exact (Hn Hv)|discriminate|].
  apply v_one in Ho as (E1 & E2 & E3). rewrite E1, E2, E3 in Hc. clear Hoid E1 E2 E3 Hv.
  destruct Hc as [e1 [p Hp Es|d Hp|d st Hp Hst|d st Hp Hst|cs mt Ho Es|cs mt Ho Hno|cs mt sch x Ho Hm Es Hx Hb|cs mt mime sch x Ho Hm Es Hx Hb
    |s Hno|H1 H2|sch tn e2 Hs Ha]|x t r Hi Hp Hk].
  - apply v_counts in Hp. subst p. discriminate.
  - apply v_counts in Hp. discriminate.
  - apply v_counts in Hp. apply Hst. unfold v_optional in Hp. congruence.
  - apply v_counts in Hp. discriminate.
  - exact (v_no_body _ _ _ Ho).
  - exact (v_no_body _ _ _ Ho).
  - exact (v_no_body _ _ _ Ho).
  - exact (v_no_body _ _ _ Ho).
  - assert (Hp : exists t, TemplateModel.parse (lit "/w/{a}") = Ok t) by (eexists; vm_compute; reflexivity).
    destruct (proj1 (TemplateProofs.parse_accepts_iff (lit "/w/{a}")) Hp) as (ps & Hps & Hl). exact (Hno ps Hps Hl).
  - destruct H1.
  - destruct Hs as [p s Hp Es|cs mt s ct Ho _ _ _|mt s Hj _]; [|now elim (v_no_body _ _ _ Ho)|now elim (v_no_json _ _ Hj)].
    apply v_counts in Hp. subst p. injection Es as <-. discriminate.
  - destruct Hp as [p t' r' Hp Ht|cs mt ct t' Ho _ _]; [|exact (v_no_body _ _ _ Ho)]. apply v_counts in Hp. subst p. inversion Ht. discriminate.
Qed.
Definition v_optional_text : str := match v_gen Builder (v_doc (lit "/w/{a}") v_optional) with Panic m => m | _ => [] end.
Lemma v_optional_panic : panic_reason unicode15 (fun _ => Ok x_ts) x_types (y_set Builder Merged) (v_doc (lit "/w/{a}") v_optional) v_optional_text.
Proof.
  assert (Hv : valid_document unicode15 (v_doc (lit "/w/{a}") v_optional)) by (apply valid15; vm_compute; reflexivity).
  assert (Ho : exists o, in_document (v_doc (lit "/w/{a}") v_optional) o).
  { destruct (doc_ops 0 (oa_paths (v_doc (lit "/w/{a}") v_optional))) as [|o l] eqn:E; [discriminate|]. exists o.
    apply (doc_ops_in_order (v_doc (lit "/w/{a}") v_optional)). rewrite E. now left. }
  destruct Ho as (o & Ho). destruct (v_one _ _ _ Ho) as (E1 & E2 & E3).
  apply (pr_operation _ _ _ _ _ x_ts o (lit "w") _ Hv eq_refl Ho); [now rewrite E1|].
  rewrite E1, E2, E3. vm_compute v_optional_text. apply pn_made. apply (pn_optional _ _ _ _ _ _ _ (x_param (lit "a") false) PsSimple); [now apply v_counts|reflexivity].
Qed.

Lemma v_cookie_err : v_gen Builder (v_doc (lit "/w") v_cookie) = Err (UnexpectedFormat (lit "cookie parameters are not supported")).
Proof. vm_compute. reflexivity. Qed.
Lemma v_optional_panics : v_gen Builder (v_doc (lit "/w/{a}") v_optional) = Panic v_optional_text.
Proof. vm_compute. reflexivity. Qed.
Lemma v_both :
  Forall (fun c => v_gen Builder (fst c) = Err (snd c) /\ forall e, in_document (fst c) e -> codes_valid (do_op e)) v_cases
  /\ Forall (fun c => w_panics (fst c) (snd c) /\ forall e, in_document (fst c) e -> codes_valid (do_op e)) w_cases
  /\ elements_known x_ts x_types /\ length v_cases = 8%nat /\ length w_cases = 14%nat.
Proof.
  split; [|split; [|split; [exact x_elements|split; reflexivity]]].
  - apply Forall_and; [exact v_all|]. unfold v_cases.
    repeat (apply Forall_cons; [intros e He; refine (proj1 (ordinary_doc _ _ e He)); vm_compute; reflexivity|]). apply Forall_nil.
  - apply Forall_and; [exact w_all|]. eapply Forall_impl; [|exact w_all_valid]. intros c (_ & H) e He. exact (proj1 (H e He)).
Qed.

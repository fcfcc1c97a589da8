(** Documents that are valid and make the generator panic. *)
From Verif Require Import Base OasModel TemplateModel MethodModel OpModel RunModel BuilderModel SanitizeModel UnicodeProofs
  GenerateModel ResponseSpec DocSpec GenerateSpec ValidateProofs SupportSpec SupportProofs ExampleData ExampleBuilder ExampleGenerate.
Local Open Scope N_scope.

Lemma valid15 d : validate_openapi unicode15 d = Ok tt <-> valid_document unicode15 d.
Proof. exact (validate_iff unicode15 (proj1 y_space) (proj1 (proj2 y_space)) d). Qed.

(** The document of C60 meets the assumptions. *)
Definition ordinary_b (op : operation) : bool :=
  forallb (fun cr => match fst cr with ScCode c => c <? 1000 | ScRange n => n <? 10 end) (op_responses op)
  && negb (mem (lit "x-dropshot-websocket") (map fst (op_extensions op))
           && mem (lit "x-dropshot-pagination") (map fst (op_extensions op))).
Lemma ordinary_iff op : ordinary_b op = true -> ordinary op.
Proof.
  unfold ordinary_b. rewrite andb_true_iff, forallb_forall, negb_true_iff. intros (H1 & H2). split; [split|].
  - intros c r Hi. specialize (H1 _ Hi). cbn in H1. now apply N.ltb_lt.
  - intros n r Hi. specialize (H1 _ Hi). cbn in H1. now apply N.ltb_lt.
  - intros (Ha & Hb). apply Base.mem_spec in Ha, Hb. rewrite Ha, Hb in H2. discriminate.
Qed.
Lemma ordinary_doc d : forallb (fun e => ordinary_b (do_op e)) (doc_ops 0 (oa_paths d)) = true ->
  forall e, in_document d e -> ordinary (do_op e).
Proof.
  intros H e He. rewrite forallb_forall in H. apply ordinary_iff, H. now apply (doc_ops_in_order d).
Qed.
Lemma y_ordinary e : in_document (y_doc (lit "ping")) e -> ordinary (do_op e).
Proof. apply ordinary_doc. vm_compute. reflexivity. Qed.
Lemma x_elements : elements_known x_ts x_types.
Proof.
  intros t i H. unfold x_ts in H. cbn in H.
  repeat match type of H with context[if ?b then _ else _] => destruct b end; discriminate.
Qed.

(** One operation at one path. *)
Definition w_doc (path : str) (params : list (ref_or parameter)) (body : option (ref_or request_body))
    (rs : list (status_code * ref_or response_doc)) (ext : list (str * json)) : openapi :=
  OpenApi (lit "3.0.3") (lit "W") None None (lit "1.0")
    [(path, Item (y_no_ops [] None (Some (Operation (Some (lit "w")) [] None None params body None rs ext))))]
    (Some (Components [(lit "loop", Ref (lit "#/components/parameters/loop"))] [] [] [])) [].
Definition w_path (n : str) (required : bool) : ref_or parameter := Item (ParPath (x_param n required) PsSimple).
Definition w_body (l : list (str * media_type)) : option (ref_or request_body) := Some (Item (RequestBody None l)).
Definition w_json : str := lit "application/json".
Definition w_ok : list (status_code * ref_or response_doc) := [(ScCode 204, Item (ResponseDoc []))].

(** What is wrong, the document, and the message. *)
Definition w_cases : list (openapi * str) :=
  [ (* a reference to a parameter that does not exist *)
    (w_doc (lit "/w") [Ref (lit "#/components/parameters/none")] None w_ok [], lit "key none is missing");
    (* a reference to itself *)
    (w_doc (lit "/w") [Ref (lit "#/components/parameters/loop")] None w_ok [], lit "stack overflow");
    (* a path parameter that is not required *)
    (w_doc (lit "/w/{a}") [w_path (lit "a") false] None w_ok [], lit "assertion failed: parameter_data.required");
    (* a placeholder without parameter *)
    (w_doc (lit "/w/{a}") [] None w_ok [], lit "missing path name mapping a");
    (* a path parameter without placeholder *)
    (w_doc (lit "/w/{a}") [w_path (lit "a") true; w_path (lit "b") true] None w_ok [], lit "b missing from path");
    (* a body in two media types *)
    (w_doc (lit "/w") [] (w_body [(w_json, MediaType (Some (Item x_object)) true);
                                  (lit "text/plain", MediaType (Some (Item x_string)) true)]) w_ok [],
     lit "not yet implemented: more media types than expected");
    (* an encoding for a body *)
    (w_doc (lit "/w") [] (w_body [(w_json, MediaType (Some (Item x_object)) false)]) w_ok [],
     lit "not yet implemented: media type encoding not empty");
    (* a JSON response without schema *)
    (w_doc (lit "/w") [] None [(ScCode 200, Item (ResponseDoc [(w_json, MediaType None true)]))] [],
     lit "not yet implemented: media type encoding, no schema");
    (* an encoding for a response *)
    (w_doc (lit "/w") [] None [(ScCode 200, Item (ResponseDoc [(w_json, MediaType (Some (Item x_object)) false)]))] [],
     lit "assertion failed: mt.encoding.is_empty()");
    (* two types of success *)
    (w_doc (lit "/w") [] None [(ScCode 200, Item (x_json (Item x_string))); (ScCode 201, Item (x_json (Item x_object)))] [],
     lit "assertion failed: response_types.len() <= 1");
    (* two types of failure *)
    (w_doc (lit "/w") [] None [(ScCode 204, Item (ResponseDoc [])); (ScCode 400, Item (x_json (Item x_string)));
                               (ScRange 5, Item (x_json (Item x_object)))] [],
     lit "assertion failed: response_types.len() <= 1");
    (* an upgrade without documented success *)
    (w_doc (lit "/w") [] None [(ScCode 101, Item (ResponseDoc []))] [(lit "x-dropshot-websocket", JNull)],
     lit "assertion failed: response_types.len() <= 1");
    (* a documented failure of an upgrade *)
    (w_doc (lit "/w") [] None [(ScCode 200, Item (ResponseDoc [])); (ScCode 400, Item (ResponseDoc []))]
       [(lit "x-dropshot-websocket", JNull)],
     lit "not yet implemented: non-default error response handling for upgrade requests is not yet implemented");
    (* a query parameter that is an object, in a builder *)
    (w_doc (lit "/w") [Item (ParQuery (ParamData (lit "f") None true (Some (Item x_object)) None) QsForm)] None w_ok [],
     lit "assertion `left == right` failed")].

Definition w_panics (d : openapi) (msg : str) : Prop :=
  generate_tokens unicode15 (fun _ => Ok x_ts) x_types (y_set Builder Merged) d = Panic msg.
Lemma w_all : Forall (fun c => w_panics (fst c) (snd c)) w_cases.
Proof. unfold w_cases, w_panics. repeat (apply Forall_cons; [vm_compute; reflexivity|]). apply Forall_nil. Qed.
Lemma w_all_valid : Forall (fun c => valid_document unicode15 (fst c)
  /\ forall e, in_document (fst c) e -> ordinary (do_op e)) w_cases.
Proof.
  unfold w_cases. repeat (apply Forall_cons; [split; [apply valid15; vm_compute; reflexivity|apply ordinary_doc; vm_compute; reflexivity]|]).
  apply Forall_nil.
Qed.

Definition w_gen : generated_code :=
  match generate_tokens unicode15 (fun _ => Ok x_ts) x_types (y_set Builder Separate) (y_doc (lit "ping")) with
  | Ok g => g | _ => y_empty end.
Lemma w_generated : generate_tokens unicode15 (fun _ => Ok x_ts) x_types (y_set Builder Separate) (y_doc (lit "ping")) = Ok w_gen.
Proof. apply is_ok. vm_compute. reflexivity. Qed.

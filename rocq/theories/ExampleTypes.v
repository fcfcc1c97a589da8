(** A client whose types come from typify, and documents typify never gets to see. *)
From Verif Require Import Base OasModel TemplateModel MethodModel OpModel ToSchemaModel SchemaSpec TypesModel
  SanitizeModel UnicodeProofs GenerateModel GenerateSpec TypesSpec ValidateProofs ExampleData ExampleGenerate.
Local Open Scope N_scope.

(** Types: 1 for references, 2 for strings, 3 for objects, 4 for whole numbers, 5 for whole numbers or null. *)
Definition t_ty : typify :=
  Typify
    (fun j _ => match j with
                | JsObject o =>
                    match so_reference o, so_instance_type o with
                    | Some _, _ => Ok 1
                    | _, Some (Single IString) => Ok 2
                    | _, Some (Single IObject) => Ok 3
                    | _, Some (Single IInteger) => Ok 4
                    | _, Some (Many _) => Ok 5
                    | _, _ => Err (TypeError (lit "unsupported"))
                    end
                | _ => Err (TypeError (lit "unsupported"))
                end)
    (fun t => if t =? 2 then Some TdString else if t =? 5 then Some (TdOption 4) else Some TdOther).
Definition t_refs (js : list (str * jschema)) : outcome typify := Ok t_ty.

Definition t_int (nullable : bool) : schema :=
  Schema (SchemaData nullable false false false None None None false None [])
    (SkInteger (IntegerType VEmpty None false false (Some 1%Z) (Some 100%Z) [])).

(** POST /things/{id} with a nullable query parameter and a JSON body. *)
Definition t_op : operation := Operation
  (Some (lit "make_thing")) [] None None
  [Item (ParQuery (ParamData (lit "max") None true (Some (Item (t_int true))) None) QsForm);
   Item (ParPath (ParamData (lit "id") None true (Some (Item (t_int false))) None) PsSimple)]
  (Some (Item (RequestBody None [(lit "application/json", MediaType (Some (Item x_object)) true)])))
  None
  [(ScCode 201, Item (x_json (Ref (lit "#/components/schemas/Error"))))] [].
Definition t_doc (schemas : list (str * ref_or schema)) : openapi :=
  OpenApi (lit "3.0.1") (lit "T") None None (lit "1.0")
    [(lit "/things/{id}", Item (y_no_ops [] None (Some t_op)))]
    (Some (Components [] [] [] schemas)) [].
Definition t_schemas : list (str * ref_or schema) := [(lit "Error", Item x_object)].

Definition t_gen : generated_code :=
  match generate_tokens unicode15 (add_converted t_refs) y_types (y_set Positional Merged) (t_doc t_schemas) with
  | Ok g => g | _ => y_empty end.
Lemma t_generated :
  generate_tokens unicode15 (add_converted t_refs) y_types (y_set Positional Merged) (t_doc t_schemas) = Ok t_gen.
Proof. apply is_ok. vm_compute. reflexivity. Qed.

(** The method: the nullable parameter [max], required in the document, is an optional number. *)
Lemma t_shape :
  match process_operation (snake unicode15) (pascal unicode15) (space_of t_ty) t_op
          (oa_components (t_doc t_schemas)) (lit "/things/{id}") (lit "post") [] with
  | Ok m => map (fun q => (p_name q, p_typ q, is_required (p_kind q))) (m_params m)
              = [(lit "id", PType 4, true); (lit "max", PType 4, false); (lit "body", PType 3, true)]
            /\ map o_typ (m_responses m) = [RType 1]
  | _ => False
  end.
Proof. vm_compute. auto. Qed.

(** A component that is a list of things of a type the conversion does not know. *)
Definition t_tuple : schema :=
  Schema x_data (SkAny (AnySchema (Some (lit "tuple")) None None None None None None [] [] None None None None None None
    None [] None None None [] [] [] None)).
Definition t_bad : list (str * ref_or schema) :=
  [(lit "Error", Item x_object); (lit "Bad", Item (Schema x_data (SkArray (ArrayType (Some (Item t_tuple)) None None false))))].
Lemma t_bad_not : ~ convertible (Item (Schema x_data (SkArray (ArrayType (Some (Item t_tuple)) None None false)))).
Proof.
  intro H. assert (Hn : nested t_tuple (Schema x_data (SkArray (ArrayType (Some (Item t_tuple)) None None false)))).
  { apply Nested_in with (u := t_tuple); [cbn; auto|constructor]. }
  destruct (H _ _ eq_refl Hn) as (Ht & _). specialize (Ht _ eq_refl). cbn in Ht. repeat destruct Ht as [Ht|Ht]; try discriminate Ht; exact Ht.
Qed.
Lemma t_bad_valid : validate_openapi unicode15 (t_doc t_bad) = Ok tt.
Proof. vm_compute. reflexivity. Qed.

(** The unit tests of the repository, run on the model.  These are tests, not
    proofs: they check that the model gives what the authors of the code expect
    of it. *)
From Coq Require Import QArith.
From Verif Require Import Base OasModel OpModel TemplateModel EncodeModel SerdeModel ToSchemaModel
  SanitizeModel GenerateModel MacroModel ErrorModel SchemaSpec ExampleSchema.

(** ** progenitor-impl/src/template.rs *)

Definition trial (path expect : str) (want : path_template) : Prop :=
  parse path = Ok want /\ to_string want = expect.

(** template.rs:179-270, [basic]. *)
Example template_basic :
  trial (lit "/info") (lit "/info") [CConst (lit "/info")]
  /\ trial (lit "/measure/{number}") (lit "/measure/{number}")
       [CConst (lit "/measure/"); CParam (lit "number")]
  /\ trial (lit "/one/{two}/three") (lit "/one/{two}/three")
       [CConst (lit "/one/"); CParam (lit "two"); CConst (lit "/three")]
  /\ trial (lit "/{foo}-{bar}-{baz}") (lit "/{foo}-{bar}-{baz}")
       [CConst (lit "/"); CParam (lit "foo"); CConst (lit "-"); CParam (lit "bar");
        CConst (lit "-"); CParam (lit "baz")]
  /\ trial (lit "//normalise/////{adjacent}:x///slashes") (lit "/normalise/{adjacent}:x/slashes")
       [CConst (lit "/normalise/"); CParam (lit "adjacent"); CConst (lit ":x/slashes")]
  /\ trial (lit "/v1/files/{fileId}:completeUpload") (lit "/v1/files/{fileId}:completeUpload")
       [CConst (lit "/v1/files/"); CParam (lit "fileId"); CConst (lit ":completeUpload")]
  /\ trial (lit "/v1/folders/{folderId}/sessions/{sessionId}:complete")
       (lit "/v1/folders/{folderId}/sessions/{sessionId}:complete")
       [CConst (lit "/v1/folders/"); CParam (lit "folderId"); CConst (lit "/sessions/");
        CParam (lit "sessionId"); CConst (lit ":complete")].
Proof. unfold trial. repeat split; vm_compute; reflexivity. Qed.

(** template.rs:272-289, [names]. *)
Example template_names :
  map (fun t => do p <- parse t; Ok (names p))
    [lit "/info"; lit "/measure/{number}"; lit "/measure/{one}/{two}/and/{three}/yeah"]
  = [Ok []; Ok [lit "number"]; Ok [lit "one"; lit "two"; lit "three"]].
Proof. vm_compute. reflexivity. Qed.

(** template.rs:291-305, [compile]. *)
Example template_compile :
  (do t <- parse (lit "/measure/{number}"); compile t [(lit "number", lit "number")])
  = Ok (UrlExpr (lit "{}/measure/{}") [lit "number"]).
Proof. vm_compute. reflexivity. Qed.

(** template.rs:307-329, [compile2]. *)
Example template_compile2 :
  (do t <- parse (lit "/abc/def:{one}:jkl/{two}/a:{three}");
   compile t [(lit "three", lit "three"); (lit "one", lit "one"); (lit "two", lit "two")])
  = Ok (UrlExpr (lit "{}/abc/def:{}:jkl/{}/a:{}") [lit "one"; lit "two"; lit "three"]).
Proof. vm_compute. reflexivity. Qed.

(** ** progenitor-impl/src/to_schema.rs *)

(** What schemars reads from an empty object. *)
Definition js_empty : schema_object jschema :=
  SchemaObject None None None None None None None None None None [].
(** What openapiv3 reads from an empty object. *)
Definition oa_empty : schema := Schema plain_data (SkAny h_any).

(** The instance type of the result. *)
Definition instance_of (o : outcome jschema) : option (single_or_vec instance) :=
  match o with Ok (JsObject so) => so_instance_type so | _ => None end.

(** to_schema.rs:823-836, [test_null]. *)
Example schema_null :
  instance_of (convert (Schema plain_data (SkAny
    (AnySchema None None None None None None None [] [] None None None None None None None [JNull]
       None None None [] [] [] None)))) = Some (Single INull).
Proof. vm_compute. reflexivity. Qed.

(** to_schema.rs:838-849, [test_weird_integer]: the minimum [0.0] is no integer to openapiv3, so
    the schema is one of any kind. *)
Example schema_weird_integer :
  convert (Schema plain_data (SkAny
    (AnySchema (Some (lit "integer")) None None None None (Some 0%Q) None [] [] None None None None
       None None None [] None None None [] [] [] None)))
  = Ok (JsObject (SchemaObject None (Some (Single IInteger)) None None None
      (Some (NumberValidation None None None (Some 0%Q) None)) None None None None [])).
Proof. vm_compute. reflexivity. Qed.

(** to_schema.rs:851-863, [test_object_no_type]. *)
Example schema_object_no_type :
  convert (Schema plain_data (SkAny
    (AnySchema None None None None None None None [(lit "foo", Item oa_empty)] [] None None None
       None None None None [] None None None [] [] [] None)))
  = Ok (JsObject (SchemaObject None None None None None None None None
      (Some (ObjectValidation None None [] [(lit "foo", JsObject js_empty)] None)) None [])).
Proof. vm_compute. reflexivity. Qed.

(** to_schema.rs:865-875, [test_array_no_type]. *)
Example schema_array_no_type :
  convert (Schema plain_data (SkAny
    (AnySchema None None None None None None None [] [] None None None (Some (Item oa_empty))
       None None None [] None None None [] [] [] None)))
  = Ok (JsObject (SchemaObject None None None None None None None
      (Some (ArrayValidation (Some (Single (JsObject js_empty))) None None None)) None None [])).
Proof. vm_compute. reflexivity. Qed.

(** to_schema.rs:877-887, [test_number_no_type]. *)
Example schema_number_no_type :
  convert (Schema plain_data (SkAny
    (AnySchema None None None None None (Some 100%Q) None [] [] None None None None
       None None None [] None None None [] [] [] None)))
  = Ok (JsObject (SchemaObject None None None None None
      (Some (NumberValidation None None None (Some 100%Q) None)) None None None None [])).
Proof. vm_compute. reflexivity. Qed.

(** to_schema.rs:889-899, [test_solo_enum]. *)
Example schema_solo_enum :
  convert (Schema plain_data (SkAny
    (AnySchema None None None None None None None [] [] None None None None
       None None None [JStr (lit "one")] None None None [] [] [] None)))
  = Ok (JsObject (SchemaObject None None None (Some [JStr (lit "one")]) None
      None None None None None [])).
Proof. vm_compute. reflexivity. Qed.

(** ** progenitor-impl/src/lib.rs *)

(** lib.rs:711-741, [test_bad_value], [test_type_error], [test_invalid_path], [test_internal_error]. *)
Example error_texts :
  map error_text [BadValue (lit "nope: ""nope"""); UnexpectedFormat (lit "nope");
                  InvalidPath (lit "nope"); InternalError (lit "nope")]
  = [lit "unexpected value type nope: ""nope""";
     lit "unexpected or unhandled format in the OpenAPI document nope";
     lit "invalid operation path nope"; lit "internal error nope"].
Proof. vm_compute. reflexivity. Qed.

(** lib.rs:743-755, [test_validate_openapi_spec_version]. *)
Example spec_versions :
  map (validate_openapi_spec_version unicode15)
    [lit "3.0.0"; lit "3.0.1"; lit "3.0.4"; lit "3.0.5-draft"] = [Ok tt; Ok tt; Ok tt; Ok tt]
  /\ match validate_openapi_spec_version unicode15 (lit "3.1.0") with
     | Err e => error_text e
         = lit "unexpected or unhandled format in the OpenAPI document invalid version: 3.1.0"
     | _ => False
     end.
Proof. split; vm_compute; reflexivity. Qed.

(** ** progenitor-macro/src/token_utils.rs *)

(** token_utils.rs:119-141, [test_parse_type_and_impls]. *)
Example macro_type_and_impls :
  parse_type_and_impls (fun _ => Some tt) [TkIdent (lit "my_crate"); TkPathSep; TkIdent (lit "MyType")]
  = Some (TypeAndImpls (TypePath false (lit "my_crate") [lit "MyType"]) None, [])
  /\ parse_type_and_impls (fun _ => Some tt)
       [TkIdent (lit "my_crate"); TkPathSep; TkIdent (lit "MyType"); TkColon; TkQuestion;
        TkIdent (lit "Display"); TkPlus; TkIdent (lit "Hash")]
  = Some (TypeAndImpls (TypePath false (lit "my_crate") [lit "MyType"])
            (Some [ImplTrait BmMaybe (lit "Display") (Some tt); ImplTrait BmNone (lit "Hash") (Some tt)]),
          []).
Proof. split; vm_compute; reflexivity. Qed.

(** ** progenitor-client/tests/client_test.rs *)

(** client_test.rs:11-14. *)
Example client_path_segment : encode_path (lit "192.168.0.0/24") = lit "192.168.0.0%2F24".
Proof. vm_compute. reflexivity. Qed.

(** client_test.rs:16-26. *)
Definition encode_query_param (name : str) (v : sval) : option str :=
  option_map (append_pairs []) (query_param name v).

(** client_test.rs:27-40. *)
Example client_scalars :
  map (encode_query_param (lit "param_name")) [VStr (lit "xyz"); VInt 42; VFloat (lit "-0.05")]
  = [Some (lit "param_name=xyz"); Some (lit "param_name=42"); Some (lit "param_name=-0.05")].
Proof. vm_compute. reflexivity. Qed.

(** client_test.rs:42-66. *)
Example client_arrays :
  encode_query_param (lit "paramName") (VSeq [VStr (lit "a"); VStr (lit "b"); VStr (lit "c")])
  = Some (lit "paramName=a&paramName=b&paramName=c").
Proof. vm_compute. reflexivity. Qed.

(** client_test.rs:68-82. *)
Example client_object :
  encode_query_param (lit "ignored")
    (VStruct (lit "Value") [(lit "a", VStr (lit "a value")); (lit "b", VStr (lit "b value"))])
  = Some (lit "a=a+value&b=b+value").
Proof. vm_compute. reflexivity. Qed.

(** client_test.rs:84-91. *)
Example client_map :
  encode_query_param (lit "ignored")
    (VMap [(VStr (lit "a"), VStr (lit "a value")); (VStr (lit "b"), VStr (lit "b value"))])
  = Some (lit "a=a+value&b=b+value").
Proof. vm_compute. reflexivity. Qed.

Definition a_and_b : list (str * sval) := [(lit "a", VInt 3); (lit "b", VInt 4)].

(** client_test.rs:93-116. *)
Example client_enum_external :
  encode_query_param (lit "paramValue") (VUnitVariant (lit "Value") (lit "simple"))
    = Some (lit "paramValue=simple")
  /\ encode_query_param (lit "ignored") (VNewtypeVariant (lit "Value") (lit "newtype") (VInt 42))
    = Some (lit "newtype=42")
  /\ encode_query_param (lit "ignored") (VTupleVariant (lit "Value") (lit "tuple") [VInt 1; VInt 2])
    = None
  /\ encode_query_param (lit "ignored") (VStructVariant (lit "Value") (lit "object") a_and_b) = None.
Proof. repeat split; vm_compute; reflexivity. Qed.

(** client_test.rs:118-134. *)
Example client_enum_internal :
  encode_query_param (lit "ignored") (VStruct (lit "Value") [(lit "tag_name", VStr (lit "simple"))])
    = Some (lit "tag_name=simple")
  /\ encode_query_param (lit "ignored")
       (VStruct (lit "Value") ((lit "tag_name", VStr (lit "object")) :: a_and_b))
    = Some (lit "tag_name=object&a=3&b=4").
Proof. repeat split; vm_compute; reflexivity. Qed.

(** What serde's adjacently tagged enums serialise as. *)
Definition adjacent (variant : str) (content : list sval) : sval :=
  VStruct (lit "Value") ((lit "tag_name", VUnitVariant (lit "Value") variant)
    :: map (fun c => (lit "content_name", c)) content).

(** client_test.rs:136-160. *)
Example client_enum_adjacent :
  encode_query_param (lit "ignored") (adjacent (lit "simple") []) = Some (lit "tag_name=simple")
  /\ encode_query_param (lit "ignored") (adjacent (lit "newtype") [VInt 42])
    = Some (lit "tag_name=newtype&content_name=42")
  /\ encode_query_param (lit "ignored") (adjacent (lit "tuple") [VTuple [VInt 1; VInt 2]]) = None
  /\ encode_query_param (lit "ignored") (adjacent (lit "object") [VStruct (lit "Value") a_and_b])
    = None.
Proof. repeat split; vm_compute; reflexivity. Qed.

(** client_test.rs:162-210.  The transparent [Name] serialises as its text. *)
Example client_enum_untagged :
  encode_query_param (lit "ignored") VUnit = Some []
  /\ encode_query_param (lit "paramName") (VInt 42) = Some (lit "paramName=42")
  /\ encode_query_param (lit "ignored") (VTuple [VInt 1; VInt 2]) = None
  /\ encode_query_param (lit "ignored") (VStruct (lit "Value") a_and_b) = Some (lit "a=3&b=4")
  /\ encode_query_param (lit "paramName") (VSeq [VInt 1; VInt 2; VInt 3; VInt 4])
    = Some (lit "paramName=1&paramName=2&paramName=3&paramName=4")
  /\ encode_query_param (lit "paramName") (VSome (VStr (lit "xyz"))) = Some (lit "paramName=xyz").
Proof. repeat split; vm_compute; reflexivity. Qed.

(** client_test.rs:212-221. *)
Example client_option :
  encode_query_param (lit "ignored") VNone = Some []
  /\ encode_query_param (lit "paramName") (VSome (VInt 42)) = Some (lit "paramName=42").
Proof. repeat split; vm_compute; reflexivity. Qed.

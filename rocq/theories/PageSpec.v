(** Which operations are paginated. *)
From Verif Require Import Base OasModel MethodModel OpModel.
Local Open Scope N_scope.

(** The parameter [n] is an optional query parameter. *)
Definition optional_query (ps : list op_param) (n : str) : Prop :=
  exists p, In p ps /\ p_api_name p = n /\ p_kind p = KQuery false.

(** The response is a documented success with a typed payload. *)
Definition typed_success (r : op_response) (t : type_id) : Prop :=
  o_typ r = RType t /\
  ((exists c, o_status r = SCode c /\ 200 <= c < 300) \/ o_status r = SRange 2).

(** The struct's property [n] has type [t]; of several the last counts. *)
Definition property (props : list (str * type_id)) (n : str) (t : type_id) : Prop :=
  exists pre post, props = pre ++ (n, t) :: post /\ ~ In n (map fst post).

(** [t] is a struct of an array [items] and an optional string [next_page]. *)
Definition page_type (ts : type_space) (t item : type_id) : Prop :=
  exists props, ts_details ts t = Some (TdStruct props) /\
    (forall n, In n (map fst props) <-> n = lit "items" \/ n = lit "next_page") /\
    (exists a, property props (lit "items") a /\ ts_details ts a = Some (TdVec item)) /\
    (exists o s, property props (lit "next_page") o /\ ts_details ts o = Some (TdOption s) /\
       ts_details ts s = Some TdString).

(** The operation is paginated, with items of type [item]. *)
Record pageable (ts : type_space) (extensions : list (str * json)) (ps : list op_param)
    (rs : list op_response) (item : type_id) : Prop := Pageable {
  pb_extension : In (lit "x-dropshot-pagination") (map fst extensions);
  pb_token : optional_query ps (lit "page_token");
  pb_limit : optional_query ps (lit "limit");
  pb_queries : forall p r, In p ps -> p_kind p = KQuery r -> r = false;
  pb_bodies : forall p, In p ps -> p_typ p <> PRawBody;
  pb_success : exists pre r post t, rs = pre ++ r :: post /\ typed_success r t /\ page_type ts t item /\
               forall r' t', In r' (pre ++ post) -> ~ typed_success r' t' }.

(** C44, C46: the values a converted schema accepts. *)
From Coq Require Import QArith ZifyBool ZifyN.
From Verif Require Import Base OasModel TemplateModel MethodModel OpModel RefSpec RefProofs ParamSpec
  ParamProofs ToSchemaModel DoubleSpec SchemaSpec SchemaProofs.
Local Open Scope N_scope.

Section Meaning.
Variable refs : str -> json -> bool.
Variable matches : str -> str -> bool.
Variable format_ok : str -> json -> bool.
Notation accepts := (accepts refs matches format_ok).
Notation accepts_ref := (accepts_ref refs matches format_ok).
Notation valid := (valid refs matches format_ok).
Notation of_format := (of_format format_ok).
Notation string_ok := (string_ok matches).
Notation props_of := (props_of refs matches format_ok).
Notation others_of := (others_of refs matches format_ok).
Notation each v l := (map (fun r => accepts_ref r v) l).
Notation kept := (kept refs matches format_ok).
Notation all_kept := (all_kept refs matches format_ok).
Notation nullable_sound := (nullable_sound refs matches format_ok).

(** What an [AnySchema] asks beside its type. *)
Definition any_rest (a : any_schema schema) (v : json) : bool :=
  nonempty (an_enumeration a) (listed (an_enumeration a) v)
  && given (an_format a) (fun f => of_format f v)
  && string_ok (an_min_length a) (an_max_length a) (an_pattern a) v
  && number_ok (an_multiple_of a) (an_minimum a) (an_maximum a)
       (flag (an_exclusive_minimum a)) (flag (an_exclusive_maximum a)) v
  && object_ok (props_of (an_properties a)) (an_required a) (others_of (an_additional a))
       (an_min_properties a) (an_max_properties a) v
  && array_ok (option_map accepts_ref (an_items a)) (an_min_items a) (an_max_items a)
       (flag (an_unique_items a)) v
  && (nonempty (an_one_of a) (Nat.eqb (count (each v (an_one_of a))) 1)
      && forallb (fun b => b) (each v (an_all_of a))
      && nonempty (an_any_of a) (existsb (fun b => b) (each v (an_any_of a)))
      && given (an_not a) (fun r => negb (accepts_ref r v))).

Definition kind_accepts (k : schema_kind schema) (v : json) : bool :=
  match k with
  | SkString t =>
      has_type IString v
      && nonempty (st_enumeration t) (listed (map (null_or JStr) (st_enumeration t)) v)
      && given (format_is string_formats (st_format t)) (fun f => of_format f v)
      && string_ok (st_min_length t) (st_max_length t) (st_pattern t) v
  | SkNumber t =>
      has_type INumber v
      && nonempty (nt_enumeration t) (listed (map (null_or JNum) (nt_enumeration t)) v)
      && given (format_is number_formats (nt_format t)) (fun f => of_format f v)
      && number_ok (nt_multiple_of t) (nt_minimum t) (nt_maximum t)
           (nt_exclusive_minimum t) (nt_exclusive_maximum t) v
  | SkInteger t =>
      has_type IInteger v
      && nonempty (it_enumeration t)
           (listed (map (null_or (fun z => JNum (inject_Z z))) (it_enumeration t)) v)
      && given (format_is integer_formats (it_format t)) (fun f => of_format f v)
      && number_ok (option_map inject_Z (it_multiple_of t)) (option_map inject_Z (it_minimum t))
           (option_map inject_Z (it_maximum t))
           (it_exclusive_minimum t) (it_exclusive_maximum t) v
  | SkObject t =>
      has_type IObject v
      && object_ok (props_of (ot_properties t)) (ot_required t) (others_of (ot_additional t))
           (ot_min_properties t) (ot_max_properties t) v
  | SkArray t =>
      has_type IArray v
      && array_ok (option_map accepts_ref (at_items t)) (at_min_items t) (at_max_items t)
           (at_unique_items t) v
  | SkBoolean e => has_type IBoolean v && nonempty e (listed (map (null_or JBool) e) v)
  | SkOneOf l => Nat.eqb (count (each v l)) 1
  | SkAllOf l => forallb (fun b => b) (each v l)
  | SkAnyOf l => existsb (fun b => b) (each v l)
  | SkNot r => negb (accepts_ref r v)
  | SkAny a => given (an_typ a) (fun t => of_named_type t v) && any_rest a v
  end.

Lemma accepts_schema d k v :
  accepts (Schema d k) v = sd_nullable d && is_null v || kind_accepts k v.
Proof.
  destruct k; try reflexivity. cbn [kind_accepts]. unfold any_rest. rewrite !andb_assoc. reflexivity.
Qed.

(** ** What the conversion of an [AnySchema] yields *)

Definition any_object (a : any_schema schema) props add : option (object_validation jschema) :=
  if object_keywords a
  then Some (ObjectValidation (convert_usize (an_max_properties a))
         (convert_usize (an_min_properties a)) (convert_required (an_required a))
         (bt_inserts props []) add)
  else None.
Definition any_array (a : any_schema schema) items : option (array_validation jschema) :=
  if array_keywords a
  then Some (ArrayValidation (option_map Single items) (convert_usize (an_max_items a))
         (convert_usize (an_min_items a)) (an_unique_items a))
  else None.
Definition any_subs (a : any_schema schema) alls anys ones no : option (subschemas jschema) :=
  if combines a
  then Some (Subschemas (convert_vec id alls) (convert_vec id anys) (convert_vec id ones) no)
  else None.

Inductive any_parts (a : any_schema schema) : option number_validation -> list (str * jschema) ->
    option jschema -> option jschema -> list jschema -> list jschema -> list jschema ->
    option jschema -> Prop :=
| Any_parts number props add items ones alls anys no :
    any_number a = Ok number ->
    mapM (fun kv => do j <- convert_ref_with convert (snd kv); Ok (fst kv, j)) (an_properties a)
      = Ok props ->
    oconvert (fun ap => match ap with
                        | ApAny b => Ok (JsBool b)
                        | ApSchema r => convert_ref_with convert r
                        end) (an_additional a) = Ok add ->
    oconvert (convert_ref_with convert) (an_items a) = Ok items ->
    mapM (convert_ref_with convert) (an_one_of a) = Ok ones ->
    mapM (convert_ref_with convert) (an_all_of a) = Ok alls ->
    mapM (convert_ref_with convert) (an_any_of a) = Ok anys ->
    oconvert (convert_ref_with convert) (an_not a) = Ok no ->
    any_parts a number props add items ones alls anys no.

Lemma none_present {A} (o : option A) : is_none o = negb (present o).
Proof. now destruct o. Qed.
Lemma nil_some_of {A} (l : list A) : is_nil l = negb (some_of l).
Proof. now destruct l. Qed.
Lemma if_negb {A} (b : bool) (x y : A) : (if negb b then x else y) = if b then y else x.
Proof. now destruct b. Qed.

Lemma convert_any_general d a j : convert (Schema d (SkAny a)) = Ok j ->
  any_bare a && is_nil (an_enumeration a) = false ->
  any_bare a && only_null (an_enumeration a) = false ->
  exists number props add items ones alls anys no ty,
    any_parts a number props add items ones alls anys no
    /\ any_type (an_typ a) (sd_nullable d) (object_keywords a) (array_keywords a) (is_some number)
         (string_keywords a) = Ok ty
    /\ let so ty := SchemaObject (metadata_of d) ty (an_format a)
                      (convert_vec id (an_enumeration a)) (any_subs a alls anys ones no) number
                      (any_string a) (any_array a items) (any_object a props add) None
                      (extensions_of d) in
       j = JsObject (match ty with
                     | Some (Single INull) =>
                         if combines a then oneof_nullable_wrapper (so None) (sd_nullable d)
                         else so ty
                     | _ => so ty
                     end).
Proof.
  intros H B1 B2. cbn [convert] in H. rewrite B1, B2 in H.
  apply obind_ok in H as (number & Hn & H). apply obind_ok in H as (props & Hp & H).
  apply obind_ok in H as (add & Ha & H). apply obind_ok in H as (items & Hi & H).
  apply obind_ok in H as (ones & Ho & H). apply obind_ok in H as (alls & Hal & H).
  apply obind_ok in H as (anys & Han & H). apply obind_ok in H as (no & Hno & H).
  cbv zeta in H.
  rewrite !none_present, !nil_some_of, <- !negb_orb, !if_negb in H.
  fold (object_keywords a) in H. fold (array_keywords a) in H. fold (combines a) in H.
  fold (any_object a props add) in H. fold (any_array a items) in H.
  fold (any_subs a alls anys ones no) in H.
  assert (E1 : is_some (any_object a props add) = object_keywords a)
    by (unfold any_object; now destruct (object_keywords a)).
  assert (E2 : is_some (any_array a items) = array_keywords a)
    by (unfold any_array; now destruct (array_keywords a)).
  assert (E3 : is_some (any_string a) = string_keywords a).
  { unfold any_string. rewrite !none_present, <- !negb_orb, if_negb. fold (string_keywords a).
    now destruct (string_keywords a). }
  assert (E4 : is_some (any_subs a alls anys ones no) = combines a)
    by (unfold any_subs; now destruct (combines a)).
  rewrite E1, E2, E3, E4 in H. apply obind_ok in H as (ty & Ht & H).
  exists number, props, add, items, ones, alls, anys, no, ty. split; [now constructor|].
  split; auto. cbv zeta.
  destruct ty as [[[]|]|]; try (injection H as <-; reflexivity).
  destruct (combines a); injection H as <-; reflexivity.
Qed.

Lemma any_number_some (a : any_schema schema) number : any_number a = Ok number -> is_some number = number_keywords a.
Proof.
  intro H. unfold any_number in H. apply obind_ok in H as (mi & _ & H).
  apply obind_ok in H as (ma & _ & H). injection H as <-.
  rewrite !none_present, <- !negb_orb, if_negb. fold (number_keywords a).
  now destruct (number_keywords a).
Qed.

Lemma any_number_ok (a : any_schema schema) number v : any_number a = Ok number ->
  num_ok number v = number_ok (an_multiple_of a) (an_minimum a) (an_maximum a)
       (flag (an_exclusive_minimum a)) (flag (an_exclusive_maximum a)) v.
Proof.
  intro H. unfold any_number in H. apply obind_ok in H as (mi & Hmi & H).
  apply obind_ok in H as (ma & Hma & H). injection H as <-.
  destruct v; try (destruct (_ && _); reflexivity).
  unfold any_bound in Hmi, Hma.
  destruct (an_multiple_of a), (an_minimum a) as [?|], (an_exclusive_minimum a) as [[]|],
    (an_maximum a) as [?|], (an_exclusive_maximum a) as [[]|]; try discriminate;
    injection Hmi as <-; injection Hma as <-; cbn; rewrite ?andb_true_r; reflexivity.
Qed.

Lemma lengths_in (a : any_schema schema) n : In n (length_bounds (SkAny a)) <->
  In n (optional (an_min_length a)) \/ In n (optional (an_max_length a))
  \/ In n (optional (an_min_properties a)) \/ In n (optional (an_max_properties a))
  \/ In n (optional (an_min_items a)) \/ In n (optional (an_max_items a)).
Proof. cbn [length_bounds]. rewrite !in_app_iff. tauto. Qed.

Lemma any_rest_valid (P : schema -> Prop) a number props add items ones alls anys no v :
  (forall t, P t -> forall j, convert t = Ok j -> forall v, valid j v = accepts t v) ->
  Forall P (children (SkAny a)) ->
  (forall n, In n (length_bounds (SkAny a)) -> n < 2 ^ 32) ->
  NoDup (map fst (an_properties a)) ->
  any_parts a number props add items ones alls anys no ->
  given (convert_vec id (an_enumeration a)) (fun l => listed l v)
  && given (an_format a) (fun f => of_format f v)
  && subs_ok refs matches format_ok (any_subs a alls anys ones no) v && num_ok number v
  && str_ok matches (any_string a) v && arr_ok refs matches format_ok (any_array a items) v
  && obj_ok refs matches format_ok (any_object a props add) v
  = any_rest a v.
Proof.
  intros IH HP HL HN H. inversion H as [? ? ? ? ? ? ? ? Hnum Hp Ha Hi Ho Hal Han Hno]; subst.
  cbn [children] in HP. rewrite !Forall_app in HP.
  destruct HP as (Pp & Pa & Pi & Po & Pal & Pan & Pno).
  pose proof (convert_props_same refs matches format_ok P IH _ _ Pp Hp) as Sp.
  pose proof (convert_additional_same refs matches format_ok P IH _ _ Pa Ha) as Sa.
  pose proof (convert_opt_same refs matches format_ok P IH _ _ Pi Hi) as Si.
  pose proof (convert_refs_same refs matches format_ok P IH _ _ Po Ho) as So.
  pose proof (convert_refs_same refs matches format_ok P IH _ _ Pal Hal) as Sal.
  pose proof (convert_refs_same refs matches format_ok P IH _ _ Pan Han) as San.
  pose proof (convert_opt_same refs matches format_ok P IH _ _ Pno Hno) as Sno.
  rewrite (any_number_ok _ _ _ Hnum).
  assert (En : given (convert_vec id (an_enumeration a)) (fun l => listed l v)
               = nonempty (an_enumeration a) (listed (an_enumeration a) v)).
  { rewrite convert_vec_id. now destruct (an_enumeration a). }
  assert (Es : subs_ok refs matches format_ok (any_subs a alls anys ones no) v =
    nonempty (an_one_of a) (Nat.eqb (count (each v (an_one_of a))) 1)
      && forallb (fun b => b) (each v (an_all_of a))
      && nonempty (an_any_of a) (existsb (fun b => b) (each v (an_any_of a)))
      && given (an_not a) (fun r => negb (accepts_ref r v))).
  { rewrite <- (subs_same refs matches format_ok _ _ _ _ _ _ _ _ v So Sal San Sno).
    unfold any_subs. destruct (combines a) eqn:E; auto. unfold combines in E.
    rewrite !orb_false_iff in E. destruct E as (((E1 & E2) & E3) & E4).
    destruct (an_one_of a); [|discriminate]. destruct (an_all_of a); [|discriminate].
    destruct (an_any_of a); [|discriminate]. destruct (an_not a); [discriminate|].
    inversion So; subst. inversion Sal; subst. inversion San; subst. now destruct no. }
  assert (Est : str_ok matches (any_string a) v
                = string_ok (an_min_length a) (an_max_length a) (an_pattern a) v).
  { unfold any_string. rewrite !convert_usize_small by (intros; apply HL, lengths_in; tauto).
    destruct (an_pattern a), (an_min_length a), (an_max_length a); cbn; try reflexivity.
    now destruct v. }
  assert (Ear : arr_ok refs matches format_ok (any_array a items) v
     = array_ok (option_map accepts_ref (an_items a)) (an_min_items a) (an_max_items a)
       (flag (an_unique_items a)) v).
  { rewrite <- (array_same refs matches format_ok _ _ _ _ (an_unique_items a) _ Si).
    unfold any_array. rewrite !convert_usize_small by (intros; apply HL, lengths_in; tauto).
    destruct (array_keywords a) eqn:E; auto. unfold array_keywords in E.
    rewrite !orb_false_iff in E. destruct E as (((E1 & E2) & E3) & E4).
    destruct (an_items a); [discriminate|]. destruct (an_min_items a); [discriminate|].
    destruct (an_max_items a); [discriminate|]. destruct (an_unique_items a); [discriminate|].
    destruct items; [easy|]. now destruct v. }
  assert (Eob : obj_ok refs matches format_ok (any_object a props add) v
     = object_ok (props_of (an_properties a)) (an_required a) (others_of (an_additional a))
       (an_min_properties a) (an_max_properties a) v).
  { rewrite <- (object_same refs matches format_ok _ _ (an_required a) _ _ (an_min_properties a)
                  (an_max_properties a) v HN Sp Sa).
    unfold any_object. rewrite !convert_usize_small by (intros; apply HL, lengths_in; tauto).
    destruct (object_keywords a) eqn:E; auto. unfold object_keywords in E.
    rewrite !orb_false_iff in E. destruct E as ((((E1 & E2) & E3) & E4) & E5).
    rewrite (object_same refs matches format_ok _ _ (an_required a) _ _ (an_min_properties a)
                  (an_max_properties a) v HN Sp Sa).
    destruct (an_properties a); [|discriminate]. destruct (an_required a); [|discriminate].
    destruct (an_additional a); [discriminate|]. destruct (an_min_properties a); [discriminate|].
    destruct (an_max_properties a); [discriminate|]. destruct v; auto. cbn.
    rewrite !andb_true_r. symmetry. apply forallb_forall. auto. }
  rewrite En, Es, Est, Ear, Eob. unfold any_rest. 
  set (x1 := nonempty (an_enumeration a) _). set (x2 := given (an_format a) _).
  set (x3 := string_ok _ _ _ _). set (x4 := number_ok _ _ _ _ _ _). set (x5 := object_ok _ _ _ _ _ _).
  set (x6 := array_ok _ _ _ _ _). set (x7 := _ && given (an_not a) _).
  destruct x1, x2, x3, x4, x5, x6, x7; reflexivity.
Qed.

Lemma type_named_ok t i v : type_named t = Some i -> has_type i v = of_named_type t v.
Proof.
  unfold type_named. intro H.
  repeat match type of H with
  | (if str_eqb t ?x then _ else _) = _ =>
      let E := fresh in destruct (str_eqb t x) eqn:E;
      [apply str_eqb_spec in E; subst t; injection H as <-; now destruct v|]
  end. discriminate.
Qed.

Lemma named_null t : of_named_type t JNull = false.
Proof. reflexivity. Qed.

(** ** The theorem *)


Lemma nested_children s : all_kept s -> Forall all_kept (children (s_kind s)).
Proof.
  intro H. apply Forall_forall. intros u Hu t Ht. apply H. econstructor 2; eauto.
Qed.

Lemma kind_plain k v : accepts (Schema plain_data k) v = kind_accepts k v.
Proof. rewrite accepts_schema. reflexivity. Qed.

Lemma null_given_format o : given o (fun f => of_format f JNull) = true.
Proof. now destruct o. Qed.

Lemma null_string_ok a b c : string_ok a b c JNull = true.
Proof. reflexivity. Qed.
Lemma null_number_ok a b c d e : number_ok a b c d e JNull = true.
Proof. reflexivity. Qed.

Lemma bare_iff a : any_bare a = true <->
  an_typ a = None /\ value_keywords a = false /\ combines a = false /\ an_format a = None
  /\ an_exclusive_minimum a = None /\ an_exclusive_maximum a = None.
Proof.
  assert (E : forall A (o : option A), is_none o = true <-> o = None) by (intros A []; cbn; split; easy).
  unfold any_bare, value_keywords, string_keywords, number_keywords, object_keywords, array_keywords,
    combines.
  rewrite !andb_true_iff, !orb_false_iff, !none_present, !nil_some_of, !negb_true_iff.
  rewrite <- !(E _ (an_typ a)), <- !(E _ (an_format a)), <- !(E _ (an_exclusive_minimum a)),
    <- !(E _ (an_exclusive_maximum a)), !none_present, !negb_true_iff. tauto.
Qed.

Lemma absent_rest a v : value_keywords a = false -> combines a = false ->
  any_rest a v = nonempty (an_enumeration a) (listed (an_enumeration a) v)
                 && given (an_format a) (fun f => of_format f v).
Proof.
  unfold value_keywords, string_keywords, number_keywords, object_keywords, array_keywords, combines,
    any_rest. rewrite !orb_false_iff. intros H1 H2.
  destruct H1 as (((((S1 & S2) & S3) & ((N1 & N2) & N3)) & ((((O1 & O2) & O3) & O4) & O5)) &
    (((A1 & A2) & A3) & A4)), H2 as (((C1 & C2) & C3) & C4).
  repeat match goal with
  | H : present ?o = false |- _ => destruct o; [discriminate|clear H]
  | H : some_of ?l = false |- _ => destruct l; [clear H|discriminate]
  end.
  destruct v; cbn; rewrite ?andb_true_r; auto.
  assert (members_ok [] (fun _ : json => true) fs = true) as ->; [|apply andb_true_r].
  apply forallb_forall. auto.
Qed.

Lemma combines_null a : combines a = false ->
  any_rest a JNull = nonempty (an_enumeration a) (listed (an_enumeration a) JNull).
Proof.
  unfold combines, any_rest. rewrite !orb_false_iff. intros (((C1 & C2) & C3) & C4).
  repeat match goal with
  | H : present ?o = false |- _ => destruct o; [discriminate|clear H]
  | H : some_of ?l = false |- _ => destruct l; [clear H|discriminate]
  end. rewrite null_given_format. cbn. now rewrite !andb_true_r.
Qed.

Lemma only_null_iff l : only_null l = true <-> l = [JNull].
Proof. destruct l as [|[] []]; cbn; split; easy. Qed.

Lemma listed_only_null v : listed [JNull] v = is_null v.
Proof. now destruct v. Qed.

(** A type with or without null, and a condition that null meets. *)
Lemma typed_null ty (d : schema_data) v rest :
  (sd_nullable d = true -> v = JNull -> rest = true) ->
  (ty || sd_nullable d && is_null v) && rest = sd_nullable d && is_null v || ty && rest.
Proof.
  intro H. apply null_shortcut. intro E. apply andb_prop in E as [E1 E2].
  apply is_null_eq in E2. auto.
Qed.

Lemma composite_same d m subs ex v k b :
  (sd_nullable d = true -> kind_accepts k JNull = false) ->
  (forall v, subs_ok refs matches format_ok (Some subs) v = kind_accepts k v) ->
  b = sd_nullable d ->
  valid (JsObject (oneof_nullable_wrapper
    (SchemaObject m None None None (Some subs) None None None None None ex) b)) v
  = sd_nullable d && is_null v || kind_accepts k v.
Proof.
  intros H1 H2 ->. destruct (sd_nullable d); cbn [andb orb].
  - rewrite wrapper_valid, valid_object, H2. cbn. rewrite !andb_true_r.
    destruct (is_null v) eqn:E; cbn; [|now destruct (kind_accepts k v)].
    apply is_null_eq in E. subst v. now rewrite H1.
  - unfold oneof_nullable_wrapper. rewrite valid_object, H2. cbn. now rewrite !andb_true_r.
Qed.

Theorem convert_kept : forall s, all_kept s -> forall j, convert s = Ok j ->
  forall v, valid j v = accepts s v.
Proof.
  intro s. induction s as [d k IHc] using schema_children_ind. intros HK j H v.
  pose proof (HK _ (Nested_here _)) as (HL & HZ & HN & HS). cbn [s_kind s_data] in HL, HZ, HN, HS.
  assert (IH : forall t, In t (children k) /\ all_kept t ->
            forall j, convert t = Ok j -> forall v, valid j v = accepts t v).
  { intros t [Ht HA]. rewrite Forall_forall in IHc. now apply IHc. }
  assert (HP : Forall (fun t => In t (children k) /\ all_kept t) (children k)).
  { pose proof (nested_children _ HK) as HP. cbn [s_kind] in HP. rewrite Forall_forall in *. auto. }
  clear IHc HK. rewrite accepts_schema.
  destruct k as [t|t|t|t|t|e|l|l|l|r|a].
  - (* string *)
    cbn [convert] in H. injection H as <-. rewrite valid_object, instance_type_ok, reduce_string_ok.
    rewrite enum_valid. cbn [kind_accepts].
    rewrite !convert_usize_small by (intros; apply HL; cbn; rewrite in_app_iff; tauto).
    change (convert_format string_format_name) with (@format_is string_format string_formats).
    rewrite (map_ext convert_string (null_or JStr)) by now intros [].
    rewrite <- !andb_assoc. rewrite typed_null.
    + cbn [subs_ok num_ok arr_ok obj_ok andb]. rewrite !andb_true_r. reflexivity.
    + intros Hn ->. rewrite enum_null by now apply HS. now rewrite null_given_format.
  - (* number *)
    cbn [convert] in H. injection H as <-. rewrite valid_object, instance_type_ok, reduce_number_ok.
    rewrite enum_valid, num_exclusive. cbn [kind_accepts].
    change (convert_format number_format_name) with (@format_is number_format number_formats).
    rewrite (map_ext convert_f64 (null_or JNum)) by now intros [].
    rewrite <- !andb_assoc. rewrite typed_null.
    + cbn. now rewrite !andb_true_r.
    + intros Hn ->. rewrite enum_null by now apply HS. now rewrite null_given_format.
  - (* integer *)
    cbn [convert] in H. injection H as <-. rewrite valid_object, instance_type_ok, reduce_number_ok.
    rewrite enum_valid, num_exclusive. cbn [kind_accepts].
    rewrite !f64_of_double by (intros; apply HZ; cbn; rewrite !in_app_iff; tauto).
    change (convert_format integer_format_name) with (@format_is integer_format integer_formats).
    rewrite (map_ext convert_i64 (null_or (fun z => JNum (inject_Z z)))) by now intros [].
    rewrite <- !andb_assoc. rewrite typed_null.
    + cbn. now rewrite !andb_true_r.
    + intros Hn ->. rewrite enum_null by now apply HS. now rewrite null_given_format.
  - (* object *)
    cbn [convert] in H. apply obind_ok in H as (props & Hp & H). apply obind_ok in H as (add & Ha & H).
    injection H as <-. rewrite valid_object, instance_type_ok, reduce_object_ok.
    cbn [kind_accepts]. cbn [children] in HP. apply Forall_app in HP as [Pp Pa].
    rewrite !convert_usize_small by (intros; apply HL; cbn; rewrite !in_app_iff; tauto).
    rewrite (object_same refs matches format_ok _ _ _ _ _ _ _ v HN
      (convert_props_same refs matches format_ok _ IH _ _ Pp Hp)
      (convert_additional_same refs matches format_ok _ IH _ _ Pa Ha)).
    rewrite <- !andb_assoc. rewrite typed_null.
    + reflexivity.
    + now intros Hn ->.
  - (* array *)
    cbn [convert] in H. apply obind_ok in H as (items & Hi & H).
    injection H as <-. rewrite valid_object, instance_type_ok, reduce_array_ok.
    cbn [kind_accepts]. cbn [children] in HP.
    rewrite !convert_usize_small by (intros; apply HL; cbn; rewrite !in_app_iff; tauto).
    rewrite (array_same refs matches format_ok _ _ _ _ _ v
      (convert_opt_same refs matches format_ok _ IH _ _ HP Hi)).
    rewrite <- !andb_assoc. rewrite typed_null.
    + cbn. destruct (at_unique_items t); now rewrite andb_true_r.
    + now intros Hn ->.
  - (* boolean *)
    cbn [convert] in H. injection H as <-. rewrite valid_object, instance_type_ok.
    rewrite enum_valid. cbn [kind_accepts].
    rewrite (map_ext convert_bool (null_or JBool)) by now intros [].
    rewrite <- !andb_assoc. rewrite typed_null.
    + cbn. now rewrite !andb_true_r.
    + intros Hn ->. now rewrite enum_null by now apply HS.
  - (* oneOf *)
    cbn [convert] in H. apply obind_ok in H as (js & Hj & H). injection H as <-.
    apply composite_same; [exact HS| |reflexivity].
    + intro w. cbn. now rewrite (each_same _ _ _ _ _ w (convert_refs_same refs matches format_ok _ IH _ _ HP Hj)),
        andb_true_r.
  - (* allOf *)
    cbn [convert] in H. apply obind_ok in H as (js & Hj & H). injection H as <-.
    apply composite_same; [exact HS| |reflexivity].
    + intro w. cbn. now rewrite forallb_map,
        (each_same _ _ _ _ _ w (convert_refs_same refs matches format_ok _ IH _ _ HP Hj)), !andb_true_r.
  - (* anyOf *)
    cbn [convert] in H. apply obind_ok in H as (js & Hj & H). injection H as <-.
    apply composite_same; [exact HS| |reflexivity].
    + intro w. cbn. now rewrite existsb_map,
        (each_same _ _ _ _ _ w (convert_refs_same refs matches format_ok _ IH _ _ HP Hj)), !andb_true_r.
  - (* not *)
    cbn [convert] in H. apply obind_ok in H as (j' & Hj & H). injection H as <-.
    apply composite_same; [exact HS| |reflexivity].
    + intro w. cbn. now rewrite (convert_ref_same refs matches format_ok _ IH _ _ HP Hj w).
  - (* any *)
    cbn [kind_accepts].
    destruct (any_bare a && is_nil (an_enumeration a)) eqn:B1.
    { cbn [convert] in H. rewrite B1 in H. injection H as <-. apply andb_prop in B1 as [B1 B2].
      apply bare_iff in B1 as (E1 & E2 & E3 & E4 & _). rewrite absent_rest, E1, E4 by auto.
      destruct (an_enumeration a); [|discriminate]. cbn. now rewrite orb_true_r. }
    destruct (any_bare a && only_null (an_enumeration a)) eqn:B2.
    { cbn [convert] in H. rewrite B1, B2 in H. injection H as <-. apply andb_prop in B2 as [B2 B3].
      apply bare_iff in B2 as (E1 & E2 & E3 & E4 & _). rewrite absent_rest, E1, E4 by auto.
      apply only_null_iff in B3. rewrite B3. rewrite valid_object.
      cbn [nonempty given]. rewrite listed_only_null.
      destruct v; cbn; try reflexivity; now rewrite ?orb_true_r, ?andb_false_r. }
    destruct (convert_any_general _ _ _ H B1 B2)
      as (number & props & add & items & ones & alls & anys & no & ty & Hparts & Hty & ->).
    assert (Hrest : forall w, _) by
      (intro w; exact (any_rest_valid _ a _ _ _ _ _ _ _ _ w IH HP HL HN Hparts)).
    cbn beta in Hrest.
    assert (Hval : forall ty' w, valid (JsObject (SchemaObject (metadata_of d) ty' (an_format a)
        (convert_vec id (an_enumeration a)) (any_subs a alls anys ones no) number
        (any_string a) (any_array a items) (any_object a props add) None (extensions_of d))) w
        = type_ok ty' w && any_rest a w).
    { intros ty' w. rewrite valid_object, <- !andb_assoc, <- Hrest, <- !andb_assoc. reflexivity. }
    unfold any_type in Hty. destruct (an_typ a) as [tn|] eqn:Et.
    + destruct (type_named tn) as [i|] eqn:Ei; [|discriminate]. injection Hty as <-.
      assert (Hi : i <> INull).
      { unfold type_named in Ei.
        repeat match type of Ei with (if ?c then _ else _) = _ => destruct c; [congruence|] end.
        discriminate. }
      assert (Hm : match instance_type i (sd_nullable d) with
                   | Some (Single INull) => False | _ => True end).
      { unfold instance_type. destruct (sd_nullable d); auto. destruct i; easy. }
      cbn beta zeta.
      match goal with |- valid (JsObject ?x) v = _ =>
        replace x with (SchemaObject (metadata_of d) (instance_type i (sd_nullable d)) (an_format a)
          (convert_vec id (an_enumeration a)) (any_subs a alls anys ones no) number
          (any_string a) (any_array a items) (any_object a props add) None (extensions_of d))
      end.
      2:{ destruct (instance_type i (sd_nullable d)) as [[[]|]|]; easy. }
      rewrite Hval, instance_type_ok, (type_named_ok _ _ v Ei). cbn [given]. apply typed_null.
      intros Hn ->. specialize (HS Hn). cbn [SchemaSpec.nullable_sound] in HS. rewrite Et in HS.
      rewrite kind_plain in HS. exact HS.
    + injection Hty as <-. destruct (sd_nullable d) eqn:En.
      * specialize (HS eq_refl). cbn [SchemaSpec.nullable_sound] in HS. rewrite Et in HS. destruct HS as [Hv HS].
        assert (Hn : is_some number = false).
        { inversion Hparts. rewrite (any_number_some a) by auto.
          unfold value_keywords in Hv. rewrite !orb_false_iff in Hv. tauto. }
        pose proof Hv as Hv'. unfold value_keywords in Hv'. rewrite !orb_false_iff in Hv'.
        destruct Hv' as (((K1 & K2) & K3) & K4). rewrite Hn, K1, K3, K4. cbn [inferred app].
        cbn beta zeta. destruct HS as [(C & HS)|[(C & HS)|(C & HS)]].
        -- rewrite C, wrapper_valid, Hval. cbn [type_ok given andb].
           rewrite kind_plain in HS. cbn [kind_accepts] in HS. rewrite Et in HS. cbn [given andb] in HS.
           destruct (is_null v) eqn:Enull; cbn; [|now destruct (any_rest a v)].
           apply is_null_eq in Enull. subst v. now rewrite HS.
        -- rewrite C, Hval. cbn [type_ok given andb].
           destruct v; cbn [has_type andb is_null orb]; auto;
             try (rewrite (absent_rest a) by auto; rewrite HS; reflexivity).
           rewrite combines_null by auto. now rewrite HS.
        -- exfalso. destruct HS as (E1 & E2 & E3 & E4).
           assert (any_bare a = true) as Hb by (apply bare_iff; auto 7).
           rewrite Hb, E1 in B1. discriminate.
      * rewrite Hval. reflexivity.
Qed.
End Meaning.

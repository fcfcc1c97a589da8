(** The conversion keeps the values a schema accepts. *)
From Coq Require Import QArith ZifyBool ZifyN.
From Verif Require Import Base OasModel TemplateModel MethodModel OpModel RefSpec RefProofs ParamSpec
  ParamProofs ToSchemaModel DoubleSpec DoubleProofs SchemaSpec.
Local Open Scope N_scope.

(** ** Induction over the schemas inside a schema *)

Section Ind.
Variable P : schema -> Prop.
Hypothesis step : forall d k, Forall P (children k) -> P (Schema d k).

Lemma schema_children_ind : forall s, P s.
Proof.
  fix IH 1. intros [d k]. apply step.
  assert (Hr : forall r : ref_or schema,
            match r with Ref _ => True | Item s => P s end -> Forall P (ref_schemas r)).
  { intros [n|s] H; cbn; repeat constructor; auto. }
  destruct k as [t|t|t|t|t|e|l|l|l|r|a]; cbn [children]; try solve [constructor].
  - destruct t as [ps req add mi ma]; cbn. apply Forall_app. split.
    + induction ps as [|[n [x|s]] ps IHp]; cbn; [constructor|exact IHp|constructor; [apply IH|exact IHp]].
    + destruct add as [[b|[n|s]]|]; cbn; repeat constructor. apply IH.
  - destruct t as [[[n|s]|] mi ma u]; cbn; repeat constructor. apply IH.
  - induction l as [|[x|s] l IHl]; cbn; [constructor|exact IHl|constructor; [apply IH|exact IHl]].
  - induction l as [|[x|s] l IHl]; cbn; [constructor|exact IHl|constructor; [apply IH|exact IHl]].
  - induction l as [|[x|s] l IHl]; cbn; [constructor|exact IHl|constructor; [apply IH|exact IHl]].
  - destruct r as [n|s]; cbn; repeat constructor. apply IH.
  - destruct a as [? ? ? ? ? ? ? ps ? add ? ? it ? ? ? ? ? ? ? ones alls anys no]; cbn.
    repeat (apply Forall_app; split).
    + induction ps as [|[n [x|s]] ps IHp]; cbn; [constructor|exact IHp|constructor; [apply IH|exact IHp]].
    + destruct add as [[b|[n|s]]|]; cbn; repeat constructor. apply IH.
    + destruct it as [[n|s]|]; cbn; repeat constructor. apply IH.
    + induction ones as [|[x|s] l IHl]; cbn; [constructor|exact IHl|constructor; [apply IH|exact IHl]].
    + induction alls as [|[x|s] l IHl]; cbn; [constructor|exact IHl|constructor; [apply IH|exact IHl]].
    + induction anys as [|[x|s] l IHl]; cbn; [constructor|exact IHl|constructor; [apply IH|exact IHl]].
    + destruct no as [[n|s]|]; cbn; repeat constructor. apply IH.
Qed.
End Ind.

(** ** Numbers *)

Lemma as_u32_small n : n < 2 ^ 32 -> as_u32 n = n.
Proof. unfold as_u32. intro. now apply N.mod_small. Qed.

Lemma f64_of_iff o : f64_of o = option_map inject_Z o <-> forall z, In z (optional o) -> double z.
Proof.
  destruct o as [z|]; cbn [f64_of option_map optional]; [|split; [intros _ z []|reflexivity]].
  split.
  - intros H y [<-|[]]. apply as_f64_iff. unfold inject_Z in H. congruence.
  - intro H. assert (E : as_f64 z = z) by (apply as_f64_iff; apply H; now left). now rewrite E.
Qed.

Lemma f64_of_double o : (forall z, In z (optional o) -> double z) -> f64_of o = option_map inject_Z o.
Proof. apply f64_of_iff. Qed.

Lemma convert_usize_small o : (forall n, In n (optional o) -> n < 2 ^ 32) -> convert_usize o = o.
Proof. destruct o as [z|]; cbn; auto. intro H. rewrite as_u32_small; auto. Qed.

(** ** Small facts *)

Lemma null_shortcut ty nl rest : (nl = true -> rest = true) ->
  (ty || nl) && rest = nl || ty && rest.
Proof. destruct ty, nl, rest; cbn; auto; intro H; now specialize (H eq_refl). Qed.

Lemma is_null_eq v : is_null v = true <-> v = JNull.
Proof. destruct v; cbn; split; easy. Qed.

Lemma listed_null l : In JNull l -> listed l JNull = true.
Proof. intro H. apply existsb_exists. exists JNull. auto. Qed.

Lemma enum_valid {A} (f : A -> json) l v :
  given (convert_vec f l) (fun l => listed l v) = nonempty l (listed (map f l) v).
Proof. now destruct l. Qed.

Lemma enum_null {A} (f : A -> json) (l : list (option A)) :
  null_listed l -> nonempty l (listed (map (null_or f) l) JNull) = true.
Proof.
  intros [->|H]; auto. destruct l; [easy|]. cbn [nonempty]. apply listed_null.
  change JNull with (null_or f None). now apply in_map.
Qed.

Definition type_ok (ty : option (single_or_vec instance)) (v : json) : bool :=
  given ty (fun ty => match ty with
                      | Single t => has_type t v
                      | Many l => existsb (fun t => has_type t v) l
                      end).

Lemma instance_type_ok t nl v :
  type_ok (instance_type t nl) v = has_type t v || nl && is_null v.
Proof.
  destruct nl; cbn; [|now rewrite orb_false_r].
  destruct (has_type t v); cbn; auto. now destruct v.
Qed.

Lemma mapM_ok_forall2 {A B} (f : A -> outcome B) l l' : mapM f l = Ok l' ->
  Forall2 (fun a b => f a = Ok b) l l'.
Proof.
  revert l'; induction l as [|a l IH]; cbn; intros l' H.
  - injection H as <-. constructor.
  - apply obind_ok in H as (b & Hb & H). apply obind_ok in H as (bs & Hbs & H).
    injection H as <-. constructor; auto.
Qed.

Lemma count_map_ext {A B} (f : A -> bool) (g : B -> bool) l l' :
  Forall2 (fun a b => f a = g b) l l' -> map f l = map g l'.
Proof. induction 1; cbn; congruence. Qed.

Lemma assoc_convert_props {A} (l : list (str * A)) n : NoDup (map fst l) ->
  assoc n (bt_inserts l []) = assoc n l.
Proof.
  intro H. rewrite bt_inserts_assoc by constructor. cbn.
  destruct (assoc n l) as [v|] eqn:E.
  - apply assoc_In in E. assert (assoc_last n l = Some v) as ->; auto.
    clear - H E. induction l as [|[k w] l IH]; cbn in *; [easy|].
    inversion H as [|? ? Hk Hm]; subst. destruct E as [E|E].
    + injection E as -> ->. destruct (assoc_last n l) eqn:E2.
      * apply assoc_last_In in E2. apply (in_map fst) in E2. easy.
      * now rewrite str_eqb_refl.
    + now rewrite IH.
  - assert (assoc_last n l = None) as ->; auto.
    apply assoc_last_None. now apply assoc_None.
Qed.

Lemma convert_required_In l r : In r (convert_required l) <-> In r l.
Proof.
  unfold convert_required.
  assert (H : In r (map fst (bt_inserts (map (fun r => (r, tt)) l) [])) <->
              assoc r (bt_inserts (map (fun r => (r, tt)) l) []) <> None).
  { split.
    - intros Hi E. apply (proj1 (assoc_None _ _)) in E. easy.
    - intro Hne. destruct (in_dec (list_eq_dec N.eq_dec) r
        (map fst (bt_inserts (map (fun r => (r, tt)) l) []))) as [Hi|Hi]; auto.
      apply (proj2 (assoc_None _ _)) in Hi. easy. }
  rewrite H, bt_inserts_assoc by constructor. cbn.
  destruct (assoc_last r (map (fun r => (r, tt)) l)) eqn:E.
  - apply assoc_last_In in E. apply in_map_iff in E as (x & E & Hi). injection E as ->. split; easy.
  - apply assoc_last_None in E. rewrite map_map in E. cbn in E. rewrite map_id in E. tauto.
Qed.

Lemma has_fields_set l l' fs : (forall r, In r l <-> In r l') -> has_fields l fs = has_fields l' fs.
Proof.
  intro H. unfold has_fields. apply eq_true_iff_eq. rewrite !forallb_forall. split; intros G x Hx;
  apply G; now apply H.
Qed.

Section Meaning.
Variable refs : str -> json -> bool.
Variable matches : str -> str -> bool.
Variable format_ok : str -> json -> bool.
Notation accepts := (accepts refs matches format_ok).
Notation accepts_ref := (accepts_ref refs matches format_ok).
Notation valid := (valid refs matches format_ok).
Notation of_format := (of_format format_ok).
Notation string_ok := (string_ok matches).

(** ** The parts of [valid] *)

Definition subs_ok (o : option (subschemas jschema)) (v : json) : bool :=
  match o with
  | None => true
  | Some (Subschemas alls anys ones no) =>
      given alls (forallb (fun t => valid t v))
      && given anys (existsb (fun t => valid t v))
      && given ones (fun l => Nat.eqb (count (map (fun t => valid t v) l)) 1)
      && given no (fun t => negb (valid t v))
  end.
Definition num_ok (o : option number_validation) (v : json) : bool :=
  match o, v with
  | Some n, JNum q =>
      given (nv_multiple_of n) (fun m => multiple m q)
      && given (nv_minimum n) (fun b => at_least b q)
      && given (nv_exclusive_minimum n) (fun b => above b q)
      && given (nv_maximum n) (fun b => at_most b q)
      && given (nv_exclusive_maximum n) (fun b => below b q)
  | _, _ => true
  end.
Definition str_ok (o : option string_validation) (v : json) : bool :=
  match o, v with
  | Some n, JStr x =>
      given (stv_min_length n) (fun n => n <=? size_of x)
      && given (stv_max_length n) (fun n => size_of x <=? n)
      && given (stv_pattern n) (fun p => matches p x)
  | _, _ => true
  end.
Definition arr_ok (o : option (array_validation jschema)) (v : json) : bool :=
  match o, v with
  | Some (ArrayValidation items max min unique), JArr l =>
      match items with
      | None => true
      | Some (Single t) => forallb (fun x => valid t x) l
      | Some (Many ts) =>
          (fix each (ts : list jschema) (l : list json) : bool :=
             match ts, l with
             | t :: ts', x :: l' => valid t x && each ts' l'
             | _, _ => true
             end) ts l
      end
      && given min (fun n => n <=? size_of l)
      && given max (fun n => size_of l <=? n)
      && (if flag unique then distinct l else true)
  | _, _ => true
  end.
Definition obj_ok (o : option (object_validation jschema)) (v : json) : bool :=
  match o, v with
  | Some (ObjectValidation max min required props others), JObj fs =>
      members_ok (map (fun kv => (fst kv, fun x => valid (snd kv) x)) props)
        (fun x => match others with None => true | Some t => valid t x end) fs
      && has_fields required fs
      && given min (fun n => n <=? size_of fs)
      && given max (fun n => size_of fs <=? n)
  | _, _ => true
  end.

Lemma valid_object m ty fmt en subs num st arr obj ex v :
  valid (JsObject (SchemaObject m ty fmt en subs num st arr obj None ex)) v =
  type_ok ty v && given en (fun l => listed l v) && given fmt (fun f => of_format f v)
  && subs_ok subs v && num_ok num v && str_ok st v && arr_ok arr v && obj_ok obj v.
Proof. reflexivity. Qed.

(** Reducing a validation to nothing changes nothing. *)
Lemma reduce_number_ok n v : num_ok (reduce_number n) v = num_ok (Some n) v.
Proof. unfold reduce_number. destruct n as [[?|] [?|] [?|] [?|] [?|]]; cbn; auto. now destruct v. Qed.
Lemma reduce_string_ok n v : str_ok (reduce_string n) v = str_ok (Some n) v.
Proof. unfold reduce_string. destruct n as [[?|] [?|] [?|]]; cbn; auto. now destruct v. Qed.
Lemma reduce_array_ok n v : arr_ok (reduce_array n) v = arr_ok (Some n) v.
Proof. unfold reduce_array. destruct n as [[?|] [?|] [?|] [?|]]; cbn; auto. now destruct v. Qed.
Lemma reduce_object_ok n v : obj_ok (reduce_object n) v = obj_ok (Some n) v.
Proof.
  unfold reduce_object. destruct n as [[?|] [?|] [|? ?] [|? ?] [?|]]; cbn; auto. destruct v; auto.
  unfold members_ok. cbn. symmetry. rewrite !andb_true_r. apply forallb_forall. auto.
Qed.

Lemma num_exclusive mul mi ma (exmi exma : bool) v :
  num_ok (Some (NumberValidation mul (if exma then None else ma) (if exma then ma else None)
                  (if exmi then None else mi) (if exmi then mi else None))) v
  = number_ok mul mi ma exmi exma v.
Proof.
  destruct v; auto. cbn. destruct exmi, exma, mi, ma; cbn; rewrite ?andb_true_r, ?andb_assoc; auto.
Qed.

(** ** Converted references *)

Definition same (r : ref_or schema) (j : jschema) : Prop := forall v, valid j v = accepts_ref r v.

Section Step.
(** The schemas inside have been converted faithfully. *)
Variable P : schema -> Prop.
Hypothesis IH : forall t, P t -> forall j, convert t = Ok j -> forall v, valid j v = accepts t v.

Lemma convert_ref_same r j : Forall P (ref_schemas r) ->
  convert_ref_with convert r = Ok j -> same r j.
Proof.
  destruct r as [n|s]; cbn; intros HP H v.
  - injection H as <-. reflexivity.
  - apply IH; auto. now inversion HP.
Qed.

Lemma convert_refs_same l js : Forall P (flat_map ref_schemas l) ->
  mapM (convert_ref_with convert) l = Ok js -> Forall2 same l js.
Proof.
  intros HP H. apply mapM_ok_forall2 in H. induction H; cbn in *; constructor.
  - apply Forall_app in HP as [HP _]. eauto using convert_ref_same.
  - apply Forall_app in HP as [_ HP]. auto.
Qed.

Lemma convert_opt_same o j : Forall P (flat_map ref_schemas (optional o)) ->
  oconvert (convert_ref_with convert) o = Ok j ->
  match o, j with
  | Some r, Some j => same r j
  | None, None => True
  | _, _ => False
  end.
Proof.
  destruct o as [r|]; cbn; intros HP H.
  - apply obind_ok in H as (b & Hb & H). injection H as <-. rewrite app_nil_r in HP.
    eauto using convert_ref_same.
  - injection H as <-. exact I.
Qed.

Definition others_of (o : option (additional schema)) : option (json -> bool) :=
  match o with
  | None => None
  | Some (ApAny b) => Some (fun _ => b)
  | Some (ApSchema r) => Some (fun x => accepts_ref r x)
  end.

Lemma convert_additional_same o j : Forall P (additional_schemas o) ->
  oconvert (fun ap => match ap with
                      | ApAny b => Ok (JsBool b)
                      | ApSchema r => convert_ref_with convert r
                      end) o = Ok j ->
  forall x, match j with None => true | Some t => valid t x end
            = given (others_of o) (fun p => p x).
Proof.
  destruct o as [[b|r]|]; cbn; intros HP H x.
  - injection H as <-. reflexivity.
  - apply obind_ok in H as (b & Hb & H). injection H as <-. now apply convert_ref_same.
  - injection H as <-. reflexivity.
Qed.

Definition props_of (l : list (str * ref_or schema)) : list (str * (json -> bool)) :=
  map (fun kv => (fst kv, fun x => accepts_ref (snd kv) x)) l.

Lemma convert_props_same l js : Forall P (property_schemas l) ->
  mapM (fun kv => do j <- convert_ref_with convert (snd kv); Ok (fst kv, j)) l = Ok js ->
  Forall2 (fun kv kj => fst kv = fst kj /\ same (snd kv) (snd kj)) l js.
Proof.
  intros HP H. apply mapM_ok_forall2 in H. unfold property_schemas in HP.
  induction H as [|[n r] kj l js H1 H2 IHf]; cbn in *; constructor.
  - apply obind_ok in H1 as (j & Hj & H1). injection H1 as <-. cbn. split; auto.
    apply Forall_app in HP as [HP _]. eauto using convert_ref_same.
  - apply Forall_app in HP as [_ HP]. auto.
Qed.

Lemma assoc_map_snd {A B} (f : A -> B) (l : list (str * A)) n :
  assoc n (map (fun kv => (fst kv, f (snd kv))) l) = option_map f (assoc n l).
Proof. induction l as [|[k v] l IHl]; cbn; auto. destruct (str_eqb n k); auto. Qed.

Lemma members_same l js o o' fs : NoDup (map fst l) ->
  Forall2 (fun kv kj => fst kv = fst kj /\ same (snd kv) (snd kj)) l js ->
  (forall x, o x = o' x) ->
  members_ok (map (fun kv => (fst kv, fun x => valid (snd kv) x)) (bt_inserts js [])) o fs
  = members_ok (props_of l) o' fs.
Proof.
  intros Hn Hf Ho. unfold members_ok.
  assert (Hk : map fst l = map fst js).
  { clear - Hf. induction Hf as [|? ? ? ? [? ?]]; cbn; congruence. }
  assert (Hpt : forall kv : str * json, 
    match assoc (fst kv) (map (fun kv => (fst kv, fun x => valid (snd kv) x)) (bt_inserts js [])) with
    | Some p => p (snd kv) | None => o (snd kv) end =
    match assoc (fst kv) (props_of l) with Some p => p (snd kv) | None => o' (snd kv) end).
  { intros [n x]. cbn [fst snd]. unfold props_of.
    rewrite (assoc_map_snd (fun j x => valid j x)), (assoc_map_snd (fun r x => accepts_ref r x)).
    rewrite assoc_convert_props by congruence. clear - Hf Ho.
    induction Hf as [|[k r] [k' j] l js [E Hs] Hf IHf]; cbn in *; auto. subst k'.
    destruct (str_eqb n k); cbn; auto. }
  induction fs as [|kv fs IHs]; cbn [forallb]; auto. f_equal; auto.
Qed.

Lemma object_same l js req o add mi ma v : NoDup (map fst l) ->
  Forall2 (fun kv kj => fst kv = fst kj /\ same (snd kv) (snd kj)) l js ->
  (forall x, match add with None => true | Some t => valid t x end
             = given (others_of o) (fun p => p x)) ->
  obj_ok (Some (ObjectValidation ma mi (convert_required req) (bt_inserts js []) add)) v
  = object_ok (props_of l) req (others_of o) mi ma v.
Proof.
  intros Hn Hf Ha. destruct v; auto. cbn. f_equal; f_equal. f_equal.
  - now apply members_same.
  - apply has_fields_set. intro. apply convert_required_In.
Qed.

Lemma array_same o j mi ma u v :
  match o, j with Some r, Some j => same r j | None, None => True | _, _ => False end ->
  arr_ok (Some (ArrayValidation (option_map Single j) ma mi u)) v
  = array_ok (option_map accepts_ref o) mi ma (flag u) v.
Proof.
  intro H. destruct v; auto. destruct o as [r|], j as [j|]; cbn; try easy.
  f_equal; f_equal; f_equal. induction l; cbn; auto. now rewrite H, IHl.
Qed.

Lemma each_same l js v : Forall2 same l js ->
  map (fun t => valid t v) js = map (fun r => accepts_ref r v) l.
Proof. induction 1 as [|r j l js H Hf IHf]; cbn; auto. now rewrite H, IHf. Qed.

Lemma forallb_map {A} (f : A -> bool) l : forallb f l = forallb (fun b => b) (map f l).
Proof. induction l; cbn; congruence. Qed.
Lemma existsb_map {A} (f : A -> bool) l : existsb f l = existsb (fun b => b) (map f l).
Proof. induction l; cbn; congruence. Qed.

Lemma convert_vec_id {A} (l : list A) : convert_vec id l = match l with [] => None | _ => Some l end.
Proof. destruct l; auto. unfold convert_vec. now rewrite map_id. Qed.

Lemma subs_same ones alls anys no jones jalls janys jno v :
  Forall2 same ones jones -> Forall2 same alls jalls -> Forall2 same anys janys ->
  match no, jno with Some r, Some j => same r j | None, None => True | _, _ => False end ->
  subs_ok (Some (Subschemas (convert_vec id jalls) (convert_vec id janys) (convert_vec id jones) jno)) v
  = nonempty ones (Nat.eqb (count (map (fun r => accepts_ref r v) ones)) 1)
    && forallb (fun b => b) (map (fun r => accepts_ref r v) alls)
    && nonempty anys (existsb (fun b => b) (map (fun r => accepts_ref r v) anys))
    && given no (fun r => negb (accepts_ref r v)).
Proof.
  intros H1 H2 H3 H4. rewrite !convert_vec_id. cbn.
  assert (Hno : given jno (fun t => negb (valid t v)) = given no (fun r => negb (accepts_ref r v))).
  { destruct no, jno; try easy. cbn. now rewrite H4. }
  rewrite Hno.
  rewrite <- (each_same _ _ v H1), <- (each_same _ _ v H2), <- (each_same _ _ v H3).
  rewrite <- forallb_map, <- existsb_map.
  assert (E1 : given match jones with [] => None | _ :: _ => Some jones end
     (fun l => Nat.eqb (count (map (fun t => valid t v) l)) 1)
     = nonempty ones (Nat.eqb (count (map (fun t => valid t v) jones)) 1)) by now destruct H1.
  assert (E2 : given match jalls with [] => None | _ :: _ => Some jalls end
     (forallb (fun t => valid t v)) = forallb (fun t => valid t v) jalls) by now destruct H2.
  assert (E3 : given match janys with [] => None | _ :: _ => Some janys end
     (existsb (fun t => valid t v)) = nonempty anys (existsb (fun t => valid t v) janys)) by now destruct H3.
  rewrite E1, E2, E3.
  set (a := forallb _ _). set (b := nonempty anys _). set (c := nonempty ones _). set (d := given no _).
  destruct a, b, c, d; reflexivity.
Qed.

(** The wrapper for a combination that does not accept null. *)
Lemma wrapper_valid m ty fmt en subs num st arr obj ex v :
  valid (JsObject (oneof_nullable_wrapper
    (SchemaObject m ty fmt en subs num st arr obj None ex) true)) v
  = xorb (is_null v) (valid (JsObject (SchemaObject m ty fmt en subs num st arr obj None ex)) v).
Proof.
  unfold oneof_nullable_wrapper. cbn [so_metadata so_instance_type so_format so_enum so_subschemas
    so_number so_string so_array so_object so_reference so_extensions].
  rewrite valid_object. cbn [type_ok given subs_ok num_ok str_ok arr_ok obj_ok andb].
  rewrite !andb_true_r. cbn [map].
  assert (valid null_schema v = is_null v) as -> by now destruct v.
  rewrite !valid_object. set (b := _ && obj_ok obj v). destruct (is_null v), b; reflexivity.
Qed.

End Step.
End Meaning.

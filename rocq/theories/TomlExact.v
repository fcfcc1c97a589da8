(** Which texts the manifest says as they are. *)
From Coq Require Import Lia.
From Verif Require Import Base OasModel OpModel GenerateModel GenerateSpec CargoModel CargoSpec CargoProofs SpaceModel
  CrateModel TomlSpec CrateSpec TomlProofs CrateProofs.
Local Open Scope N_scope.

(** A string that is read has as many characters as were written only if they stand for themselves. *)
Lemma read_string_raw : forall n s v t, (length s <= n)%nat -> read_string s = Some (v, t) ->
  exists raw, s = raw ++ 34 :: t /\ (length v <= length raw)%nat /\ (length v = length raw -> v = raw /\ plain_text raw).
Proof.
  induction n as [|n IH]; intros s v t Hn E.
  - destruct s; [discriminate|cbn in Hn; lia].
  - destruct s as [|c r]; [discriminate|]. cbn [length] in Hn. cbn -[N.eqb escape] in E.
    destruct (c =? 34) eqn:E1.
    { injection E as <- <-. apply N.eqb_eq in E1. subst c. exists []. split; [reflexivity|]. split; [auto|]. intros _. split; [reflexivity|constructor]. }
    destruct (c =? 92) eqn:E2.
    { destruct r as [|e r']; [discriminate|]. destruct (escape e) as [x|]; [|discriminate].
      destruct (read_string r') as [(v', t')|] eqn:Er; [|discriminate]. injection E as <- <-.
      apply IH in Er as (raw & -> & Hl & _); [|cbn in Hn; lia]. exists (c :: e :: raw). split; [reflexivity|]. cbn [length]. split; [lia|]. lia. }
    destruct (control c) eqn:E3; [discriminate|].
    destruct (read_string r) as [(v', t')|] eqn:Er; [|discriminate]. injection E as <- <-.
    apply IH in Er as (raw & -> & Hl & He); [|lia]. exists (c :: raw). split; [reflexivity|]. cbn [length]. split; [lia|].
    intro H. destruct He as (-> & Hp); [lia|]. split; [reflexivity|]. constructor; [|exact Hp].
    apply N.eqb_neq in E1, E2. auto.
Qed.

(** The first line of a text. *)
Lemma split_lines_first : forall s t, exists m, split_lines (s ++ 10 :: t) = m :: tl (split_lines (s ++ 10 :: t))
  /\ (m = s /\ ~ In 10 s /\ tl (split_lines (s ++ 10 :: t)) = split_lines t \/ exists r, s = m ++ 10 :: r).
Proof.
  induction s as [|c s IH]; intro t.
  - exists []. split; [reflexivity|]. left. auto.
  - destruct (IH t) as (m & E & H). cbn [app split_lines]. destruct (c =? 10) eqn:Ec.
    + apply N.eqb_eq in Ec. subst c. exists []. split; [reflexivity|]. right. now exists s.
    + apply N.eqb_neq in Ec. rewrite E. exists (c :: m). split; [reflexivity|]. cbn [tl].
      destruct H as [(-> & Hn & Ht)|(r & ->)].
      * left. split; [reflexivity|]. split; [|exact Ht]. intros [->|Hi]; auto.
      * right. now exists r.
Qed.

Lemma string_value n s v t : read_value n s = Some (TString v, t) -> exists r, s = 34 :: r /\ read_string r = Some (v, t).
Proof.
  destruct n as [|n]; [discriminate|]. destruct s as [|c r]; [discriminate|]. cbn -[N.eqb read_string drop_prefix read_items read_fields].
  destruct (c =? 34) eqn:Ec.
  - apply N.eqb_eq in Ec. subst c. destruct (drop_prefix [34; 34] r); [discriminate|]. destruct (read_string r) as [(v', t')|] eqn:Er; [|discriminate].
    intros [= <- <-]. exists r. auto.
  - destruct (c =? ch "["); [destruct (read_items _ _ _) as [(l, u)|]; discriminate|].
    destruct (c =? ch "{").
    { destruct (match skip r with [] => _ | _ => _ end) as [(l, u)|]; [|discriminate]. destruct (distinct _); discriminate. }
    destruct (drop_prefix (lit "true") (c :: r)); [discriminate|]. destruct (drop_prefix (lit "false") (c :: r)); discriminate.
Qed.

(** The line that begins with a key and a quotation mark. *)
Lemma read_line_inv k c r l : bare_text k = true -> c = 34 \/ c = ch "[" -> read_line (k ++ lit " = " ++ c :: r) = Some l ->
  exists v u, l = LEntry k v /\ read_value (S (length r)) (c :: r) = Some (v, u) /\ skip u = [].
Proof.
  intros Hk Hc. unfold read_line.
  assert (E : skip (k ++ lit " = " ++ c :: r) = k ++ lit " = " ++ c :: r /\ exists x y, k = x :: y /\ (x =? ch "[") = false).
  { destruct k as [|x k]; [discriminate|]. cbn [bare_text forallb] in Hk. apply andb_true_iff in Hk as (Hx & _).
    assert (blank x = false /\ (x =? ch "[") = false) as (Hb & Hn).
    { unfold bare, blank in *. change (ch "[") with 91.
      destruct (x =? 32) eqn:E1; [apply N.eqb_eq in E1; subst; discriminate|].
      destruct (x =? 9) eqn:E2; [apply N.eqb_eq in E2; subst; discriminate|].
      destruct (x =? 91) eqn:E3; [apply N.eqb_eq in E3; subst; discriminate|]. auto. }
    split; [cbn; now rewrite Hb|eauto]. }
  destruct E as (E & x & y & -> & Hn). rewrite E. cbn [app]. rewrite Hn.
  change (x :: y ++ lit " = " ++ c :: r) with ((x :: y) ++ 32 :: 61 :: 32 :: c :: r).
  rewrite (read_key_bare _ 32); [|exact Hk|reflexivity].
  assert (Eq : read_equals (32 :: 61 :: 32 :: c :: r) = Some (c :: r)).
  { unfold read_equals. cbn. unfold blank. destruct Hc as [->| ->]; reflexivity. }
  rewrite Eq. cbn [length]. destruct (read_value (S (length r)) (c :: r)) as [(v, u)|] eqn:Ev; [|discriminate].
  destruct (skip u) eqn:Eu; [|discriminate]. intros [= <-]. exists v, u. auto.
Qed.

(** Whatever is written after the quotation mark of a key, if it is read as what was meant, it stood for itself. *)
Lemma quoted_text : forall s post m v t, ~ In 34 post ->
  (m = s ++ 34 :: post \/ exists r, s ++ 34 :: post = m ++ 10 :: r) -> read_string m = Some (v, t) -> v = s -> plain_text s.
Proof.
  intros s post m v t Hp Hm E ->. apply (read_string_raw (length m)) in E as (raw & -> & Hl & He); [|auto].
  assert (Hcut : exists w, s ++ 34 :: post = raw ++ 34 :: w).
  { destruct Hm as [<-|(r & ->)]; [eauto|]. exists (t ++ 10 :: r). now rewrite <- app_assoc. }
  destruct Hcut as (w & Hw). assert (length raw = length s).
  { destruct (Nat.eq_dec (length raw) (length s)) as [|Hne]; [auto|]. assert (Hlt : (length s < length raw)%nat) by lia.
    assert (Hat : nth_error (s ++ 34 :: post) (length raw) = Some 34) by (rewrite Hw, nth_error_app2, Nat.sub_diag by auto; reflexivity).
    rewrite nth_error_app2 in Hat by lia. destruct (length raw - length s)%nat as [|j] eqn:Ej; [lia|]. cbn in Hat.
    apply nth_error_In in Hat. now elim Hp. }
  destruct He as (-> & Hpl); auto.
Qed.

Lemma line_step k s rest L : bare_text k = true -> ~ In 10 k ->
  read_lines (split_lines (k ++ lit " = " ++ quote_char ++ s ++ quote_char ++ [10] ++ rest)) = Some L ->
  exists v L', L = LEntry k v :: L' /\ (v = TString s -> plain_text s /\ read_lines (split_lines rest) = Some L').
Proof.
  intros Hk Hn E.
  replace (k ++ lit " = " ++ quote_char ++ s ++ quote_char ++ [10] ++ rest)
    with ((k ++ lit " = " ++ quote_char ++ s ++ quote_char) ++ 10 :: rest) in E by (now rewrite <- !app_assoc).
  destruct (split_lines_first (k ++ lit " = " ++ quote_char ++ s ++ quote_char) rest) as (m & Em & Hm).
  rewrite Em in E. cbn [read_lines] in E. destruct (read_line m) as [l|] eqn:El; [|discriminate].
  destruct (read_lines (tl _)) as [L'|] eqn:Er; [|discriminate]. injection E as <-.
  assert (Hshape : exists q, m = k ++ lit " = " ++ 34 :: q
            /\ (q = s ++ [34] /\ tl (split_lines ((k ++ lit " = " ++ quote_char ++ s ++ quote_char) ++ 10 :: rest)) = split_lines rest
                \/ exists r, s ++ [34] = q ++ 10 :: r)).
  { destruct Hm as [(-> & _ & Ht)|(r & Hr)].
    - exists (s ++ [34]). split; [reflexivity|]. left. auto.
    - assert (Hpre : forall (p y m r : str), p ++ y = m ++ 10 :: r -> ~ In 10 p -> exists q, m = p ++ q /\ y = q ++ 10 :: r).
      { clear. induction p as [|a p IH]; intros y m r H Hp; [now exists m|].
        destruct m as [|b m]; [injection H as -> _; elim Hp; now left|]. injection H as -> H.
        apply IH in H as (q & -> & ->); [now exists q|]. intro Hi. apply Hp. now right. }
      assert (Hr' : (k ++ lit " = " ++ [34]) ++ (s ++ [34]) = m ++ 10 :: r) by (rewrite <- Hr, <- !app_assoc; reflexivity).
      apply Hpre in Hr' as (q & -> & Hq).
      + exists q. split; [now rewrite <- !app_assoc|]. right. now exists r.
      + intro Hi. apply in_app_iff in Hi as [Hi|Hi]; [easy|]. vm_compute in Hi. intuition discriminate. }
  destruct Hshape as (q & -> & Hq). apply read_line_inv in El as (v & u & -> & Hv & _); [|exact Hk|now left].
  exists v, L'. split; [reflexivity|]. intros ->.
  apply string_value in Hv as (r & [= <-] & Hr).
  assert (Hpl : plain_text s).
  { apply (quoted_text s [] q s u); auto. destruct Hq as [(-> & _)|Hq]; auto. }
  split; [exact Hpl|]. destruct Hq as [(_ & Ht)|(r & Hr')]; [now rewrite <- Ht|].
  exfalso. apply (plain_no_newline s Hpl). assert (Hi : In 10 (s ++ [34])) by (rewrite Hr'; apply in_or_app; right; now left).
  apply in_app_iff in Hi as [Hi|[Hi|[]]]; [exact Hi|discriminate].
Qed.

Lemma items_one n m s r u : read_items (read_value m) n s = Some ([TString r], u) ->
  exists c w t, skip s = c :: w /\ read_value m (c :: w) = Some (TString r, t).
Proof.
  destruct n as [|n]; [discriminate|]. cbn [read_items]. destruct (skip s) as [|c w]; [discriminate|].
  destruct (c =? ch "]"); [discriminate|]. destruct (read_value m (c :: w)) as [(v, t)|] eqn:Ev; [|discriminate].
  destruct (skip t) as [|d t']; [discriminate|]. destruct (d =? ch "]"); [intros [= -> _]; eauto|].
  destruct (d =? ch ","); [|discriminate]. destruct (read_items _ n t') as [(l, u')|]; [|discriminate]. intros [= -> _ _]. eauto.
Qed.

Lemma publish_step s rest L :
  read_lines (split_lines (manifest_publish (Some s) ++ rest)) = Some L ->
  exists v L', L = LEntry (lit "publish") v :: L' /\ (v = TArray [TString s] -> plain_text s).
Proof.
  intro E. set (pre := lit "publish" ++ lit " = " ++ [ch "["; 34]).
  replace (manifest_publish (Some s) ++ rest) with ((pre ++ (s ++ 34 :: [ch "]"])) ++ 10 :: rest) in E
    by (unfold manifest_publish, pre; rewrite <- !app_assoc; reflexivity).
  destruct (split_lines_first (pre ++ (s ++ 34 :: [ch "]"])) rest) as (m & Em & Hm).
  rewrite Em in E. cbn [read_lines] in E. destruct (read_line m) as [l|] eqn:El; [|discriminate].
  destruct (read_lines (tl _)) as [L'|] eqn:Er; [|discriminate]. injection E as <-.
  assert (Hshape : exists q, m = lit "publish" ++ lit " = " ++ ch "[" :: 34 :: q
            /\ (q = s ++ 34 :: [ch "]"] \/ exists r, s ++ 34 :: [ch "]"] = q ++ 10 :: r)).
  { destruct Hm as [(-> & _ & Ht)|(r & Hr)].
    - exists (s ++ 34 :: [ch "]"]). split; [reflexivity|]. now left.
    - assert (Hpre : forall (p y m r : str), p ++ y = m ++ 10 :: r -> ~ In 10 p -> exists q, m = p ++ q /\ y = q ++ 10 :: r).
      { clear. induction p as [|a p IH]; intros y m r H Hp; [now exists m|].
        destruct m as [|b m]; [injection H as -> _; elim Hp; now left|]. injection H as -> H.
        apply IH in H as (q & -> & ->); [now exists q|]. intro Hi. apply Hp. now right. }
      apply Hpre in Hr as (q & -> & Hq).
      + exists q. split; [reflexivity|]. right. now exists r.
      + vm_compute. intuition discriminate. }
  destruct Hshape as (q & -> & Hq). apply read_line_inv in El as (v & u & -> & Hv & _); [|reflexivity|now right].
  exists v, L'. split; [reflexivity|]. intros ->.
  cbn [read_value] in Hv. change (ch "[" =? 34) with false in Hv. change (ch "[" =? ch "[") with true in Hv. cbv iota in Hv.
  destruct (read_items _ _ _) as [(l, t)|] eqn:Ei in Hv; [|discriminate]. injection Hv as -> ->.
  apply items_one in Ei as (c & w & t & Es & Ev). change (skip (34 :: q)) with (34 :: q) in Es. injection Es as <- <-.
  apply string_value in Ev as (r & [= <-] & Hr). apply (quoted_text s [ch "]"] q s t); auto. cbn. intros [H|[]]. discriminate.
Qed.

Lemma manifest_exact a deps es : toml (manifest a deps) = Some es ->
  (forall k x, In (lit "package", k, x) es -> In (k, x) (package_fields a)) -> plain_args a.
Proof.
  intros E Hes. unfold toml in E. destruct (read_lines (split_lines (manifest a deps))) as [L|] eqn:El; [|discriminate].
  cbv zeta in E. destruct (_ && _); [|discriminate]. injection E as <-.
  unfold manifest, manifest_package in El. repeat rewrite <- app_assoc in El.
  change (lit "[package]" ++ [10] ++ ?x) with (lit "[package]" ++ 10 :: x) in El.
  rewrite split_lines_line in El by (vm_compute; intuition discriminate). cbn [read_lines] in El.
  change (read_line (lit "[package]")) with (Some (LTable (lit "package"))) in El. cbv iota in El.
  match type of El with match ?x with _ => _ end = _ => destruct x as [L1|] eqn:E1; [|discriminate] end. injection El as <-.
  cbn [entries] in Hes.
  assert (Hfield : forall k v s, In (k, v) (package_fields a) ->
    (k = lit "name" -> v = TString (ca_name a)) /\ (k = lit "version" -> v = TString (ca_version a))
    /\ (k = lit "license" -> v = TString (ca_license_name a)) /\ (ca_registry_name a = Some s -> k = lit "publish" -> v = TArray [TString s])).
  { intros k v s Hi. unfold package_fields in Hi. destruct (ca_registry_name a) as [r|]; cbn [app In] in Hi;
    repeat (destruct Hi as [Hi|Hi]; [injection Hi as <- <-; repeat split; intros; solve [congruence|discriminate]|]); easy. }
  apply (line_step (lit "name") (ca_name a)) in E1 as (v1 & L2 & -> & H1); [|reflexivity|vm_compute; intuition discriminate].
  cbn [entries] in Hes.
  assert (Hv1 : v1 = TString (ca_name a)) by (refine (proj1 (Hfield _ v1 [] (Hes _ _ (or_introl eq_refl))) eq_refl)).
  destruct (H1 Hv1) as (P1 & E2).
  apply (line_step (lit "version") (ca_version a)) in E2 as (v2 & L3 & -> & H2); [|reflexivity|vm_compute; intuition discriminate].
  cbn [entries] in Hes.
  assert (Hv2 : v2 = TString (ca_version a)) by (refine (proj1 (proj2 (Hfield _ v2 [] (Hes _ _ (or_intror (or_introl eq_refl))))) eq_refl)).
  destruct (H2 Hv2) as (P2 & E3).
  apply (line_step (lit "edition") (lit "2021")) in E3 as (v3 & L4 & -> & H3); [|reflexivity|vm_compute; intuition discriminate].
  cbn [entries] in Hes.
  assert (Hv3 : v3 = TString (lit "2021")).
  { pose proof (Hes _ _ (or_intror (or_intror (or_introl eq_refl)))) as Hi. unfold package_fields in Hi.
    destruct (ca_registry_name a) as [r|]; cbn [app In] in Hi;
    repeat (destruct Hi as [Hi|Hi]; [first [discriminate Hi|congruence]|]); easy. }
  destruct (H3 Hv3) as (_ & E4).
  apply (line_step (lit "license") (ca_license_name a)) in E4 as (v4 & L5 & -> & H4); [|reflexivity|vm_compute; intuition discriminate].
  cbn [entries] in Hes.
  assert (Hv4 : v4 = TString (ca_license_name a))
    by (refine (proj1 (proj2 (proj2 (Hfield _ v4 [] (Hes _ _ (or_intror (or_intror (or_intror (or_introl eq_refl)))))))) eq_refl)).
  destruct (H4 Hv4) as (P4 & E5).
  split; [exact P1|]. split; [exact P2|]. split; [exact P4|]. intros r Hr. rewrite Hr in E5.
  apply publish_step in E5 as (v5 & L6 & -> & H5). cbn [entries] in Hes. apply H5.
  refine (proj2 (proj2 (proj2 (Hfield _ v5 r (Hes _ _ (or_intror (or_intror (or_intror (or_intror (or_introl eq_refl))))))))) Hr eq_refl).
Qed.

Lemma manifest_iff : forall U add_ref_types types s d g l,
  generate_tokens U add_ref_types types s d = Ok g -> operations_in_order d l ->
  forall non_release pkg_version v ts a, support_version non_release pkg_version v -> plain_text v ->
  (exists es,
    toml (manifest a (dependencies non_release pkg_version ts (ge_futures g) (ge_websockets g) (ca_include_client a))) = Some es
    /\ forall t k x, In (t, k, x) es <->
         (t = lit "package" /\ In (k, x) (package_fields a))
         \/ (t = lit "dependencies" /\ exists e, needed ts (ge_code g) (ca_include_client a) v e /\ toml e = Some [([], k, x)]))
  <-> plain_args a.
Proof.
  intros U add types s d g l Hg Hl nr pv v ts a Hv Hp. split.
  - intros (es & E & Hes). apply (manifest_exact _ _ _ E). intros k x Hi. apply Hes in Hi as [(_ & Hi)|(H & _)]; [exact Hi|discriminate H].
  - intro Ha. exact (manifest_read _ _ _ _ _ _ _ Hg Hl _ _ _ _ _ Hv Hp Ha).
Qed.

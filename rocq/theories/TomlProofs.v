(** The manifest read as TOML. *)
From Verif Require Import Base GenerateModel GenerateSpec CargoModel CargoSpec CargoProofs CrateModel TomlSpec CrateSpec.
Local Open Scope N_scope.

(** ** Reading in general *)

Lemma split_lines_line : forall l r, ~ In 10 l -> split_lines (l ++ 10 :: r) = l :: split_lines r.
Proof.
  induction l as [|c l IH]; intros r H; [reflexivity|].
  assert (E : (c =? 10) = false) by (apply N.eqb_neq; intros ->; apply H; now left).
  cbn -[N.eqb]. rewrite E, IH; [reflexivity|]. intro Hi. apply H. now right.
Qed.

Lemma split_lines_last : forall l, ~ In 10 l -> split_lines l = [l].
Proof.
  induction l as [|c l IH]; intro H; [reflexivity|].
  assert (E : (c =? 10) = false) by (apply N.eqb_neq; intros ->; apply H; now left).
  cbn -[N.eqb]. rewrite E, IH; [reflexivity|]. intro Hi. apply H. now right.
Qed.

Lemma read_lines_app : forall a b la lb,
  read_lines a = Some la -> read_lines b = Some lb -> read_lines (a ++ b) = Some (la ++ lb).
Proof.
  induction a as [|x a IH]; cbn; intros b la lb Ha Hb; [now injection Ha as <-|].
  destruct (read_line x); [|discriminate]. destruct (read_lines a) as [ya|]; [|discriminate].
  injection Ha as <-. now rewrite (IH _ _ _ eq_refl Hb).
Qed.

Lemma tables_app : forall a b, tables (a ++ b) = tables a ++ tables b.
Proof. induction a as [|[|k|k v] a IH]; intro b; cbn; auto. now rewrite IH. Qed.

Lemma read_string_plain : forall s r, plain_text s -> read_string (s ++ 34 :: r) = Some (s, r).
Proof.
  induction s as [|c s IH]; intros r H; [reflexivity|]. inversion H as [|? ? (H1 & H2 & H3) Hs]; subst.
  cbn -[N.eqb]. apply N.eqb_neq in H1, H2. rewrite H1, H2, H3, IH by auto. reflexivity.
Qed.

Lemma read_value_plain : forall n s r, plain_text s -> hd_error r <> Some 34 ->
  read_value (S n) (34 :: s ++ 34 :: r) = Some (TString s, r).
Proof.
  intros n s r H Hr. cbn -[N.eqb read_string drop_prefix].
  change (34 =? 34) with true. cbv iota.
  assert (E : drop_prefix [34; 34] (s ++ 34 :: r) = None).
  { destruct s as [|c s].
    - destruct r as [|d r]; [reflexivity|]. cbn -[N.eqb]. change (34 =? 34) with true. cbv iota.
      destruct (34 =? d) eqn:E; auto. apply N.eqb_eq in E. subst d. now elim Hr.
    - inversion H as [|? ? (H1 & _) _]; subst. cbn -[N.eqb].
      replace (34 =? c) with false; auto. symmetry. apply N.eqb_neq. congruence. }
  rewrite E, read_string_plain by auto. reflexivity.
Qed.

Definition bare_text (k : str) : bool := match k with [] => false | _ => forallb bare k end.

Lemma read_key_bare : forall k c r, bare_text k = true -> bare c = false -> read_key (k ++ c :: r) = Some (k, c :: r).
Proof.
  intros k c r Hk Hc. unfold read_key.
  assert (E : span_bare (k ++ c :: r) = (k, c :: r)).
  { assert (Hf : forallb bare k = true) by (destruct k; [discriminate|exact Hk]). clear Hk.
    induction k as [|x k IH]; cbn in *.
    - now rewrite Hc.
    - apply andb_true_iff in Hf as (Hx & Hf). rewrite Hx, (IH Hf). reflexivity. }
  rewrite E. destruct k; [discriminate|reflexivity].
Qed.

(** A line with a key and some value. *)
Lemma read_line_entry : forall k t v, bare_text k = true -> hd_error t = Some 34 \/ hd_error t = Some (ch "[") ->
  read_value (length t) t = Some (v, []) -> read_line (k ++ lit " = " ++ t) = Some (LEntry k v).
Proof.
  intros k t v Hk Ht Hv. unfold read_line.
  assert (E : skip (k ++ lit " = " ++ t) = k ++ lit " = " ++ t /\ exists c r, k = c :: r /\ (c =? ch "[") = false).
  { destruct k as [|c k]; [discriminate|]. cbn [bare_text forallb] in Hk. apply andb_true_iff in Hk as (Hc & _).
    assert (blank c = false /\ (c =? ch "[") = false) as (Hb & Hn).
    { unfold bare, blank in *. change (ch "[") with 91.
      destruct (c =? 32) eqn:E1; [apply N.eqb_eq in E1; subst; discriminate|].
      destruct (c =? 9) eqn:E2; [apply N.eqb_eq in E2; subst; discriminate|].
      destruct (c =? 91) eqn:E3; [apply N.eqb_eq in E3; subst; discriminate|]. auto. }
    split; [cbn; now rewrite Hb|eauto]. }
  destruct E as (E & c & r & -> & Hn). rewrite E. cbn [app]. rewrite Hn.
  change (c :: r ++ lit " = " ++ t) with ((c :: r) ++ 32 :: 61 :: 32 :: t).
  rewrite (read_key_bare _ 32); [|exact Hk|reflexivity].
  assert (Eq : read_equals (32 :: 61 :: 32 :: t) = Some t).
  { unfold read_equals. cbn. destruct t as [|x t]; [reflexivity|]. cbn. cbn in Ht. unfold blank.
    destruct Ht as [Ht|Ht]; injection Ht as ->; reflexivity. }
  rewrite Eq, Hv. reflexivity.
Qed.

Lemma read_line_string : forall k s, bare_text k = true -> plain_text s ->
  read_line (k ++ lit " = " ++ quote_char ++ s ++ quote_char) = Some (LEntry k (TString s)).
Proof.
  intros k s Hk Hs. apply read_line_entry; auto. unfold quote_char. cbn [app length].
  rewrite read_value_plain; auto. discriminate.
Qed.

Lemma read_line_array : forall k s, bare_text k = true -> plain_text s ->
  read_line (k ++ lit " = [" ++ quote_char ++ s ++ quote_char ++ lit "]") = Some (LEntry k (TArray [TString s])).
Proof.
  intros k s Hk Hs.
  change (lit " = [" ++ quote_char ++ s ++ quote_char ++ lit "]") with (lit " = " ++ (ch "[" :: 34 :: s ++ 34 :: [ch "]"])).
  apply read_line_entry; auto. cbn [length]. rewrite app_length. cbn [length].
  replace (S (S (length s + 2))) with (S (S (S (S (length s))))) by lia.
  change (read_value (S (S (S (S (length s))))) (ch "[" :: 34 :: s ++ 34 :: [ch "]"]))
    with (match read_items (read_value (S (S (S (length s))))) (length (34 :: s ++ 34 :: [ch "]"])) (34 :: s ++ 34 :: [ch "]"]) with
          | Some (l, t) => Some (TArray l, t) | None => None end).
  assert (E : read_items (read_value (S (S (S (length s))))) (length (34 :: s ++ 34 :: [ch "]"])) (34 :: s ++ 34 :: [ch "]"])
              = Some ([TString s], [])).
  { cbn [length read_items]. change (skip (34 :: s ++ 34 :: [ch "]"])) with (34 :: s ++ 34 :: [ch "]"]).
    change (34 =? ch "]") with false. cbv iota. rewrite read_value_plain; auto. discriminate. }
  now rewrite E.
Qed.

Lemma plain_no_newline : forall s, plain_text s -> ~ In 10 s.
Proof. intros s H Hi. unfold plain_text in H. rewrite Forall_forall in H. destruct (H _ Hi) as (_ & _ & E). discriminate. Qed.

Lemma quoted_no_newline : forall k s, ~ In 10 k -> plain_text s -> ~ In 10 (k ++ lit " = " ++ quote_char ++ s ++ quote_char).
Proof.
  intros k s Hk Hs Hi. apply in_app_iff in Hi as [Hi|Hi]; [easy|].
  apply in_app_iff in Hi as [Hi|Hi]; [now vm_compute in Hi; intuition discriminate|].
  apply in_app_iff in Hi as [Hi|Hi]; [now vm_compute in Hi; intuition discriminate|].
  apply in_app_iff in Hi as [Hi|Hi]; [now apply plain_no_newline in Hs|].
  now vm_compute in Hi; intuition discriminate.
Qed.

(** One line of text read by itself. *)
Lemma toml_line : forall e k v, ~ In 10 e -> read_line e = Some (LEntry k v) -> toml e = Some [([], k, v)].
Proof. intros e k v Hn He. unfold toml. rewrite split_lines_last by auto. cbn. now rewrite He. Qed.

(** ** The manifest *)

(** The lines of a list of entries. *)
Lemma dependency_lines : forall deps kvs,
  Forall2 (fun e kv => ~ In 10 e /\ read_line e = Some (LEntry (fst kv) (snd kv))) deps kvs ->
  exists blanks, (blanks = [LBlank; LBlank] \/ blanks = [LBlank; LBlank; LBlank]) /\
  read_lines (split_lines (join_str [10] deps ++ [10] ++ [10]))
    = Some (map (fun kv => LEntry (fst kv) (snd kv)) kvs ++ blanks).
Proof.
  intros deps kvs H. destruct H as [|e kv deps kvs (Hn & He) H]; [eexists; split; [right|]; reflexivity|].
  exists [LBlank; LBlank]. split; [now left|]. revert e kv Hn He.
  induction H as [|e' kv' deps kvs (Hn' & He') H IH]; intros e kv Hn He.
  - cbn [join_str app]. rewrite split_lines_line by auto. cbn. now rewrite He.
  - change (join_str [10] (e :: e' :: deps)) with (e ++ [10] ++ join_str [10] (e' :: deps)).
    rewrite <- app_assoc. cbn [app]. rewrite split_lines_line by auto. cbn [read_lines]. rewrite He.
    specialize (IH _ _ Hn' He'). cbn [app] in IH. rewrite IH. reflexivity.
Qed.

Lemma last_default : forall {A} (l : list A) x d d', last (x :: l) d = last (x :: l) d'.
Proof. induction l as [|y l IH]; intros x d d'; [reflexivity|]. exact (IH y d d'). Qed.

Lemma entries_app : forall a b t, entries t (a ++ b) = entries t a ++ entries (last (t :: tables a) t) b.
Proof.
  induction a as [|[|k|k v] a IH]; intros b t; cbn [app entries tables]; auto.
  - rewrite IH. f_equal. f_equal. change (last (t :: k :: tables a) t) with (last (k :: tables a) t). apply last_default.
  - rewrite IH. reflexivity.
Qed.

Lemma entries_fields : forall t kvs, entries t (map (fun kv => LEntry (fst kv) (snd kv)) kvs)
  = map (fun kv => (t, fst kv, snd kv)) kvs.
Proof. induction kvs as [|kv kvs IH]; cbn; [reflexivity|]. now rewrite IH. Qed.

Lemma tables_fields : forall kvs : list (str * tval), tables (map (fun kv => LEntry (fst kv) (snd kv)) kvs) = [].
Proof. induction kvs as [|kv kvs IH]; cbn; auto. Qed.

Lemma unambiguous_nodup : forall l, NoDup (map fst l) -> unambiguous l = true.
Proof.
  induction l as [|((t, k), v) l IH]; cbn; intro H; [reflexivity|]. inversion H as [|? ? Hn Hd]; subst.
  rewrite (IH Hd), andb_true_r. apply negb_true_iff. apply not_true_is_false. intro E.
  apply existsb_exists in E as (((t', k'), v') & Hi & E). cbn in E. apply andb_true_iff in E as (E1 & E2).
  apply str_eqb_spec in E1, E2. subst. apply Hn. apply in_map_iff. now exists (t, k, v').
Qed.

Lemma top_keys_table : forall t (l : list (str * tval)), t <> [] -> top_keys (map (fun kv => (t, fst kv, snd kv)) l) = [].
Proof. intros [|c t] l H; [easy|]. unfold top_keys. induction l as [|kv l IH]; auto. Qed.

(** The manifest, line by line. *)
Lemma manifest_toml : forall a deps kvs, plain_args a ->
  Forall2 (fun e kv => ~ In 10 e /\ read_line e = Some (LEntry (fst kv) (snd kv))) deps kvs ->
  NoDup (map fst kvs) ->
  toml (manifest a deps) = Some (map (fun kv => (lit "package", fst kv, snd kv)) (package_fields a)
                                 ++ map (fun kv => (lit "dependencies", fst kv, snd kv)) kvs).
Proof.
  intros a deps kvs (Hn & Hv & Hl & Hr) Hd Hk.
  destruct (dependency_lines _ _ Hd) as (blanks & Hb & Hlines).
  assert (E : read_lines (split_lines (manifest a deps))
    = Some ([LTable (lit "package")] ++ map (fun kv => LEntry (fst kv) (snd kv)) (package_fields a)
            ++ [LBlank; LTable (lit "dependencies")] ++ map (fun kv => LEntry (fst kv) (snd kv)) kvs ++ blanks)).
  { unfold manifest, manifest_package, manifest_dependencies.
    assert (Enl : forall x y, (lit x ++ quote_char ++ y ++ quote_char ++ [10])
                   = ((lit x ++ quote_char ++ y ++ quote_char) ++ [10])) by (intros; now rewrite !app_assoc).
    repeat rewrite <- app_assoc.
    change (lit "[package]" ++ [10] ++ ?x) with (lit "[package]" ++ 10 :: x).
    rewrite split_lines_line by (vm_compute; intuition discriminate). cbn [read_lines].
    change (read_line (lit "[package]")) with (Some (LTable (lit "package"))). cbv iota.
    assert (Hline : forall k s rest L, bare_text k = true -> ~ In 10 k -> plain_text s ->
              read_lines (split_lines rest) = Some L ->
              read_lines (split_lines (k ++ lit " = " ++ quote_char ++ s ++ quote_char ++ [10] ++ rest))
              = Some (LEntry k (TString s) :: L)).
    { intros k s rest L Hbk Hnk Hs HL.
      replace (k ++ lit " = " ++ quote_char ++ s ++ quote_char ++ [10] ++ rest)
        with ((k ++ lit " = " ++ quote_char ++ s ++ quote_char) ++ 10 :: rest) by (now rewrite <- !app_assoc).
      rewrite split_lines_line by (now apply quoted_no_newline). cbn [read_lines].
      rewrite read_line_string by auto. now rewrite HL. }
    assert (Hrest : read_lines (split_lines (manifest_publish (ca_registry_name a)
        ++ [10] ++ lit "[dependencies]" ++ [10] ++ join_str [10] deps ++ [10] ++ [10]))
      = Some (map (fun kv => LEntry (fst kv) (snd kv))
                (match ca_registry_name a with Some r => [(lit "publish", TArray [TString r])] | None => [] end)
              ++ [LBlank; LTable (lit "dependencies")] ++ map (fun kv => LEntry (fst kv) (snd kv)) kvs ++ blanks)).
    { assert (Ht : read_lines (split_lines ([10] ++ lit "[dependencies]" ++ [10] ++ join_str [10] deps ++ [10] ++ [10]))
        = Some ([LBlank; LTable (lit "dependencies")] ++ map (fun kv => LEntry (fst kv) (snd kv)) kvs ++ blanks)).
      { change ([10] ++ ?x) with ([] ++ 10 :: x) at 1. rewrite split_lines_line by (intros []). cbn [read_lines].
        change (lit "[dependencies]" ++ [10] ++ ?x) with (lit "[dependencies]" ++ 10 :: x).
        rewrite split_lines_line by (vm_compute; intuition discriminate). cbn [read_lines].
        change (read_line (lit "[dependencies]")) with (Some (LTable (lit "dependencies"))).
        change (read_line []) with (Some LBlank). cbv iota. now rewrite Hlines. }
      unfold manifest_publish. destruct (ca_registry_name a) as [r|]; [|exact Ht].
      assert (Hpr : plain_text r) by now apply Hr.
      replace ((lit "publish = [" ++ quote_char ++ r ++ quote_char ++ lit "]" ++ [10])
               ++ [10] ++ lit "[dependencies]" ++ [10] ++ join_str [10] deps ++ [10] ++ [10])
        with ((lit "publish" ++ lit " = [" ++ quote_char ++ r ++ quote_char ++ lit "]")
               ++ 10 :: ([10] ++ lit "[dependencies]" ++ [10] ++ join_str [10] deps ++ [10] ++ [10]))
        by (now rewrite <- !app_assoc).
      rewrite split_lines_line.
      - cbn [read_lines]. rewrite read_line_array by auto. rewrite Ht. reflexivity.
      - intro Hi. apply in_app_iff in Hi as [Hi|Hi]; [vm_compute in Hi; intuition discriminate|].
        apply in_app_iff in Hi as [Hi|Hi]; [vm_compute in Hi; intuition discriminate|].
        apply in_app_iff in Hi as [Hi|Hi]; [vm_compute in Hi; intuition discriminate|].
        apply in_app_iff in Hi as [Hi|Hi]; [now apply plain_no_newline in Hi|].
        apply in_app_iff in Hi as [Hi|Hi]; vm_compute in Hi; intuition discriminate. }
    pose proof (Hline (lit "license") (ca_license_name a) _ _ eq_refl ltac:(vm_compute; intuition discriminate) Hl Hrest) as H4.
    pose proof (Hline (lit "edition") (lit "2021") _ _ eq_refl ltac:(vm_compute; intuition discriminate)
                  ltac:(repeat (apply Forall_cons; [vm_compute; intuition discriminate|]); apply Forall_nil) H4) as H3.
    pose proof (Hline (lit "version") (ca_version a) _ _ eq_refl ltac:(vm_compute; intuition discriminate) Hv H3) as H2.
    pose proof (Hline (lit "name") (ca_name a) _ _ eq_refl ltac:(vm_compute; intuition discriminate) Hn H2) as H1.
    match goal with |- match ?x with Some _ => _ | None => _ end = _ =>
      match type of H1 with ?y = _ => change x with y end end.
    rewrite H1. reflexivity. }
  unfold toml. rewrite E. cbv zeta.
  assert (Et : tables ([LTable (lit "package")] ++ map (fun kv => LEntry (fst kv) (snd kv)) (package_fields a)
            ++ [LBlank; LTable (lit "dependencies")] ++ map (fun kv => LEntry (fst kv) (snd kv)) kvs ++ blanks)
          = [lit "package"; lit "dependencies"]).
  { rewrite !tables_app, !tables_fields. destruct Hb as [-> | ->]; reflexivity. }
  assert (Ee : entries [] ([LTable (lit "package")] ++ map (fun kv => LEntry (fst kv) (snd kv)) (package_fields a)
            ++ [LBlank; LTable (lit "dependencies")] ++ map (fun kv => LEntry (fst kv) (snd kv)) kvs ++ blanks)
          = map (fun kv => (lit "package", fst kv, snd kv)) (package_fields a)
            ++ map (fun kv => (lit "dependencies", fst kv, snd kv)) kvs).
  { cbn [app entries]. rewrite entries_app, entries_fields, tables_fields. cbn [last app entries].
    rewrite entries_app, entries_fields, tables_fields. cbn [last].
    replace (entries (lit "dependencies") blanks) with (@nil (str * str * tval)) by (destruct Hb as [-> | ->]; reflexivity).
    now rewrite app_nil_r. }
  rewrite Et, Ee.
  assert (Etop : top_keys (map (fun kv => (lit "package", fst kv, snd kv)) (package_fields a)
            ++ map (fun kv => (lit "dependencies", fst kv, snd kv)) kvs) = []).
  { unfold top_keys. rewrite flat_map_app. fold (top_keys (map (fun kv => (lit "package", fst kv, snd kv)) (package_fields a))).
    fold (top_keys (map (fun kv => (lit "dependencies", fst kv, snd kv)) kvs)). now rewrite !top_keys_table by discriminate. }
  rewrite Etop. change (distinct ([lit "package"; lit "dependencies"] ++ [])) with true. cbn [andb].
  rewrite unambiguous_nodup; [reflexivity|].
  rewrite map_app, !map_map. cbn [fst].
  assert (Hpk : NoDup (map (fun kv : str * tval => (lit "package", fst kv)) (package_fields a))).
  { unfold package_fields. destruct (ca_registry_name a); cbn [map app fst];
    repeat (apply NoDup_cons; [vm_compute; intuition discriminate|]); apply NoDup_nil. }
  assert (Hdk : NoDup (map (fun kv : str * tval => (lit "dependencies", fst kv)) kvs)).
  { rewrite <- (map_map fst (fun k => (lit "dependencies", k))). apply FinFun.Injective_map_NoDup; auto.
    intros x y Hxy. now injection Hxy. }
  clear -Hpk Hdk. revert Hpk. generalize (package_fields a). intros l Hpk. induction l as [|kv l IH]; cbn; auto.
  inversion Hpk as [|? ? Hx Hl]; subst. constructor; [|auto]. intro Hi. apply in_app_iff in Hi as [Hi|Hi]; [easy|].
  apply in_map_iff in Hi as (kv' & Hkv & _). apply (f_equal fst) in Hkv. cbn [fst] in Hkv. vm_compute in Hkv. discriminate.
Qed.

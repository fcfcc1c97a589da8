(** Facts about CrateModel.v. *)
From Verif Require Import Base OasModel OpModel GenerateModel GenerateSpec CargoModel CargoSpec CargoProofs SpaceModel
  CrateModel TomlSpec CrateSpec TomlProofs.
Local Open Scope N_scope.

(** ** The manifest *)

Lemma flag_line : forall ts fu ws own v e, plain_text v -> In e (map snd (flags ts fu ws own v)) ->
  ~ In 10 e /\ exists x, read_line e = Some (LEntry (entry_name e) x).
Proof.
  intros ts fu ws own v e Hv He. unfold flags in He. cbn [map snd] in He.
  assert (Hc : forall s, existsb (N.eqb 10) (lit s) = false -> ~ In 10 (lit s)).
  { intros s Hs Hi. enough (existsb (N.eqb 10) (lit s) = true) by congruence. apply existsb_exists. exists 10. split; auto. }
  repeat (destruct He as [<-|He];
    [try (split; [now apply Hc|eexists; vm_compute; reflexivity])|]); [|easy].
  change (lit "progenitor-client = """ ++ v ++ lit """")
    with (lit "progenitor-client" ++ lit " = " ++ quote_char ++ v ++ quote_char).
  split; [apply quoted_no_newline; auto; apply Hc; reflexivity|].
  exists (TString v). rewrite read_line_string; auto.
Qed.

Lemma manifest_read : forall U add_ref_types types s d g l,
  generate_tokens U add_ref_types types s d = Ok g -> operations_in_order d l ->
  forall non_release pkg_version v ts a, support_version non_release pkg_version v ->
  plain_text v -> plain_args a ->
  exists es,
    toml (manifest a (dependencies non_release pkg_version ts (ge_futures g) (ge_websockets g) (ca_include_client a))) = Some es
    /\ forall t k x, In (t, k, x) es <->
         (t = lit "package" /\ In (k, x) (package_fields a))
         \/ (t = lit "dependencies" /\ exists e, needed ts (ge_code g) (ca_include_client a) v e /\ toml e = Some [([], k, x)]).
Proof.
  intros U add types s d g l Hg Hl nr pv v ts a Hv Hpv Ha.
  destruct (crate_dependencies _ _ _ _ _ _ _ Hg Hl nr pv v ts (ca_include_client a) Hv) as (_ & Hnd & Hin).
  set (deps := dependencies nr pv ts (ge_futures g) (ge_websockets g) (ca_include_client a)) in *.
  assert (Hlines : forall e, In e deps -> ~ In 10 e /\ exists x, read_line e = Some (LEntry (entry_name e) x)).
  { intros e He. unfold deps in He. rewrite dependencies_flagged in He. apply version_spec in Hv. rewrite <- Hv in He.
    apply in_map_iff in He as (fe & <- & He). apply filter_In in He as (He & _).
    eapply flag_line; [exact Hpv|]. apply in_map. exact He. }
  assert (Hkvs : exists kvs, map fst kvs = map entry_name deps /\
     Forall2 (fun e kv => ~ In 10 e /\ read_line e = Some (LEntry (fst kv) (snd kv))) deps kvs).
  { clear -Hlines. induction deps as [|e deps IH]; [exists []; split; constructor|].
    destruct IH as (kvs & Hk & Hf); [intros e' He'; apply Hlines; now right|].
    destruct (Hlines e (or_introl eq_refl)) as (Hn & x & Hx).
    exists ((entry_name e, x) :: kvs). split; [cbn; now rewrite Hk|]. constructor; auto. }
  destruct Hkvs as (kvs & Hk & Hf). rewrite <- Hk in Hnd.
  eexists. split; [exact (manifest_toml _ _ _ Ha Hf Hnd)|]. intros t k x. rewrite in_app_iff, !in_map_iff.
  split.
  - intros [((k', x') & E & Hi)|((k', x') & E & Hi)]; cbn [fst snd] in E; injection E as <- <- <-; [left|right]; split; auto.
    assert (exists e, In e deps /\ ~ In 10 e /\ read_line e = Some (LEntry k' x')) as (e & He & Hn & Hr).
    { clear -Hf Hi. induction Hf as [|e kv deps kvs Hekv Hf IH]; [easy|]. destruct Hi as [->|Hi].
      - exists e. split; [now left|exact Hekv].
      - destruct (IH Hi) as (e' & He' & H). exists e'. split; [now right|exact H]. }
    exists e. split; [now apply Hin|]. exact (toml_line _ _ _ Hn Hr).
  - intros [(-> & Hi)|(-> & e & He & Ht)]; [left|right]; exists (k, x); split; auto.
    apply Hin in He. destruct (Hlines e He) as (Hn & x' & Hx). rewrite (toml_line _ _ _ Hn Hx) in Ht.
    injection Ht as <- <-.
    clear -Hf He Hx. induction Hf as [|e' kv deps kvs Hekv Hf IH]; [easy|]. destruct He as [->|He].
    + destruct Hekv as (_ & E). rewrite Hx in E. destruct kv as (k1, x1). cbn [fst snd] in E. injection E as -> ->. now left.
    + right. auto.
Qed.

(** ** Files *)

Lemma path_eqb_spec : forall a b, path_eqb a b = true <-> a = b.
Proof.
  induction a as [|x a IH]; intros [|y b]; cbn; try easy.
  rewrite andb_true_iff, str_eqb_spec, IH. split; [intros (-> & ->); auto|]. intro H. injection H as -> ->. auto.
Qed.

Lemma content_put : forall p q data fs, content q (put p data fs) = if path_eqb q p then Some data else content q fs.
Proof.
  intros p q data fs. induction fs as [|(r, c) fs IH]; cbn; [reflexivity|].
  destruct (path_eqb p r) eqn:Epr; cbn.
  - apply path_eqb_spec in Epr. subst r. destruct (path_eqb q p); auto.
  - rewrite IH. destruct (path_eqb q r) eqn:Eqr; auto. apply path_eqb_spec in Eqr. subst r.
    destruct (path_eqb q p) eqn:Eqp; auto. apply path_eqb_spec in Eqp. subst q.
    now rewrite (proj2 (path_eqb_spec p p) eq_refl) in Epr.
Qed.

Lemma put_content : forall p data fs, content p fs = Some data -> put p data fs = fs.
Proof.
  induction fs as [|(r, c) fs IH]; cbn; [easy|]. destruct (path_eqb p r) eqn:E; intro H.
  - now injection H as ->.
  - now rewrite IH.
Qed.

Section Main.
Variable json yaml : str -> option openapi.
Variable mkdir readable : list str -> bool.
Variable writes : list str -> write_result.
Variable generate : settings -> openapi -> outcome generated_code.
Variable text_of : generated_code -> str.
Variable uses_of : settings -> openapi -> type_uses.
Variable rustfmt : str -> option str.
Variable client_code : str.
Variable windows non_release : bool.
Variable pkg_version : option str.
Notation run := (main json yaml mkdir readable writes generate text_of uses_of rustfmt client_code windows non_release pkg_version).
Notation deps a d g := (dependencies non_release pkg_version (uses_of (crate_settings a) d) (ge_futures g) (ge_websockets g) (ca_include_client a)).

Lemma load_iff : forall p fs d, load_api json yaml readable p fs = Some d <->
  readable p = true /\ exists c, content p fs = Some c /\ document json yaml c d.
Proof.
  intros p fs d. unfold load_api. destruct (readable p).
  - destruct (content p fs) as [c|].
    + split.
      * intro H. split; auto. exists c. split; auto. destruct (json c) eqn:E; [left|right]; congruence.
      * intros (_ & c' & Hc & Hd). injection Hc as <-. destruct Hd as [->| -> ->]; reflexivity.
    + split; [discriminate|]. intros (_ & c & Hc & _). discriminate.
  - split; [discriminate|]. now intros (H & _).
Qed.

Lemma save_ok : forall p data fs fs', save writes p data fs = (true, fs') <-> writes p = Written /\ fs' = put p data fs.
Proof.
  intros p data fs fs'. unfold save. destruct (writes p); split; intro H; try easy.
  - injection H as <-. auto.
  - now destruct H as (_ & ->).
Qed.

Lemma save_others : forall p data fs ok fs' q, save writes p data fs = (ok, fs') -> q <> p -> content q fs' = content q fs.
Proof.
  intros p data fs ok fs' q H Hq. assert (E : path_eqb q p = false) by (apply not_true_is_false; now rewrite path_eqb_spec).
  unfold save in H. destruct (writes p); injection H as <- <-; auto; now rewrite content_put, E.
Qed.

(** Nothing but the files of the crate is touched. *)
Lemma main_others : forall a fs e fs' p, run a fs = (e, fs') -> ~ In p (crate_paths a) -> content p fs' = content p fs.
Proof.
  intros a fs e fs' p H Hp. unfold main in H.
  assert (p <> manifest_path a) as Hp1 by (intros ->; apply Hp; now left).
  assert (p <> lib_path a) as Hp2 by (intros ->; apply Hp; right; now left).
  destruct (load_api _ _ _ _ _) as [d|]; [|now injection H as <- <-].
  destruct (generate _ _) as [g|er|m]; [|now injection H as <- <-|now injection H as <- <-].
  destruct (mkdir (ca_output a)); cbn [negb] in H; [|now injection H as <- <-].
  destruct (save _ _ _ fs) as (ok1, fs1) eqn:E1. apply (save_others _ _ _ _ _ p) in E1; [|exact Hp1].
  destruct ok1; cbn [negb] in H; [|now injection H as <- <-].
  destruct (mkdir _); cbn [negb] in H; [|now injection H as <- <-].
  destruct (reformat_code _ _ _) as [code|er|m]; [|now injection H as <- <-|now injection H as <- <-].
  destruct (save _ _ code fs1) as (ok2, fs2) eqn:E2. apply (save_others _ _ _ _ _ p) in E2;
    [|rewrite <- app_assoc; exact Hp2].
  destruct ok2; cbn [negb] in H; [|injection H as <- <-; congruence].
  destruct (ca_include_client a) eqn:Ei; [|injection H as <- <-; congruence].
  destruct (save _ _ client_code fs2) as (ok3, fs3) eqn:E3. apply (save_others _ _ _ _ _ p) in E3.
  - injection H as <- <-. congruence.
  - rewrite <- app_assoc. intros ->. apply Hp. unfold crate_paths. rewrite Ei. right. right. now left.
Qed.

(** Without a document, or if it cannot be generated from, nothing is written. *)
Lemma main_nothing : forall a fs e fs', run a fs = (e, fs') ->
  (forall d, ~ (readable (ca_input a) = true /\ exists c, content (ca_input a) fs = Some c /\ document json yaml c d))
  \/ (exists d, (readable (ca_input a) = true /\ exists c, content (ca_input a) fs = Some c /\ document json yaml c d)
        /\ forall g, generate (crate_settings a) d <> Ok g) ->
  e <> ExitOk /\ fs' = fs.
Proof.
  intros a fs e fs' H Hn. unfold main in H. destruct (load_api _ _ _ _ _) as [d|] eqn:El.
  - apply load_iff in El. destruct Hn as [Hn|(d' & Hd' & Hg)]; [now elim (Hn d)|].
    assert (d' = d). { apply load_iff in El, Hd'. congruence. } subst d'.
    destruct (generate _ _) as [g|er|m]; [now elim (Hg g)| |]; injection H as <- <-; split; auto; discriminate.
  - injection H as <- <-. split; auto. discriminate.
Qed.

(** When it succeeds. *)
Lemma main_ok : forall a fs fs', run a fs = (ExitOk, fs') <->
  exists d g code,
    (readable (ca_input a) = true /\ exists c, content (ca_input a) fs = Some c /\ document json yaml c d)
    /\ generate (crate_settings a) d = Ok g
    /\ mkdir (ca_output a) = true /\ mkdir (ca_output a ++ [lit "src"]) = true
    /\ Forall (fun p => writes p = Written) (crate_paths a)
    /\ rustfmt (lib_text text_of a g) = Some code
    /\ fs' = (let fs1 := put (lib_path a) (replace_all windows (length code) code)
                           (put (manifest_path a) (manifest a (deps a d g)) fs) in
              if ca_include_client a then put (support_path a) client_code fs1 else fs1).
Proof.
  intros a fs fs'. unfold main.
  assert (Ep : forall x, (ca_output a ++ [lit "src"]) ++ [x] = ca_output a ++ [lit "src"; x]) by (intro; now rewrite <- app_assoc).
  split.
  - intro H. destruct (load_api _ _ _ _ _) as [d|] eqn:El; [|discriminate].
    destruct (generate _ _) as [g|er|m] eqn:Eg; [|discriminate|discriminate].
    destruct (mkdir (ca_output a)) eqn:Em1; cbn [negb] in H; [|discriminate].
    destruct (save _ _ _ fs) as ([|], fs1) eqn:E1; cbn [negb] in H; [|discriminate].
    destruct (mkdir (ca_output a ++ [lit "src"])) eqn:Em2; cbn [negb] in H; [|discriminate].
    unfold reformat_code in H. destruct (rustfmt (lib_text text_of a g)) as [code|] eqn:Er; [|discriminate].
    unfold space_out_items in H.
    destruct (save _ _ _ fs1) as ([|], fs2) eqn:E2; cbn [negb] in H; [|discriminate].
    apply save_ok in E1 as (Hw1 & ->). apply save_ok in E2 as (Hw2 & ->). rewrite Ep in *.
    exists d, g, code. apply load_iff in El. split; [exact El|]. split; [exact Eg|]. split; [assumption||reflexivity|]. split; [assumption||reflexivity|].
    unfold crate_paths. destruct (ca_include_client a).
    + destruct (save _ _ client_code _) as ([|], fs3) eqn:E3; [|discriminate]. injection H as <-.
      apply save_ok in E3 as (Hw3 & ->). rewrite Ep in *. split; [|split; [exact Er|reflexivity]].
      repeat (apply Forall_cons; [assumption|]). apply Forall_nil.
    + injection H as <-. rewrite ?Ep in *. split; [|split; [exact Er|reflexivity]]. repeat (apply Forall_cons; [assumption|]). apply Forall_nil.
  - intros (d & g & code & Hl & Hg & Hm1 & Hm2 & Hw & Hr & ->). apply load_iff in Hl. rewrite Hl, Hg, Hm1. cbn [negb].
    unfold crate_paths in Hw. inversion Hw as [|? ? Hw1 Hw']; subst. inversion Hw' as [|? ? Hw2 Hw'']; subst.
    rewrite (proj2 (save_ok (ca_output a ++ [lit "Cargo.toml"]) _ fs _) (conj Hw1 eq_refl)). cbn [negb]. rewrite Hm2. cbn [negb].
    unfold reformat_code. rewrite Hr. unfold space_out_items. rewrite Ep.
    rewrite (proj2 (save_ok (ca_output a ++ [lit "src"; lit "lib.rs"]) _ _ _) (conj Hw2 eq_refl)). cbn [negb].
    destruct (ca_include_client a); [|reflexivity]. inversion Hw'' as [|? ? Hw3 _]; subst. rewrite Ep.
    rewrite (proj2 (save_ok (ca_output a ++ [lit "src"; lit "progenitor_client.rs"]) _ _ _) (conj Hw3 eq_refl)). reflexivity.
Qed.

Lemma main_success : forall a fs fs', run a fs = (ExitOk, fs') <->
  exists d g code lib,
    (readable (ca_input a) = true /\ exists c, content (ca_input a) fs = Some c /\ document json yaml c d)
    /\ generate (crate_settings a) d = Ok g
    /\ mkdir (ca_output a) = true /\ mkdir (ca_output a ++ [lit "src"]) = true
    /\ Forall (fun p => writes p = Written) (crate_paths a)
    /\ rustfmt (lib_text text_of a g) = Some code /\ space_out_items windows code = Ok lib
    /\ fs' = (let fs1 := put (lib_path a) lib (put (manifest_path a) (manifest a (deps a d g)) fs) in
              if ca_include_client a then put (support_path a) client_code fs1 else fs1).
Proof.
  intros a fs fs'. rewrite main_ok. split.
  - intros (d & g & code & H1 & H2 & H3 & H4 & H5 & H6 & H7). exists d, g, code, (replace_all windows (length code) code).
    repeat (split; [assumption||reflexivity|]). exact H7.
  - intros (d & g & code & lib & H1 & H2 & H3 & H4 & H5 & H6 & H7 & H8). exists d, g, code. injection H7 as <-.
    repeat (split; [assumption||reflexivity|]). exact H8.
Qed.

Lemma paths_differ : forall a, path_eqb (manifest_path a) (lib_path a) = false /\ path_eqb (manifest_path a) (support_path a) = false
  /\ path_eqb (lib_path a) (support_path a) = false.
Proof.
  intro a. unfold manifest_path, lib_path, support_path. repeat split; apply not_true_is_false; rewrite path_eqb_spec; intro H;
  apply app_inv_head in H; revert H; vm_compute; discriminate.
Qed.

(** The files of the crate afterwards. *)
Lemma main_files : forall a fs fs', run a fs = (ExitOk, fs') ->
  exists d g code lib,
    (readable (ca_input a) = true /\ exists c, content (ca_input a) fs = Some c /\ document json yaml c d)
    /\ generate (crate_settings a) d = Ok g
    /\ content (manifest_path a) fs' = Some (manifest a (deps a d g))
    /\ rustfmt (lib_text text_of a g) = Some code
    /\ space_out_items windows code = Ok lib /\ content (lib_path a) fs' = Some lib
    /\ (ca_include_client a = true -> content (support_path a) fs' = Some client_code).
Proof.
  intros a fs fs' H. apply main_ok in H as (d & g & code & Hl & Hg & _ & _ & _ & Hr & ->).
  exists d, g, code, (replace_all windows (length code) code).
  destruct (paths_differ a) as (H1 & H2 & H3). split; [exact Hl|]. split; [exact Hg|]. cbv zeta.
  destruct (ca_include_client a); rewrite !content_put, ?H1, ?H2, ?H3, !(proj2 (path_eqb_spec _ _) eq_refl);
  (split; [reflexivity|]; split; [exact Hr|]; split; [reflexivity|]; split; [reflexivity|]; now intros).
Qed.

(** A panic: of the generator, or after the manifest is written if the code cannot be formatted. *)
Lemma main_panic : forall a fs fs', run a fs = (ExitPanic, fs') <->
  exists d, (readable (ca_input a) = true /\ exists c, content (ca_input a) fs = Some c /\ document json yaml c d)
    /\ ((exists m, generate (crate_settings a) d = Panic m) /\ fs' = fs
        \/ exists g, generate (crate_settings a) d = Ok g
             /\ mkdir (ca_output a) = true /\ writes (manifest_path a) = Written /\ mkdir (ca_output a ++ [lit "src"]) = true
             /\ rustfmt (lib_text text_of a g) = None /\ fs' = put (manifest_path a) (manifest a (deps a d g)) fs).
Proof.
  intros a fs fs'. unfold main. split.
  - intro H. destruct (load_api _ _ _ _ _) as [d|] eqn:El; [|discriminate]. apply load_iff in El. exists d. split; [exact El|].
    destruct (generate _ _) as [g|er|m] eqn:Eg; [|discriminate|injection H as <-; left; split; [now exists m|reflexivity]].
    right. exists g. split; [reflexivity|].
    destruct (mkdir (ca_output a)) eqn:Em1; cbn [negb] in H; [|discriminate].
    destruct (save _ _ _ fs) as ([|], fs1) eqn:E1; cbn [negb] in H; [|discriminate].
    apply save_ok in E1 as (Hw1 & ->).
    destruct (mkdir (ca_output a ++ [lit "src"])) eqn:Em2; cbn [negb] in H; [|discriminate].
    unfold reformat_code in H. destruct (rustfmt (lib_text text_of a g)) as [code|] eqn:Er.
    + unfold space_out_items in H. destruct (save _ _ _ (put _ _ _)) as ([|], fs2); cbn [negb] in H; [|discriminate].
      destruct (ca_include_client a); [|discriminate]. destruct (save _ _ client_code _) as ([|], fs3); discriminate.
    + injection H as <-. repeat (split; [assumption||reflexivity|]). reflexivity.
  - intros (d & Hl & [((m & Hg) & ->)|(g & Hg & Hm1 & Hw & Hm2 & Hr & ->)]); apply load_iff in Hl; rewrite Hl, Hg; [reflexivity|].
    rewrite Hm1. cbn [negb]. rewrite (proj2 (save_ok (ca_output a ++ [lit "Cargo.toml"]) _ fs _) (conj Hw eq_refl)). cbn [negb].
    rewrite Hm2. cbn [negb]. unfold reformat_code. now rewrite Hr.
Qed.

(** Saving leaves everything alone, or part of the data in the file, or all of it. *)
Lemma save_prefix : forall p data fs ok fs', save writes p data fs = (ok, fs') ->
  (ok = false /\ fs' = fs)
  \/ (exists n, content p fs' = Some (firstn n data)) /\ (ok = true -> content p fs' = Some data).
Proof.
  intros p data fs ok fs' H. unfold save in H. pose proof (proj2 (path_eqb_spec p p) eq_refl) as E.
  destruct (writes p); injection H as <- <-.
  - now left.
  - right. split; [exists n; now rewrite content_put, E|discriminate].
  - right. rewrite content_put, E. split; [|reflexivity]. exists (length data). now rewrite firstn_all.
Qed.

(** However it ends, the files are written one after the other. *)
Lemma main_order : forall a fs e fs', run a fs = (e, fs') ->
  fs' = fs
  \/ exists d g,
       (readable (ca_input a) = true /\ exists c, content (ca_input a) fs = Some c /\ document json yaml c d)
       /\ generate (crate_settings a) d = Ok g
       /\ (exists n, content (manifest_path a) fs' = Some (firstn n (manifest a (deps a d g))))
       /\ ((content (lib_path a) fs' = content (lib_path a) fs /\ content (support_path a) fs' = content (support_path a) fs)
           \/ exists code lib,
                content (manifest_path a) fs' = Some (manifest a (deps a d g))
                /\ rustfmt (lib_text text_of a g) = Some code /\ space_out_items windows code = Ok lib
                /\ (exists n, content (lib_path a) fs' = Some (firstn n lib))
                /\ (content (support_path a) fs' = content (support_path a) fs
                    \/ ca_include_client a = true /\ content (lib_path a) fs' = Some lib
                       /\ exists n, content (support_path a) fs' = Some (firstn n client_code))).
Proof.
  intros a fs e fs' H. unfold main in H.
  assert (Ep : forall x, (ca_output a ++ [lit "src"]) ++ [x] = ca_output a ++ [lit "src"; x]) by (intro; now rewrite <- app_assoc).
  destruct (paths_differ a) as (D1 & D2 & D3).
  assert (N1 : manifest_path a <> lib_path a) by (rewrite <- path_eqb_spec, D1; discriminate).
  assert (N2 : manifest_path a <> support_path a) by (rewrite <- path_eqb_spec, D2; discriminate).
  assert (N3 : lib_path a <> support_path a) by (rewrite <- path_eqb_spec, D3; discriminate).
  destruct (load_api _ _ _ _ _) as [d|] eqn:El; [|injection H as <- <-; now left]. apply load_iff in El.
  destruct (generate _ _) as [g|er|m] eqn:Eg; [|injection H as <- <-; now left|injection H as <- <-; now left].
  destruct (mkdir (ca_output a)); cbn [negb] in H; [|injection H as <- <-; now left].
  destruct (save _ _ _ fs) as (ok1, fs1) eqn:E1. fold (manifest_path a) in E1.
  pose proof (save_others _ _ _ _ _ (lib_path a) E1 (fun E => N1 (eq_sym E))) as O1.
  pose proof (save_others _ _ _ _ _ (support_path a) E1 (fun E => N2 (eq_sym E))) as O2.
  destruct (save_prefix _ _ _ _ _ E1) as [(-> & ->)|(Hp1 & Hf1)]; [cbn [negb] in H; injection H as <- <-; now left|].
  right. exists d, g. split; [exact El|]. split; [exact Eg|].
  destruct ok1; cbn [negb] in H; [|injection H as <- <-; split; [exact Hp1|]; left; now split].
  specialize (Hf1 eq_refl).
  destruct (mkdir (ca_output a ++ [lit "src"])); cbn [negb] in H; [|injection H as <- <-; split; [exact Hp1|]; left; now split].
  unfold reformat_code in H. destruct (rustfmt (lib_text text_of a g)) as [code|];
    [|injection H as <- <-; split; [exact Hp1|]; left; now split].
  unfold space_out_items in H. set (lib := replace_all windows (length code) code) in *. rewrite !Ep in H.
  destruct (save _ _ lib fs1) as (ok2, fs2) eqn:E2. fold (lib_path a) in E2.
  pose proof (save_others _ _ _ _ _ (manifest_path a) E2 N1) as O3.
  pose proof (save_others _ _ _ _ _ (support_path a) E2 (fun E => N3 (eq_sym E))) as O4.
  destruct (save_prefix _ _ _ _ _ E2) as [(-> & ->)|(Hp2 & Hf2)];
    [cbn [negb] in H; injection H as <- <-; split; [exact Hp1|]; left; now split|].
  destruct ok2; cbn [negb] in H.
  - specialize (Hf2 eq_refl). destruct (ca_include_client a).
    + destruct (save _ _ client_code fs2) as (ok3, fs3) eqn:E3. injection H as <- <-. fold (support_path a) in E3.
      pose proof (save_others _ _ _ _ _ (manifest_path a) E3 N2) as O5.
      pose proof (save_others _ _ _ _ _ (lib_path a) E3 N3) as O6.
      rewrite O5, O6, O3. split; [exact Hp1|]. right. exists code, lib. split; [exact Hf1|]. split; [reflexivity|].
      split; [reflexivity|]. split; [exact Hp2|].
      destruct (save_prefix _ _ _ _ _ E3) as [(_ & ->)|(Hp3 & _)]; [left; congruence|]. right. split; [reflexivity|]. now split.
    + injection H as <- <-. rewrite O3. split; [exact Hp1|]. right. exists code, lib. split; [exact Hf1|]. split; [reflexivity|].
      split; [reflexivity|]. split; [exact Hp2|]. left. congruence.
  - injection H as <- <-. rewrite O3. split; [exact Hp1|]. right. exists code, lib. split; [exact Hf1|]. split; [reflexivity|].
    split; [reflexivity|]. split; [exact Hp2|]. left. congruence.
Qed.

(** Doing it again changes nothing. *)
Lemma main_again : forall a fs fs', ~ In (ca_input a) (crate_paths a) -> run a fs = (ExitOk, fs') -> run a fs' = (ExitOk, fs').
Proof.
  intros a fs fs' Hi H. pose proof (main_others _ _ _ _ _ H Hi) as Hc. pose proof (main_files _ _ _ H) as Hf.
  apply main_ok in H as (d & g & code & Hl & Hg & Hm1 & Hm2 & Hw & Hr & E).
  destruct Hf as (d' & g' & code' & lib & Hl' & Hg' & Hf1 & Hr' & Hs & Hf2 & Hf3).
  assert (d' = d) by (apply load_iff in Hl, Hl'; congruence). subst d'.
  assert (g' = g) by congruence. subst g'. assert (code' = code) by congruence. subst code'. injection Hs as <-.
  apply main_ok. exists d, g, code. rewrite Hc. split; [exact Hl|]. split; [exact Hg|]. split; [exact Hm1|].
  split; [exact Hm2|]. split; [exact Hw|]. split; [exact Hr|]. cbv zeta.
  rewrite (put_content _ _ fs' Hf1), (put_content _ _ fs' Hf2).
  destruct (ca_include_client a); auto. now rewrite (put_content _ _ fs' (Hf3 eq_refl)).
Qed.
End Main.

(** The order of hash maps is irrelevant only if no two entries of the crates section are about one crate. *)
From Coq Require Import Sorting.Permutation.
From Verif Require Import Base OasModel OpModel BuilderModel MethodModel GenerateModel SanitizeModel ParamProofs GenerateProofs MacroModel
  MacroSpec MacroProofs SettingsModel SettingsSpec SettingsProofs SettingsMain SettingsOrder.
Local Open Scope N_scope.

(** An order that takes one element out and puts it last. *)
Definition to_end (i : nat) : hash_order := fun A l => firstn i l ++ skipn (S i) l ++ firstn 1 (skipn i l).
Lemma to_end_ok i : order_ok (to_end i).
Proof.
  intros A l. unfold to_end. rewrite <- (firstn_skipn i l) at 1. apply Permutation_app_head.
  revert l. induction i as [|i IH]; intro l.
  - destruct l as [|a l]; [constructor|]. cbn [skipn firstn]. apply Permutation_cons_append.
  - destruct l as [|a l]; [constructor|]. cbn [skipn]. apply IH.
Qed.
Lemma to_end_at {A} (a : list A) e b : to_end (length a) A (a ++ e :: b) = (a ++ b) ++ [e].
Proof.
  unfold to_end. assert (Hf : firstn (length a) (a ++ e :: b) = a) by (clear; induction a; cbn; congruence).
  assert (Hs : skipn (length a) (a ++ e :: b) = e :: b) by (clear; induction a; cbn; auto).
  assert (Ht : skipn (S (length a)) (a ++ e :: b) = b) by (clear; induction a; cbn in *; auto).
  rewrite Hf, Hs, Ht. cbn [firstn]. now rewrite app_assoc.
Qed.
Definition order_at (i : nat) : hash_orders :=
  HashOrders (to_end i) (to_end 0) (to_end 0) (to_end 0) (to_end 0) (to_end 0).
Lemma order_at_ok i : orders_ok (order_at i).
Proof. unfold orders_ok. cbn. repeat split; apply to_end_ok. Qed.

Lemma apart_nodup {A B} (f : A -> B) (l : list A) :
  (forall a e b e' c, l = a ++ e :: b ++ e' :: c -> f e <> f e') -> NoDup (map f l).
Proof.
  induction l as [|x l IH]; cbn; intro H; [constructor|]. constructor.
  - intro Hin. apply in_map_iff in Hin as (y & E & Hy). apply in_split in Hy as (b & c & ->).
    now elim (H [] x b y c eq_refl).
  - apply IH. intros a e b e' c ->. exact (H (x :: a) e b e' c eq_refl).
Qed.

Lemma kept_crates {V I Sch} (cs cs' : list (type_call V I Sch)) : same_calls cs cs' ->
  forall c v r, In (CallCrate _ _ _ c v r) cs <-> In (CallCrate _ _ _ c v r) cs'.
Proof.
  induction 1 as [cs|a b c H1 IH1 H2 IH2|a n p n' p' b Hn|a n r i n' r' i' b Hn|a n r i i' b Hp|a h n i i' b Hp]; intros k v w.
  - reflexivity.
  - now rewrite IH1.
  - rewrite !in_app_iff. cbn [In]. split; intros [H|[H|[H|H]]]; auto; discriminate H.
  - rewrite !in_app_iff. cbn [In]. split; intros [H|[H|[H|H]]]; auto; discriminate H.
  - rewrite !in_app_iff. cbn [In]. split; intros [H|[H|H]]; auto; discriminate H.
  - rewrite !in_app_iff. cbn [In]. split; intros [H|[H|H]]; auto; discriminate H.
Qed.

Section Options.
Context {T V I Sch : Type}.
Variable text : T -> str.
Variable U : unicode.
Variable semver : str -> option V.
Variable closure_body : list tree -> (list tree * list tree) + list tree.
Variable path : list tree -> option (list tree * list tree).
Variable stream : list tree -> T.
Variable path_text : type_path -> str.
Variable impl_of : str -> option I.
Variable impl_eqb : I -> I -> bool.
Variable default_impls : list I.
Hypothesis Hpath : no_paren path.

Notation entry := (entry T Sch).
Notation from_tokenstream := (from_tokenstream T V I Sch U semver closure_body path stream impl_of).
Notation type_calls := (type_calls T V I Sch).
Notation read_invocation := (read_invocation T V I Sch text U semver closure_body path stream path_text impl_of impl_eqb default_impls).

Lemma same_keys l x : parse_crates U semver l = Some x -> map fst x = map fst l.
Proof.
  intro H. pose proof (parsed_entries U semver l x H) as Hf. clear H.
  induction Hf as [|w e l x [E _] _ IH]; [reflexivity|]. cbn. now rewrite IH, E.
Qed.

Lemma order_needed es r0 : read_invocation (order_at 0) (InvKeys _ _ es) = Some r0 ->
  (forall o o' spec s spec' s', orders_ok o -> orders_ok o' ->
     read_invocation o (InvKeys _ _ es) = Some (spec, s) -> read_invocation o' (InvKeys _ _ es) = Some (spec', s') ->
     same_calls (type_calls (o_patch_out o) (o_replace_out o) s) (type_calls (o_patch_out o') (o_replace_out o') s')) ->
  forall l, In (EnCrates _ _ l) es -> NoDup (map fst l) -> separate_crates U semver l.
Proof.
  intros E Hall l Hl Hnd. cbn in E. destruct (from_tokenstream es) as [m|] eqn:Em; [|discriminate]. clear E.
  pose proof (fields_read U semver closure_body path stream impl_of Hpath es m Em) as F. destruct F.
  destruct rf_crates as [(l' & x & Hl' & Hx & Ex & Hu)|[_ Hn]]; [|now elim (Hn l)]. apply Hu in Hl as ->.
  apply (separate_nodup U semver l' x Hx). rewrite map_map.
  assert (Hndx : NoDup (map fst x)) by (rewrite (same_keys l' x Hx); exact Hnd).
  rewrite (hm_of_new x Hndx) in Ex.
  apply apart_nodup. intros a e b e' c -> Hk.
  assert (Hin : forall i k v r, In (CallCrate _ _ _ k v r)
      (type_calls (to_end 0) (to_end 0) (macro_settings_of T V I Sch text path_text impl_eqb default_impls (order_at i) m))
    <-> assoc_last k (map entry_crate (to_end i _ (ms_crates _ _ _ _ m))) = Some (CrateSpec v r)).
  { intros i k v r. rewrite call_crate, (settings_are text path_text impl_eqb default_impls). cbn [gs_crates o_crates order_at].
    apply crates_In. }
  assert (Hsame : forall i j k v r,
      assoc_last k (map entry_crate (to_end i _ (ms_crates _ _ _ _ m))) = Some (CrateSpec v r)
      <-> assoc_last k (map entry_crate (to_end j _ (ms_crates _ _ _ _ m))) = Some (CrateSpec v r)).
  { intros i j k v r. rewrite <- !Hin. apply kept_crates.
    apply (Hall (order_at i) (order_at j) (ms_spec _ _ _ _ m) _ (ms_spec _ _ _ _ m) _ (order_at_ok i) (order_at_ok j));
      cbn; now rewrite Em. }
  set (k := fst (entry_crate e)) in *.
  assert (Hlast : forall a e b, ms_crates _ _ _ _ m = a ++ e :: b -> 
    assoc_last (fst (entry_crate e)) (map entry_crate (to_end (length a) _ (ms_crates _ _ _ _ m))) = Some (snd (entry_crate e))).
  { intros a0 e0 b0 E0. rewrite E0, to_end_at, map_app, assoc_last_app. cbn [map].
    destruct (entry_crate e0) as [k0 v0]. cbn. now rewrite str_eqb_refl. }
  pose proof (Hlast a e (b ++ e' :: c) Ex) as H1.
  assert (Ex' : ms_crates _ _ _ _ m = (a ++ e :: b) ++ e' :: c) by (rewrite Ex, <- app_assoc; reflexivity).
  pose proof (Hlast (a ++ e :: b) e' c Ex') as H2. rewrite <- Hk in H2. fold k in H1.
  destruct (snd (entry_crate e)) as [v r] eqn:Ee, (snd (entry_crate e')) as [v' r'] eqn:Ee'.
  apply (Hsame _ (length (a ++ e :: b))) in H1. rewrite H1 in H2. injection H2 as -> ->.
  assert (Hf : fst e = fst e').
  { clear -Hk Ee Ee'. subst k. unfold entry_crate in *. destruct (mc_original (snd e)), (mc_original (snd e')); cbn in *; congruence. }
  rewrite map_app in Hndx. cbn [map] in Hndx. apply NoDup_remove_2 in Hndx. apply Hndx. rewrite map_app. cbn [map].
  rewrite Hf, !in_app_iff. cbn. tauto.
Qed.

(** Exactly then. *)
Lemma order_exactly es o0 r0 : read_invocation o0 (InvKeys _ _ es) = Some r0 ->
  (forall l, In (EnCrates _ _ l) es -> NoDup (map fst l)) ->
  (forall o o' spec s spec' s', orders_ok o -> orders_ok o' ->
     read_invocation o (InvKeys _ _ es) = Some (spec, s) -> read_invocation o' (InvKeys _ _ es) = Some (spec', s') ->
     same_calls (type_calls (o_patch_out o) (o_replace_out o) s) (type_calls (o_patch_out o') (o_replace_out o') s'))
  <-> forall l, In (EnCrates _ _ l) es -> separate_crates U semver l.
Proof.
  intros E Hnd. split.
  - intros Hall l Hl. cbn in E. destruct (from_tokenstream es) as [m|] eqn:Em; [|discriminate].
    eapply (order_needed es (ms_spec _ _ _ _ m, _)); [cbn; rewrite Em; reflexivity|exact Hall|exact Hl|now apply Hnd].
  - intros Hs o o' spec s spec' s' Ho Ho' H H'.
    destruct (order_free text U semver closure_body path stream path_text impl_of impl_eqb default_impls Hpath o o' es spec s Ho Ho' Hs H)
      as (s2 & H2 & _ & Hc). rewrite H2 in H'. injection H' as _ <-. exact Hc.
Qed.
End Options.

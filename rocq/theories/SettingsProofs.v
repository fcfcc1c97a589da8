(** Proofs about the settings of the generator and [generate_api!]. *)
From Coq Require Import Sorting.Permutation Sorting.Sorted.
From Verif Require Import Base OpModel GenerateModel SanitizeModel ParamProofs GenerateProofs MacroModel MacroSpec MacroProofs
  SettingsModel SettingsSpec.
Local Open Scope N_scope.

(** ** Hooks *)

Section Hooks.
Variable closure_body : list tree -> (list tree * list tree) + list tree.
Variable path : list tree -> option (list tree * list tree).
Notation closure := (closure closure_body).
Notation bare_hook := (bare_hook closure_body path).
Notation group_hook := (group_hook closure_body path).
Notation closure_or_path := (closure_or_path closure_body path).
Notation hook_text := (hook_text closure_body path).

Fixpoint strip (ks : list str) (ts : list tree) : list tree * list tree :=
  match ks with
  | [] => ([], ts)
  | k :: ks => let '(a, r) := keyword k ts in let '(b, r') := strip ks r in (a ++ b, r')
  end.

Lemma keyword_spec k ts : keyword k ts = ([TrWord k], tl ts) /\ hd_error ts = Some (TrWord k)
  \/ keyword k ts = ([], ts) /\ hd_error ts <> Some (TrWord k).
Proof.
  destruct ts as [|[s|c|l] r]; cbn; try (right; split; [reflexivity|congruence]).
  destruct (str_eqb s k) eqn:E.
  - apply str_eqb_spec in E as ->. now left.
  - right. split; [reflexivity|]. intros [= ->]. now rewrite str_eqb_refl in E.
Qed.

Lemma keywords_strip ks kws ts : keywords ks kws ts <-> strip ks (kws ++ ts) = (kws, ts).
Proof.
  split.
  - induction 1 as [ts|k ks kws ts H IH|k ks kws ts Hn H IH]; cbn [strip app].
    + reflexivity.
    + cbn. rewrite str_eqb_refl, IH. reflexivity.
    + destruct (keyword_spec k (kws ++ ts)) as [[_ E]|[E _]]; [contradiction|]. rewrite E, IH. reflexivity.
  - revert kws ts. induction ks as [|k ks IH]; intros kws ts H; cbn [strip] in H.
    + injection H as <- _. constructor.
    + destruct (keyword_spec k (kws ++ ts)) as [[E Eh]|[E Eh]]; rewrite E in H.
      * destruct (strip ks (tl (kws ++ ts))) as [b r'] eqn:Es. injection H as Hk <-. subst kws.
        constructor. apply IH. exact Es.
      * destruct (strip ks (kws ++ ts)) as [b r'] eqn:Es. injection H as Hk Hr. cbn in Hk. subst b r'.
        apply KwSkipped; auto.
Qed.
Lemma strip_app ks : forall ts, fst (strip ks ts) ++ snd (strip ks ts) = ts.
Proof.
  induction ks as [|k ks IH]; intro ts; cbn [strip]; [reflexivity|].
  destruct (keyword_spec k ts) as [[E Eh]|[E Eh]]; rewrite E.
  - specialize (IH (tl ts)). destruct (strip ks (tl ts)) as [b r]. cbn in *. destruct ts as [|t ts]; [discriminate|].
    injection Eh as ->. cbn in IH. now rewrite <- IH.
  - specialize (IH ts). destruct (strip ks ts) as [b r]. cbn in *. exact IH.
Qed.

Lemma closure_strip ts : closure ts =
  let '(kws, r) := strip closure_keywords ts in
  match r with
  | TrSign c :: _ =>
      if c =? ch "|" then match closure_body r with inl (b, rest) => inl (kws ++ b, rest) | inr rest => inr rest end
      else inr r
  | _ => inr r
  end.
Proof.
  unfold closure, closure_keywords. cbn [strip].
  destruct (keyword (lit "const") ts) as [k1 t1]. destruct (keyword (lit "static") t1) as [k2 t2].
  destruct (keyword (lit "async") t2) as [k3 t3]. destruct (keyword (lit "move") t3) as [k4 t4].
  rewrite app_nil_r. destruct t4 as [|[s|c|l] r]; auto. destruct (c =? ch "|"); auto.
  destruct (closure_body (TrSign c :: r)) as [[b rest]|rest]; auto. now rewrite <- !app_assoc.
Qed.
Lemma begins_dec ts : (exists r, ts = TrSign (ch "|") :: r) \/ ~ begins_closure ts.
Proof.
  unfold begins_closure. destruct ts as [|[s|c|l] r]; cbn; try (right; congruence).
  destruct (N.eq_dec c (ch "|")) as [->|Hc]; [left; now exists r|right; congruence].
Qed.
Lemma closure_not kws ts : keywords closure_keywords kws ts -> ~ begins_closure ts -> closure (kws ++ ts) = inr ts.
Proof.
  intros Hk Hn. apply keywords_strip in Hk. rewrite closure_strip, Hk.
  destruct ts as [|[s|c|l] r]; auto. destruct (N.eqb_spec c (ch "|")) as [->|]; auto. now elim Hn.
Qed.
Lemma closure_is kws ts : keywords closure_keywords kws ts -> begins_closure ts -> closure (kws ++ ts) =
  match closure_body ts with inl (b, rest) => inl (kws ++ b, rest) | inr rest => inr rest end.
Proof.
  intros Hk Hb. apply keywords_strip in Hk. rewrite closure_strip, Hk.
  destruct ts as [|t r]; [discriminate|]. injection Hb as ->. now rewrite N.eqb_refl.
Qed.

Hypothesis Hpath : no_paren path.

Definition paren_first (ts : list tree) : Prop := exists l r, ts = TrParen l :: r.
Lemma bare_iff ts out : ~ paren_first ts -> (bare_hook ts = Some out <-> hook_text ts out).
Proof.
  intro Hp. split.
  - unfold bare_hook. pose proof (strip_app closure_keywords ts) as E.
    destruct (strip closure_keywords ts) as [kws r] eqn:Es. cbn [fst snd] in E. subst ts.
    pose proof (proj2 (keywords_strip _ _ _) Es) as Hk. destruct (begins_dec r) as [(r' & E)|Hn].
    + assert (Hb : begins_closure r) by (now rewrite E). rewrite (closure_is kws r Hk Hb).
      destruct (closure_body r) as [[b rest]|rest] eqn:Ec.
      * destruct rest as [|x rest]; [|discriminate]. intros [= <-]. now apply HtClosure.
      * destruct (path rest) as [[p [|x l]]|] eqn:Ep; try discriminate. intros [= <-].
        now apply (HtBroken _ _ kws r rest).
    + rewrite (closure_not kws r Hk Hn). destruct (path r) as [[p [|x l]]|] eqn:Ep; try discriminate.
      intros [= <-]. now apply HtPath.
  - intro H. inversion H as [inner o H0|kws r b Hk Hb Hc|kws r rest o Hk Hb Hc Hp'|kws r o Hk Hb Hp']; subst; unfold bare_hook.
    + elim Hp. now exists inner, [].
    + now rewrite (closure_is kws r Hk Hb), Hc.
    + now rewrite (closure_is kws r Hk Hb), Hc, Hp'.
    + now rewrite (closure_not kws r Hk Hb), Hp'.
Qed.
Lemma keywords_paren ks kws ts l r : kws ++ ts = TrParen l :: r -> keywords ks kws ts -> kws = [] /\ ts = TrParen l :: r.
Proof.
  intros E H. induction H as [ts|k ks kws ts H IH|k ks kws ts Hn H IH]; auto. discriminate.
Qed.
Lemma paren_text l r out : hook_text (TrParen l :: r) out -> r = [] /\ hook_text l out.
Proof.
  intro H. remember (TrParen l :: r) as ts eqn:E.
  destruct H as [inner o H0|kws r0 b Hk Hb Hc|kws r0 rest o Hk Hb Hc Hp'|kws r0 o Hk Hb Hp'].
  - injection E as -> <-. auto.
  - destruct (keywords_paren _ _ _ _ _ E Hk) as [-> ->]. discriminate Hb.
  - destruct (keywords_paren _ _ _ _ _ E Hk) as [-> ->]. discriminate Hb.
  - destruct (keywords_paren _ _ _ _ _ E Hk) as [-> ->]. rewrite Hpath in Hp'. discriminate.
Qed.

Fixpoint depth (t : tree) : nat :=
  match t with TrParen l => S (fold_right (fun t n => depth t + n)%nat O l) | _ => O end.

Lemma group_hook_eq l : group_hook (TrParen l) = closure_or_path l.
Proof. destruct l as [|[s|c|l'] [|t r]]; reflexivity. Qed.

Lemma hook_iff_n : forall n ts out, (fold_right (fun t n => depth t + n)%nat O ts <= n)%nat ->
  (closure_or_path ts = Some out <-> hook_text ts out).
Proof.
  induction n as [|n IH]; intros ts out Hn.
  - destruct ts as [|[s|c|l] r].
    + apply bare_iff. intros (l & r & E). discriminate.
    + apply bare_iff. intros (l & r' & E). discriminate.
    + apply bare_iff. intros (l & r' & E). discriminate.
    + cbn in Hn. lia.
  - destruct ts as [|[s|c|l] r].
    + apply bare_iff. intros (l & r & E). discriminate.
    + apply bare_iff. intros (l & r' & E). discriminate.
    + apply bare_iff. intros (l & r' & E). discriminate.
    + destruct r as [|t r].
      * change (closure_or_path [TrParen l]) with (group_hook (TrParen l)). rewrite group_hook_eq.
        rewrite IH by (cbn in Hn; lia). split; [apply HtParen|]. intro H. now apply paren_text in H.
      * change (closure_or_path (TrParen l :: t :: r)) with (@None (list tree)). split; [discriminate|].
        intro H. apply paren_text in H as [H _]. discriminate.
Qed.
Lemma hook_iff ts out : closure_or_path ts = Some out <-> hook_text ts out.
Proof. eapply hook_iff_n. apply le_n. Qed.

Lemma parens_transparent ts : closure_or_path [TrParen ts] = closure_or_path ts.
Proof. exact (group_hook_eq ts). Qed.
End Hooks.

(** ** Hash maps *)

Lemma hm_insert_In {A} k (v : A) l x : NoDup (map fst l) ->
  (In x (hm_insert k v l) <-> x = (k, v) \/ (fst x <> k /\ In x l)).
Proof.
  induction l as [|[k' v'] l IH]; cbn [hm_insert map fst]; intro Hnd.
  - cbn. intuition congruence.
  - inversion Hnd as [|? ? Hni Hnd']; subst. destruct (str_eqb k k') eqn:E.
    + apply str_eqb_spec in E as <-. cbn. split.
      * intros [<-|H]; [now left|right]. split; [|now right]. intros <-. apply Hni. now apply in_map.
      * intros [->|[Hk [<-|H]]]; [now left|now elim Hk|now right].
    + cbn. rewrite IH by auto. apply str_eqb_neq in E. split.
      * intros [<-|[->|[Hk H]]]; [right|now left|right]; split; auto.
      * intros [->|[Hk [<-|H]]]; [right; now left|now left|right; now right].
Qed.
Lemma hm_insert_keys {A} k (v : A) l x : In x (map fst (hm_insert k v l)) -> x = k \/ In x (map fst l).
Proof.
  induction l as [|[k' v'] l IH]; cbn; [intuition|]. destruct (str_eqb k k') eqn:E; cbn.
  - apply str_eqb_spec in E as <-. intuition.
  - intuition.
Qed.
Lemma hm_insert_nodup {A} k (v : A) l : NoDup (map fst l) -> NoDup (map fst (hm_insert k v l)).
Proof.
  induction l as [|[k' v'] l IH]; cbn; intro H; [repeat constructor; auto|]. inversion H as [|? ? Hni Hnd]; subst.
  destruct (str_eqb k k') eqn:E; cbn.
  - apply str_eqb_spec in E as <-. now constructor.
  - constructor; auto. intro Hin. apply hm_insert_keys in Hin as [->|Hin]; auto. now rewrite str_eqb_refl in E.
Qed.
Lemma hm_insert_new {A} k (v : A) l : ~ In k (map fst l) -> hm_insert k v l = l ++ [(k, v)].
Proof.
  induction l as [|[k' v'] l IH]; cbn; intro H; auto. destruct (str_eqb k k') eqn:E.
  - apply str_eqb_spec in E as <-. elim H. now left.
  - rewrite IH; auto.
Qed.
Definition hm_puts {A} (l m : list (str * A)) : list (str * A) :=
  fold_left (fun m e => hm_insert (fst e) (snd e) m) l m.
Lemma hm_puts_nodup {A} (l : list (str * A)) : forall m, NoDup (map fst m) -> NoDup (map fst (hm_puts l m)).
Proof. induction l as [|[k v] l IH]; cbn; intros m H; auto. apply IH. now apply hm_insert_nodup. Qed.
Lemma hm_puts_In {A} (l : list (str * A)) : forall m k v, NoDup (map fst m) ->
  (In (k, v) (hm_puts l m) <-> last_in k l v \/ (~ In k (map fst l) /\ In (k, v) m)).
Proof.
  induction l as [|[k' v'] l IH]; intros m k v H; cbn [hm_puts fold_left map fst snd].
  - cbn. split; [intro; right; tauto|]. intros [(l1 & l2 & E & _)|[_ H']]; auto. now destruct l1.
  - change (fold_left _ l (hm_insert k' v' m)) with (hm_puts l (hm_insert k' v' m)).
    rewrite IH by now apply hm_insert_nodup. rewrite hm_insert_In by auto. cbn [fst]. split.
    + intros [(l1 & l2 & -> & Hn)|[Hn [[= -> ->]|[Hk Hin]]]].
      * left. exists ((k', v') :: l1), l2. auto.
      * left. exists [], l. auto.
      * right. split; auto. cbn. intros [->|H']; auto.
    + intros [(l1 & l2 & E & Hn)|[Hn Hin]].
      * destruct l1 as [|x l1]; cbn in E.
        -- injection E as -> -> ->. right. auto.
        -- injection E as _ ->. left. exists l1, l2. auto.
      * right. split; [intro; apply Hn; now right|]. right. split; auto. intros ->. apply Hn. now left.
Qed.
Lemma hm_of_In {A} (l : list (str * A)) k v : In (k, v) (hm_of l) <-> last_in k l v.
Proof.
  change (hm_of l) with (hm_puts l []). rewrite hm_puts_In by constructor. cbn. tauto.
Qed.
Lemma hm_of_nodup {A} (l : list (str * A)) : NoDup (map fst (hm_of l)).
Proof. apply (hm_puts_nodup l []). constructor. Qed.
Lemma hm_puts_new {A} (l : list (str * A)) : forall m, NoDup (map fst (m ++ l)) -> hm_puts l m = m ++ l.
Proof.
  induction l as [|[k v] l IH]; intros m H; cbn [hm_puts fold_left fst snd]; [now rewrite app_nil_r|].
  rewrite hm_insert_new.
  - change (hm_puts l (m ++ [(k, v)]) = m ++ (k, v) :: l). rewrite IH; rewrite <- app_assoc; auto.
  - rewrite map_app in H. cbn in H. apply NoDup_remove_2 in H. intro Hin. apply H. apply in_or_app. now left.
Qed.
Lemma hm_of_new {A} (l : list (str * A)) : NoDup (map fst l) -> hm_of l = l.
Proof. exact (hm_puts_new l []). Qed.

Lemma last_in_In {A} k (l : list (str * A)) v : last_in k l v -> In (k, v) l.
Proof. intros (l1 & l2 & -> & _). apply in_or_app. right. now left. Qed.
Lemma last_in_map {A B} (f : A -> B -> Prop) (l : list (str * A)) (l' : list (str * B)) :
  Forall2 (fun x y => fst x = fst y /\ f (snd x) (snd y)) l l' ->
  (forall k a, last_in k l a -> exists b, last_in k l' b /\ f a b)
  /\ (forall k b, last_in k l' b -> exists a, last_in k l a /\ f a b).
Proof.
  intro H. assert (Hk : map fst l = map fst l') by (induction H as [|x y l l' [E _] _ IH]; cbn; congruence).
  split.
  - intros k a (l1 & l2 & -> & Hn). apply Forall2_app_inv_l in H as (m1 & m2 & H1 & H & ->).
    inversion H as [|x [k' b] ? m3 [E Hf] H3]; subst. cbn in E, Hf. subst k'. exists b. split; auto.
    exists m1, m3. split; auto. assert (map fst l2 = map fst m3) as <-; auto.
    clear - H3. induction H3 as [|x y l l' [E _] _ IH]; cbn; congruence.
  - intros k b (l1 & l2 & -> & Hn). apply Forall2_app_inv_r in H as (m1 & m2 & H1 & H & ->).
    inversion H as [|[k' a] ? m3 ? [E Hf] H3]; subst. cbn in E, Hf. subst k'. exists a. split; auto.
    exists m1, m3. split; auto. assert (map fst m3 = map fst l2) as ->; auto.
    clear - H3. induction H3 as [|x y l l' [E _] _ IH]; cbn; congruence.
Qed.

Lemma nodup_app_r {A} (a b : list A) : NoDup (a ++ b) -> NoDup b.
Proof. induction a as [|x a IH]; cbn; auto. intro H. inversion H; auto. Qed.

(** ** Options *)

Section Options.
Context {T V I Sch : Type}.
Variable text : T -> str.
Variable U : unicode.
Variable semver : str -> option V.
Variable closure_body : list tree -> (list tree * list tree) + list tree.
Variable path : list tree -> option (list tree * list tree).
Variable stream : list tree -> T.
Variable path_text : type_path -> str.
Variable impl_of : str -> option I.
Variable impl_eqb : I -> I -> bool.
Variable default_impls : list I.
Hypothesis Hpath : no_paren path.
Hypothesis eqb_ok : forall i j, impl_eqb i j = true <-> i = j.
Hypothesis defaults_nodup : NoDup default_impls.

Notation entry := (entry T Sch).
Notation key := (@key T Sch).
Notation value_ok := (value_ok T V I Sch U semver closure_body path stream impl_of).
Notation fields := (fields T V I Sch U semver closure_body path stream impl_of).
Notation field := (field T Sch).
Notation hook_value := (hook_value T closure_body path stream).
Notation from_tokenstream := (from_tokenstream T V I Sch U semver closure_body path stream impl_of).
Notation parse_types := (parse_types I impl_of).

Definition keys (es : list entry) : list str := flat_map (fun e => match key e with Some k => [k] | None => [] end) es.
Definition known (e : entry) : bool := match key e with Some _ => true | None => false end.

Lemma keys_In es k : In k (keys es) <-> exists e, In e es /\ key e = Some k.
Proof.
  unfold keys. rewrite in_flat_map. split; intros (e & He & H); exists e; split; auto.
  - destruct (key e); cbn in H; [|easy]. destruct H as [->|[]]. reflexivity.
  - rewrite H. now left.
Qed.
Lemma fields_iff es : forall seen fs, fields es seen = Some fs <->
  fs = rev (filter known es) ++ seen /\ Forall (fun e => value_ok e = true) es /\ NoDup (keys es)
  /\ (forall k, In k (keys es) -> ~ In k (keys seen)).
Proof.
  induction es as [|e es IH]; intros seen fs; cbn [fields filter].
  - cbn. split; [intros [= <-]|intros (-> & _)]; repeat split; auto; constructor.
  - unfold known at 1. change (keys (e :: es)) with (match key e with Some k => [k] | None => [] end ++ keys es).
    destruct (key e) as [k|] eqn:Ek.
    + assert (Hs : existsb (fun f => match key f with Some k' => str_eqb k k' | None => false end) seen = true
                   <-> In k (keys seen)).
      { rewrite existsb_exists, keys_In. split; intros (f & Hf & H); exists f; split; auto.
        - destruct (key f); [|discriminate]. now apply str_eqb_spec in H as ->.
        - rewrite H. apply str_eqb_refl. }
      destruct (existsb _ seen).
      * split; [discriminate|]. intros (_ & _ & _ & H). elim (H k); [now left|]. now apply Hs.
      * assert (Hns : ~ In k (keys seen)) by (intro X; apply Hs in X; discriminate). clear Hs.
        destruct (value_ok e) eqn:Ev.
        -- rewrite IH. cbn [rev]. rewrite <- app_assoc. cbn [app].
           change (keys (e :: seen)) with (match key e with Some k => [k] | None => [] end ++ keys seen).
           rewrite Ek. cbn [app]. split.
           ++ intros (-> & Hv & Hnd & Hd). repeat split; auto.
              ** constructor; auto. intro Hin. apply (Hd k Hin). now left.
              ** intros k' [<-|Hin]; auto. intro Hin'. apply (Hd k' Hin). now right.
           ++ intros (-> & Hv & Hnd & Hd). inversion Hv; subst. inversion Hnd as [|? ? Hni Hnd']; subst.
              repeat split; auto. intros k' Hin [<-|Hin']; auto. apply (Hd k'); auto. now right.
        -- split; [discriminate|]. intros (_ & Hv & _). inversion Hv; subst. congruence.
    + rewrite IH. cbn [app]. split; intros (-> & Hv & Hnd & Hd); repeat split; auto.
      * constructor; auto. destruct e; try discriminate. reflexivity.
      * now inversion Hv.
Qed.

(** Selections of one option. *)
Definition selects {A} (sel : entry -> option A) : Prop :=
  forall e f, sel e <> None -> sel f <> None -> key e = key f /\ key e <> None.
Lemma key_unique es e f : NoDup (keys es) -> In e es -> In f es -> key e = key f -> key e <> None -> e = f.
Proof.
  induction es as [|x es IH]; [easy|].
  change (keys (x :: es)) with (match key x with Some k => [k] | None => [] end ++ keys es).
  intros Hnd He Hf Ek Hk. destruct (key e) as [k|] eqn:Ee; [|easy].
  assert (Hx : key x = Some k -> ~ In k (keys es)).
  { intros Ex. rewrite Ex in Hnd. now inversion Hnd. }
  assert (Hin : forall z, In z es -> key z = Some k -> In k (keys es)) by (intros z Hz Hkz; apply keys_In; eauto).
  destruct He as [->|He], Hf as [->|Hf]; auto.
  - elim (Hx Ee). eauto.
  - elim (Hx (eq_sym Ek)). eauto.
  - apply IH; auto; try congruence. destruct (key x); auto. now inversion Hnd.
Qed.
Lemma field_In {A} (sel : entry -> option A) es a : field sel es = Some a -> exists e, In e es /\ sel e = Some a.
Proof.
  induction es as [|e es IH]; cbn; [easy|]. destruct (sel e) eqn:E.
  - intros [= <-]. exists e. auto.
  - intro H. destruct (IH H) as (f & Hf & Ef). exists f. auto.
Qed.
Lemma field_None {A} (sel : entry -> option A) es : field sel es = None -> forall e, In e es -> sel e = None.
Proof.
  induction es as [|x es IH]; cbn; [easy|]. destruct (sel x) eqn:E; [discriminate|]. intros H e [<-|He]; auto.
Qed.
Lemma field_iff {A} (sel : entry -> option A) es a : selects sel -> NoDup (keys es) ->
  (field sel es = Some a <-> exists e, In e es /\ sel e = Some a).
Proof.
  intros Hs Hnd. split; [apply field_In|]. intros (e & He & E). destruct (field sel es) as [b|] eqn:F.
  - apply field_In in F as (f & Hf & Ef). assert (e = f).
    { destruct (Hs e f) as [Hk Hn]; try congruence. exact (key_unique es e f Hnd He Hf Hk Hn). }
    congruence.
  - rewrite (field_None _ _ F e He) in E. discriminate.
Qed.
Lemma keys_perm es es' : Permutation es es' -> Permutation (keys es) (keys es').
Proof. intro H. unfold keys. now apply Permutation_flat_map. Qed.
Lemma field_perm {A} (sel : entry -> option A) es es' : selects sel -> NoDup (keys es) -> Permutation es es' ->
  field sel es = field sel es'.
Proof.
  intros Hs Hnd Hp. assert (Hnd' : NoDup (keys es')) by (eapply Permutation_NoDup; [apply keys_perm; exact Hp|auto]).
  destruct (field sel es') as [a|] eqn:E.
  - apply field_iff; auto. apply field_iff in E as (e & He & E); auto. exists e. split; auto.
    eapply Permutation_in; [symmetry; exact Hp|auto].
  - destruct (field sel es) as [b|] eqn:F; auto. apply field_In in F as (e & He & F).
    rewrite (field_None _ _ E e) in F; [discriminate|]. eapply Permutation_in; [exact Hp|auto].
Qed.
Lemma filter_perm {A} (f : A -> bool) l l' : Permutation l l' -> Permutation (filter f l) (filter f l').
Proof.
  induction 1 as [|x l l' H IH|x y l|l l' l'' H1 IH1 H2 IH2]; cbn; auto.
  - destruct (f x); auto.
  - destruct (f x), (f y); auto. constructor.
  - etransitivity; eauto.
Qed.
Lemma fields_perm es es' : Permutation es es' ->
  match fields es [], fields es' [] with
  | Some fs, Some fs' => Permutation fs fs' /\ NoDup (keys fs)
  | None, None => True
  | _, _ => False
  end.
Proof.
  assert (W : forall es es' fs, Permutation es es' -> fields es [] = Some fs -> exists fs', fields es' [] = Some fs'
    /\ Permutation fs fs' /\ NoDup (keys fs)).
  { clear es es'. intros es es' fs Hp H. apply fields_iff in H as (-> & Hv & Hnd & _).
    exists (rev (filter known es') ++ []). split.
    - apply fields_iff. repeat split.
      + rewrite Forall_forall in *. intros e He. apply Hv. eapply Permutation_in; [symmetry; exact Hp|auto].
      + eapply Permutation_NoDup; [apply keys_perm; exact Hp|auto].
      + cbn. auto.
    - rewrite !app_nil_r. split.
      + rewrite <- !Permutation_rev. now apply filter_perm.
      + eapply Permutation_NoDup; [apply keys_perm, Permutation_rev|]. clear - Hnd.
        replace (keys (filter known es)) with (keys es); auto. clear. induction es as [|e es IH]; auto. cbn.
        unfold known at 1. destruct (key e) eqn:E; cbn; [|auto]. rewrite E. cbn. now f_equal. }
  intro Hp. destruct (fields es []) as [fs|] eqn:E.
  - destruct (W es es' fs Hp E) as (fs' & -> & H). exact H.
  - destruct (fields es' []) as [fs'|] eqn:E'; auto. destruct (W es' es fs' (Permutation_sym Hp) E') as (x & F & _). congruence.
Qed.

Ltac selecting := let e := fresh in let f := fresh in intros e f; destruct e, f; cbn; try congruence; auto;
  intros; split; congruence.
Lemma any_order es es' : Permutation es es' -> from_tokenstream es = from_tokenstream es'.
Proof.
  intro Hp. unfold from_tokenstream. pose proof (fields_perm es es' Hp) as H.
  destruct (fields es []) as [fs|], (fields es' []) as [fs'|]; auto; try easy. destruct H as [Hp' Hnd].
  rewrite (field_perm (fun e => match e with EnSpec _ _ s => Some s | _ => None end) fs fs') by (auto; selecting).
  destruct (field _ fs') as [spec|]; auto.
  rewrite (field_perm (fun e => match e with EnInterface _ _ i => Some i | _ => None end) fs fs') by (auto; selecting).
  rewrite (field_perm (fun e => match e with EnTags _ _ t => Some t | _ => None end) fs fs') by (auto; selecting).
  rewrite (field_perm (fun e => match e with EnInnerType _ _ t => Some t | _ => None end) fs fs') by (auto; selecting).
  rewrite (field_perm (fun e => match e with EnPreHook _ _ ts => hook_value ts | _ => None end) fs fs') by (auto; selecting).
  rewrite (field_perm (fun e => match e with EnPreHookAsync _ _ ts => hook_value ts | _ => None end) fs fs') by (auto; selecting).
  rewrite (field_perm (fun e => match e with EnPostHook _ _ ts => hook_value ts | _ => None end) fs fs') by (auto; selecting).
  rewrite (field_perm (fun e => match e with EnPostHookAsync _ _ ts => hook_value ts | _ => None end) fs fs') by (auto; selecting).
  rewrite (field_perm (fun e => match e with EnMapType _ _ t => Some t | _ => None end) fs fs') by (auto; selecting).
  rewrite (field_perm (fun e => match e with EnDerives _ _ l => Some l | _ => None end) fs fs') by (auto; selecting).
  rewrite (field_perm (fun e => match e with EnUnknownCrates _ _ p => Some p | _ => None end) fs fs') by (auto; selecting).
  rewrite (field_perm (fun e => match e with EnCrates _ _ l => parse_crates U semver l | _ => None end) fs fs') by (auto; selecting).
  rewrite (field_perm (fun e => match e with EnPatch _ _ l => Some l | _ => None end) fs fs') by (auto; selecting).
  rewrite (field_perm (fun e => match e with EnReplace _ _ l => parse_types l | _ => None end) fs fs') by (auto; selecting).
  rewrite (field_perm (fun e => match e with EnConvert _ _ l => parse_types l | _ => None end) fs fs') by (auto; selecting).
  reflexivity.
Qed.

(** Values that can be read. *)
Lemma given_iff {A} (o : option A) : given o = true <-> exists a, o = Some a.
Proof. destruct o; cbn; split; try discriminate; eauto. now intros (a & [=]). Qed.
Lemma hook_value_iff ts t : hook_value ts = Some t <-> hook_given closure_body path stream ts t.
Proof.
  unfold hook_value, hook_given, option_map. split.
  - destruct (closure_or_path closure_body path ts) as [out|] eqn:E; [|discriminate]. intros [= <-].
    exists out. split; auto. now apply hook_iff.
  - intros (out & H & ->). apply hook_iff in H; auto. now rewrite H.
Qed.
Lemma hook_ok ts : given (hook_value ts) = true <-> exists out, hook_text closure_body path ts out.
Proof.
  rewrite given_iff. split.
  - intros (t & H). apply hook_value_iff in H as (out & H & _). eauto.
  - intros (out & H). exists (stream out). apply hook_value_iff. now exists out.
Qed.

(** What a type that was read means. *)
Lemma parsed_means ts ty : parse_all impl_of ts = Some ty ->
  forall impls, Permutation (impls_of impl_eqb default_impls ty) impls ->
  type_means path_text impl_of default_impls ts (path_text (ti_name ty)) impls.
Proof.
  intros H impls Hp. destruct (proj1 (syntax impl_of ts) (ex_intro _ ty H)) as (leading & segs & ws & Hne & ->).
  destruct segs as [|s l]; [easy|].
  destruct (traits_decided impl_of impl_eqb eqb_ok default_impls leading s l ws defaults_nodup) as (ty' & E & En & Hnd & Hd).
  rewrite H in E. injection E as <-. exists leading, s, l, ws. rewrite En. repeat split; auto.
  - eapply Permutation_NoDup; eauto.
  - intro Hi. apply Hd. eapply Permutation_in; [symmetry; exact Hp|auto].
  - intro Hi. eapply Permutation_in; [exact Hp|]. now apply Hd.
Qed.
Lemma type_text_iff ts : type_text ts <-> exists ty, parse_all impl_of ts = Some ty.
Proof.
  rewrite syntax. split.
  - intros (leading & s & l & ws & ->). exists leading, (s :: l), ws. split; [discriminate|auto].
  - intros (leading & [|s l] & ws & H & ->); [easy|]. exists leading, s, l, ws. reflexivity.
Qed.
Lemma types_parsed {K} (l : list (K * list tok)) : forall l', parse_types l = Some l' <->
  Forall2 (fun x y => fst x = fst y /\ parse_all impl_of (snd x) = Some (snd y)) l l'.
Proof.
  induction l as [|[k ts] l IH]; intro l'; cbn [parse_types].
  - split; [intros [= <-]; constructor|]. now inversion 1.
  - destruct (parse_all impl_of ts) as [t|] eqn:E.
    + destruct (parse_types l) as [r|] eqn:F.
      * split.
        -- intros [= <-]. constructor; auto. now apply IH.
        -- inversion 1 as [|? [k' t'] ? r' [Ek Et] Hr]; subst. cbn in Ek, Et. apply IH in Hr. congruence.
      * split; [discriminate|]. inversion 1 as [|? [k' t'] ? r' [Ek Et] Hr]; subst. apply IH in Hr. discriminate.
    + split; [discriminate|]. inversion 1 as [|? [k' t'] ? r' [Ek Et] Hr]; subst. cbn in Et. congruence.
Qed.
Lemma types_ok {K} (l : list (K * list tok)) : given (parse_types l) = true <-> Forall (fun e => type_text (snd e)) l.
Proof.
  rewrite given_iff. split.
  - intros (l' & H). apply types_parsed in H. induction H as [|x y l l' [_ E] _ IH]; constructor; auto.
    apply type_text_iff. eauto.
  - induction 1 as [|[k ts] l H _ (l' & IH)]; cbn [parse_types]; [eauto|]. apply type_text_iff in H as (ty & E).
    cbn in E. rewrite E, IH. eauto.
Qed.
Lemma value_ok_iff e : value_ok e = true <-> readable_value U semver closure_body path e.
Proof.
  destruct e; cbn [value_ok readable_value]; try (split; auto; fail).
  - apply hook_ok.
  - apply hook_ok.
  - apply hook_ok.
  - apply hook_ok.
  - rewrite given_iff. apply crates_readable.
  - apply types_ok.
  - apply types_ok.
Qed.

Lemma same_option_iff (e f : entry) : same_option e f <-> key e = key f /\ key e <> None.
Proof.
  destruct e, f; cbn; split; try easy; try (intros _; split; congruence); try (intros [E _]; discriminate E).
Qed.
Lemma not_repeated_iff es : not_repeated es <-> NoDup (keys es).
Proof.
  split.
  - induction es as [|e es IH]; intro H; [constructor|].
    assert (Hr : not_repeated es).
    { intros l1 x l2 y l3 ->. exact (H (e :: l1) x l2 y l3 eq_refl). }
    change (keys (e :: es)) with (match key e with Some k => [k] | None => [] end ++ keys es).
    destruct (key e) as [k|] eqn:Ek; [|exact (IH Hr)]. constructor; [|exact (IH Hr)].
    intro Hin. apply keys_In in Hin as (f & Hf & Ef). apply in_split in Hf as (l2 & l3 & ->).
    apply (H [] e l2 f l3 eq_refl). apply same_option_iff. split; congruence.
  - intros H l1 e l2 f l3 ->. rewrite same_option_iff. intros [E Hn]. destruct (key e) as [k|] eqn:Ek; [|easy].
    unfold keys in H. rewrite flat_map_app in H. apply nodup_app_r in H. cbn [flat_map] in H. rewrite Ek in H.
    inversion H as [|? ? Hni _]; subst. apply Hni. rewrite flat_map_app. cbn [flat_map]. rewrite <- E.
    rewrite !in_app_iff. right. left. now left.
Qed.

Lemma fields_accept es fs : fields es [] = Some fs -> fs = rev (filter known es) /\ NoDup (keys fs)
  /\ Forall (readable_value U semver closure_body path) es /\ not_repeated es.
Proof.
  intro H. pose proof (fields_perm es es (Permutation_refl es)) as Hp. rewrite H in Hp.
  apply fields_iff in H as (-> & Hv & Hnd & _). rewrite app_nil_r in *. repeat split; auto.
  - apply Hp.
  - rewrite Forall_forall in *. intros e He. apply value_ok_iff. auto.
  - now apply not_repeated_iff.
Qed.
Lemma fields_known es fs e : fields es [] = Some fs -> (In e fs <-> In e es /\ known e = true).
Proof.
  intro H. apply fields_accept in H as [-> _]. rewrite <- in_rev. apply filter_In.
Qed.

Lemma accepted_iff es : (exists m, from_tokenstream es = Some m) <->
  (exists s, In (EnSpec _ _ s) es) /\ not_repeated es /\ Forall (readable_value U semver closure_body path) es.
Proof.
  unfold from_tokenstream. split.
  - intros (m & H). destruct (fields es []) as [fs|] eqn:E; [|discriminate].
    destruct (field _ fs) as [spec|] eqn:Es in H; [|discriminate]. apply field_In in Es as (e & He & Es).
    destruct e; try discriminate. destruct (fields_accept es fs E) as (_ & _ & Hr & Hn). repeat split; auto.
    apply (fields_known es fs _ E) in He as [He _]. eauto.
  - intros ((s & Hs) & Hn & Hr). apply not_repeated_iff in Hn.
    assert (E : fields es [] = Some (rev (filter known es) ++ [])).
    { apply fields_iff. repeat split; auto. rewrite Forall_forall in *. intros e He. apply value_ok_iff. auto. }
    rewrite E. destruct (field _ _) as [spec|] eqn:Es; [eauto|].
    assert (In (EnSpec _ _ s) (rev (filter known es) ++ [])) as Hin by (apply (fields_known es _ _ E); auto).
    pose proof (field_None _ _ Es _ Hin) as X. discriminate X.
Qed.
(** *** What the settings are *)

Notation gen_settings := (gen_settings T V I Sch).
Notation GenSettings := (GenSettings T V I Sch).
Notation macro_settings_of := (macro_settings_of T V I Sch text path_text impl_eqb default_impls).

Definition replacement (o : hash_orders) (e : str * type_and_impls I) : str * (str * list I) :=
  (fst e, (path_text (ti_name (snd e)), o_impls o _ (impls_of impl_eqb default_impls (snd e)))).
Definition conversion (o : hash_orders) (e : Sch * type_and_impls I) : Sch * str * list I :=
  (fst e, path_text (ti_name (snd e)), o_impls o _ (impls_of impl_eqb default_impls (snd e))).
Definition patching (e : str * macro_patch T) : str * list patch_call := (fst e, type_patch T text (snd e)).

Lemma derives_fold l : forall a b c d e f g x mt uc cr pa re co,
  fold_left (fun s t => with_derive T V I Sch (text t) s) l (GenSettings a b c d e f g x mt uc cr pa re co)
  = GenSettings a b c d e f g (x ++ map text l) mt uc cr pa re co.
Proof.
  induction l as [|t l IH]; intros; cbn [fold_left map]; [now rewrite app_nil_r|].
  unfold with_derive at 2. cbn. rewrite IH, <- app_assoc. reflexivity.
Qed.
Lemma patch_fold l : forall a b c d e f g x mt uc cr pa re co,
  fold_left (fun s e => with_patch T V I Sch (fst e) (type_patch T text (snd e)) s) l
    (GenSettings a b c d e f g x mt uc cr pa re co)
  = GenSettings a b c d e f g x mt uc cr (hm_puts (map patching l) pa) re co.
Proof. induction l as [|t l IH]; intros; [reflexivity|]. cbn [fold_left map]. unfold with_patch at 2. cbn. apply IH. Qed.
Lemma replace_fold o l : forall a b c d e f g x mt uc cr pa re co,
  fold_left (fun s e => with_replacement T V I Sch (fst e) (path_text (ti_name (snd e)))
      (o_impls o _ (impls_of impl_eqb default_impls (snd e))) s) l
    (GenSettings a b c d e f g x mt uc cr pa re co)
  = GenSettings a b c d e f g x mt uc cr pa (hm_puts (map (replacement o) l) re) co.
Proof. induction l as [|t l IH]; intros; [reflexivity|]. cbn [fold_left map]. unfold with_replacement at 2. cbn. apply IH. Qed.
Lemma convert_fold o l : forall a b c d e f g x mt uc cr pa re co,
  fold_left (fun s e => with_conversion T V I Sch (fst e) (path_text (ti_name (snd e)))
      (o_impls o _ (impls_of impl_eqb default_impls (snd e))) s) l
    (GenSettings a b c d e f g x mt uc cr pa re co)
  = GenSettings a b c d e f g x mt uc cr pa re (co ++ map (conversion o) l).
Proof.
  induction l as [|t l IH]; intros; cbn [fold_left map]; [now rewrite app_nil_r|].
  unfold with_conversion at 2. cbn. rewrite IH, <- app_assoc. reflexivity.
Qed.

Lemma settings_are o m : macro_settings_of o m =
  GenSettings (ms_interface _ _ _ _ m) (ms_tags _ _ _ _ m) (ms_inner_type _ _ _ _ m) (ms_pre_hook _ _ _ _ m)
    (ms_pre_hook_async _ _ _ _ m) (ms_post_hook _ _ _ _ m) (ms_post_hook_async _ _ _ _ m)
    (map text (ms_derives _ _ _ _ m)) (option_map text (ms_map_type _ _ _ _ m)) (ms_unknown_crates _ _ _ _ m)
    (apply_crates (o_crates o _ (ms_crates _ _ _ _ m)) [])
    (hm_of (map patching (o_patch o _ (ms_patch _ _ _ _ m))))
    (hm_of (map (replacement o) (o_replace o _ (ms_replace _ _ _ _ m))))
    (map (conversion o) (ms_convert _ _ _ _ m)).
Proof.
  unfold macro_settings_of, default_settings, with_interface, with_tag.
  cbn [gs_interface gs_tag gs_inner_type gs_pre_hook gs_pre_hook_async gs_post_hook gs_post_hook_async
       gs_extra_derives gs_map_type gs_unknown_crates gs_crates gs_patch gs_replace gs_convert].
  assert (H1 : forall x a b d e f g h mt uc cr pa re co, when_given T V I Sch x (with_inner_type T V I Sch)
    (GenSettings a b None d e f g h mt uc cr pa re co) = GenSettings a b x d e f g h mt uc cr pa re co)
    by (intros [x|]; reflexivity).
  assert (H2 : forall x a b c e f g h mt uc cr pa re co, when_given T V I Sch x (with_pre_hook T V I Sch)
    (GenSettings a b c None e f g h mt uc cr pa re co) = GenSettings a b c x e f g h mt uc cr pa re co)
    by (intros [x|]; reflexivity).
  assert (H3 : forall x a b c e f g h mt uc cr pa re co, when_given T V I Sch x (with_pre_hook_async T V I Sch)
    (GenSettings a b c e None f g h mt uc cr pa re co) = GenSettings a b c e x f g h mt uc cr pa re co)
    by (intros [x|]; reflexivity).
  assert (H4 : forall x a b c e f g h mt uc cr pa re co, when_given T V I Sch x (with_post_hook T V I Sch)
    (GenSettings a b c e f None g h mt uc cr pa re co) = GenSettings a b c e f x g h mt uc cr pa re co)
    by (intros [x|]; reflexivity).
  assert (H5 : forall x a b c e f g h mt uc cr pa re co, when_given T V I Sch x (with_post_hook_async T V I Sch)
    (GenSettings a b c e f g None h mt uc cr pa re co) = GenSettings a b c e f g x h mt uc cr pa re co)
    by (intros [x|]; reflexivity).
  assert (H6 : forall x a b c e f g h i uc cr pa re co, when_given T V I Sch x (fun t => with_map_type T V I Sch (text t))
    (GenSettings a b c e f g h i None uc cr pa re co) = GenSettings a b c e f g h i (option_map text x) uc cr pa re co)
    by (intros [x|]; reflexivity).
  rewrite H1, H2, H3, H4, H5, H6. unfold with_unknown_crates, with_crates.
  cbn [gs_interface gs_tag gs_inner_type gs_pre_hook gs_pre_hook_async gs_post_hook gs_post_hook_async
       gs_extra_derives gs_map_type gs_unknown_crates gs_crates gs_patch gs_replace gs_convert].
  rewrite derives_fold, patch_fold, replace_fold, convert_fold. reflexivity.
Qed.
End Options.

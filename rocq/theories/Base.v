(** Shared vocabulary of the model: strings, outcomes, and a few list
    utilities.  Nothing here is specific to progenitor. *)
From Coq Require Export List NArith ZArith Bool Lia.
From Coq Require String Ascii.
Export ListNotations.
Export String.StringSyntax.
Export Ascii.AsciiSyntax.

(** A Rust [char] is a Unicode scalar value, a Rust [String]/[&str] the list
    of its chars (the UTF-8 view is [Utf8.utf8]); e.g. template.rs:89-99. *)
Notation char := N (only parsing).
(** [&str], e.g. util.rs:83. *)
Notation str := (list N) (only parsing).

(** String literals (e.g. method.rs:2134-2135). *)
Fixpoint lit (x : String.string) : str :=
  match x with
  | String.EmptyString => []
  | String.String a r => Ascii.N_of_ascii a :: lit r
  end.
Arguments lit _%string_scope : simpl never.

(** Character literals, e.g. template.rs:129-135. *)
Definition ch (a : Ascii.ascii) : char := Ascii.N_of_ascii a.
Arguments ch _%char_scope : simpl never.

(** Equality of strings (Rust [==] on [String]) (e.g. method.rs:459). *)
Fixpoint str_eqb (a b : str) : bool :=
  match a, b with
  | [], [] => true
  | x :: a', y :: b' => N.eqb x y && str_eqb a' b'
  | _, _ => false
  end.

(** Lexicographic order of strings (Rust [Ord] on [String]; comparing UTF-8
    bytes and comparing scalar values give the same order), e.g. main.rs:297. *)
Fixpoint str_cmp (a b : str) : comparison :=
  match a, b with
  | [], [] => Eq
  | [], _ :: _ => Lt
  | _ :: _, [] => Gt
  | x :: a', y :: b' =>
      match N.compare x y with
      | Eq => str_cmp a' b'
      | o => o
      end
  end.

(** [s.contains(c)] (template.rs:135). *)
Definition has_char (c : char) (s : str) : bool := existsb (N.eqb c) s.

(** [s.starts_with(p)] (lib.rs:658, method.rs:459). *)
Fixpoint starts_with (p s : str) : bool :=
  match p, s with
  | [], _ => true
  | x :: p', y :: s' => N.eqb x y && starts_with p' s'
  | _ :: _, [] => false
  end.

(** [s.ends_with(c)] (template.rs:129). *)
Definition ends_with_char (c : char) (s : str) : bool :=
  match rev s with
  | x :: _ => N.eqb x c
  | [] => false
  end.

(** The errors of progenitor-impl/src/lib.rs:26-42, and panics. *)
Inductive error :=
| BadValue (s : str)
| TypeError (s : str)
| UnexpectedFormat (s : str)
| InvalidPath (s : str)
| InvalidExtension (s : str)
| InternalError (s : str).

(** What a generator function can do: return a value, return an error, panic
    (the [Result] of lib.rs:30-48; panics are the [todo!], [unwrap] and [assert!] of method.rs and to_schema.rs). *)
Inductive outcome (A : Type) :=
| Ok (a : A)
| Err (e : error)
| Panic (msg : str).
Arguments Ok {A} a.
Arguments Err {A} e.
Arguments Panic {A} msg.

(** The operator [?], e.g. method.rs:2022. *)
Definition obind {A B} (x : outcome A) (f : A -> outcome B) : outcome B :=
  match x with
  | Ok a => f a
  | Err e => Err e
  | Panic m => Panic m
  end.
Notation "'do' x <- a ; b" := (obind a (fun x => b))
  (at level 200, x pattern, a at level 100, b at level 200, right associativity).

(** [Result::map], e.g. util.rs:50. *)
Definition omap {A B} (f : A -> B) (x : outcome A) : outcome B :=
  obind x (fun a => Ok (f a)).

(** Rust [Iterator::collect::<Result<Vec<_>, _>>] of a mapped iterator. *)
Section MapM.
Context {A B : Type} (f : A -> outcome B).
(** E.g. util.rs:49-51. *)
Fixpoint mapM (l : list A) : outcome (list B) :=
  match l with
  | [] => Ok []
  | a :: r => do b <- f a; do bs <- mapM r; Ok (b :: bs)
  end.
End MapM.

(** A result with a caller-chosen error type (generated client code) (e.g. progenitor_client.rs:64). *)
Inductive result (A E : Type) :=
| ROk (a : A)
| RErr (e : E).
Arguments ROk {A E} a.
Arguments RErr {A E} e.

(** Association lists (look-up in a map, e.g. util.rs:27-31). *)
Fixpoint assoc {A} (k : str) (l : list (str * A)) : option A :=
  match l with
  | [] => None
  | (k', v) :: r => if str_eqb k k' then Some v else assoc k r
  end.

(** Lookup in a map collected from an iterator of pairs: the last one wins (method.rs:1277). *)
Fixpoint assoc_last {A} (k : str) (l : list (str * A)) : option A :=
  match l with
  | [] => None
  | (k', v) :: r =>
      match assoc_last k r with
      | Some w => Some w
      | None => if str_eqb k k' then Some v else None
      end
  end.

(** [contains], util.rs:125. *)
Definition mem (k : str) (l : list str) : bool := existsb (str_eqb k) l.

(** ** Basic facts *)

Lemma str_eqb_spec a b : str_eqb a b = true <-> a = b.
Proof.
  revert b; induction a as [|x a IH]; destruct b as [|y b]; cbn; split; try easy.
  - intros H%andb_true_iff. destruct H as [H1 H2].
    apply N.eqb_eq in H1. apply IH in H2. congruence.
  - intros [= -> ->]. rewrite N.eqb_refl. now apply IH.
Qed.

Lemma str_eqb_refl a : str_eqb a a = true.
Proof. now apply str_eqb_spec. Qed.

Lemma str_eqb_neq a b : str_eqb a b = false <-> a <> b.
Proof.
  split; intro H.
  - intros ->. now rewrite str_eqb_refl in H.
  - destruct (str_eqb a b) eqn:E; auto. now apply str_eqb_spec in E.
Qed.

Lemma str_eqb_sym a b : str_eqb a b = str_eqb b a.
Proof.
  destruct (str_eqb a b) eqn:E; symmetry.
  - apply str_eqb_spec in E; subst; apply str_eqb_refl.
  - apply str_eqb_neq in E; apply str_eqb_neq; congruence.
Qed.

(** Decides [==] on strings, e.g. method.rs:459. *)
Definition str_eq_dec (a b : str) : {a = b} + {a <> b} := list_eq_dec N.eq_dec a b.

Lemma str_cmp_eq a b : str_cmp a b = Eq <-> a = b.
Proof.
  revert b; induction a as [|x a IH]; destruct b as [|y b]; cbn; split; try easy.
  - destruct (N.compare_spec x y); try easy. intros H1%IH. congruence.
  - intros [= -> ->]. rewrite N.compare_refl. now apply IH.
Qed.

Lemma str_cmp_refl a : str_cmp a a = Eq.
Proof. now apply str_cmp_eq. Qed.

Lemma str_cmp_antisym a b : str_cmp b a = CompOpp (str_cmp a b).
Proof.
  revert b; induction a as [|x a IH]; destruct b as [|y b]; cbn; try easy.
  rewrite (N.compare_antisym x y). destruct (N.compare x y); cbn; auto.
Qed.

Lemma str_cmp_lt_trans a b c : str_cmp a b = Lt -> str_cmp b c = Lt -> str_cmp a c = Lt.
Proof.
  revert b c; induction a as [|x a IH]; destruct b as [|y b], c as [|z c]; cbn; try easy.
  destruct (N.compare_spec x y), (N.compare_spec y z); try easy; subst.
  - rewrite N.compare_refl. apply IH.
  - intros _ _. destruct (N.compare_spec y z); try easy; lia.
  - intros _ _. destruct (N.compare_spec x z); try easy; lia.
  - intros _ _. destruct (N.compare_spec x z); try easy; lia.
Qed.

Lemma has_char_spec c s : has_char c s = true <-> In c s.
Proof.
  unfold has_char. rewrite existsb_exists. split.
  - intros (x & Hx & E). apply N.eqb_eq in E. now subst.
  - intro H. exists c. now rewrite N.eqb_refl.
Qed.

Lemma has_char_false c s : has_char c s = false <-> ~ In c s.
Proof.
  rewrite <- has_char_spec. destruct (has_char c s); intuition congruence.
Qed.

Lemma mem_spec k l : mem k l = true <-> In k l.
Proof.
  unfold mem. rewrite existsb_exists. split.
  - intros (x & Hx & E). apply str_eqb_spec in E. now subst.
  - intro H. exists k. now rewrite str_eqb_refl.
Qed.

Lemma mem_false k l : mem k l = false <-> ~ In k l.
Proof. rewrite <- mem_spec. destruct (mem k l); intuition congruence. Qed.

Lemma starts_with_spec p s : starts_with p s = true <-> exists r, s = p ++ r.
Proof.
  revert s; induction p as [|x p IH]; intros s; cbn.
  - split; [intros _; now exists s | easy].
  - destruct s as [|y s].
    + split; [easy | intros (r & H); easy].
    + rewrite andb_true_iff, N.eqb_eq, IH. split.
      * intros (-> & r & ->). now exists r.
      * intros (r & [= -> ->]). split; auto. now exists r.
Qed.

Lemma ends_with_char_snoc c s x : ends_with_char c (s ++ [x]) = N.eqb x c.
Proof. unfold ends_with_char. now rewrite rev_app_distr. Qed.

Lemma assoc_last_app {A} k (l1 l2 : list (str * A)) :
  assoc_last k (l1 ++ l2) =
  match assoc_last k l2 with Some v => Some v | None => assoc_last k l1 end.
Proof.
  induction l1 as [|[k' v] l1 IH]; cbn.
  - now destruct (assoc_last k l2).
  - rewrite IH. now destruct (assoc_last k l2).
Qed.

Lemma assoc_In {A} k (l : list (str * A)) v : assoc k l = Some v -> In (k, v) l.
Proof.
  induction l as [|[k' w] l IH]; cbn; try easy.
  destruct (str_eqb k k') eqn:E.
  - apply str_eqb_spec in E. intros [= ->]. subst. now left.
  - intro H. right. auto.
Qed.

Lemma assoc_last_In {A} k (l : list (str * A)) v : assoc_last k l = Some v -> In (k, v) l.
Proof.
  induction l as [|[k' w] l IH]; cbn; try easy.
  destruct (assoc_last k l) eqn:E'.
  - intros [= ->]. right. auto.
  - destruct (str_eqb k k') eqn:E; try easy.
    apply str_eqb_spec in E. intros [= ->]. subst. now left.
Qed.

Lemma assoc_None {A} k (l : list (str * A)) : assoc k l = None <-> ~ In k (map fst l).
Proof.
  induction l as [|[k' w] l IH]; cbn; [easy|].
  destruct (str_eqb k k') eqn:E.
  - apply str_eqb_spec in E. subst. intuition congruence.
  - apply str_eqb_neq in E. rewrite IH. intuition congruence.
Qed.

Lemma assoc_last_None {A} k (l : list (str * A)) : assoc_last k l = None <-> ~ In k (map fst l).
Proof.
  induction l as [|[k' w] l IH]; cbn; [easy|].
  destruct (assoc_last k l) eqn:E'.
  - split; [easy|]. intro H. exfalso. apply H. right.
    apply assoc_last_In in E'. now apply (in_map fst) in E'.
  - destruct (str_eqb k k') eqn:E.
    + apply str_eqb_spec in E. subst. intuition congruence.
    + apply str_eqb_neq in E. destruct IH as [IH _]. specialize (IH eq_refl).
      intuition congruence.
Qed.

Lemma assoc_nodup_In {A} k (l : list (str * A)) v :
  NoDup (map fst l) -> In (k, v) l -> assoc k l = Some v.
Proof.
  induction l as [|[k' w] l IH]; cbn; [easy|].
  intros Hnd [[= -> ->]|H].
  - now rewrite str_eqb_refl.
  - inversion Hnd; subst. destruct (str_eqb k k') eqn:E; auto.
    apply str_eqb_spec in E. subst. apply (in_map fst) in H. easy.
Qed.

Lemma obind_ok {A B} (x : outcome A) (f : A -> outcome B) b :
  obind x f = Ok b -> exists a, x = Ok a /\ f a = Ok b.
Proof. destruct x; cbn; try easy. eauto. Qed.

Lemma mapM_ok {A B} (f : A -> outcome B) l bs :
  mapM f l = Ok bs -> Forall2 (fun a b => f a = Ok b) l bs.
Proof.
  revert bs; induction l as [|a l IH]; cbn; intros bs H.
  - injection H as <-. constructor.
  - apply obind_ok in H as (b & Hb & H). apply obind_ok in H as (bs' & Hbs & H).
    injection H as <-. constructor; auto.
Qed.

Lemma mapM_ok_iff {A B} (f : A -> outcome B) l bs :
  mapM f l = Ok bs <-> Forall2 (fun a b => f a = Ok b) l bs.
Proof.
  split; [apply mapM_ok|]. induction 1 as [|a b l bs H _ IH]; cbn; auto.
  rewrite H. cbn. now rewrite IH.
Qed.

Lemma forall2_map_eq {A B} (f : A -> B) l bs :
  Forall2 (fun a b => f a = b) l bs -> bs = map f l.
Proof. induction 1; cbn; congruence. Qed.

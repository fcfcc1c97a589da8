(** Schemas for the examples of C44-C47. *)
From Coq Require Import QArith.
From Verif Require Import Base OasModel OpModel ToSchemaModel DoubleSpec DoubleProofs SchemaSpec.
Local Open Scope N_scope.

Definition h_data (nullable : bool) : schema_data :=
  SchemaData nullable false true true (Some (JStr (lit "abc"))) (Some (lit "A title"))
    (Some (lit "A description")) false (Some (JNum 3))
    [(lit "x-two", JBool true); (lit "x-one", JNum 1)].

Definition h_any : any_schema schema :=
  AnySchema None None None None None None None [] [] None None None None None None None [] None
    None None [] [] [] None.

(** A name: a string of 1 to 63 characters, or null. *)
Definition h_name : schema :=
  Schema (h_data true)
    (SkString (StringType (VItem SfDate) (Some (lit "^[a-z]+$"))
       [Some (lit "abc"); Some (lit "abcd"); None] (Some 1) (Some 63))).

(** An integer from 1 to below 2^62. *)
Definition h_count : schema :=
  Schema (h_data false)
    (SkInteger (IntegerType (VItem IfInt64) None false true (Some 1%Z) (Some (2 ^ 62)%Z) [])).

(** One of a reference and an array, nullable. *)
Definition h_choice : schema :=
  Schema (h_data true)
    (SkOneOf [Ref (lit "#/components/schemas/Id");
              Item (Schema plain_data (SkArray (ArrayType (Some (Item h_count)) (Some 1) None true)))]).

(** Several of an untyped schema, nullable. *)
Definition h_both : schema :=
  Schema (h_data true)
    (SkAny (AnySchema None None None None None None None [] [] None None None None None None None []
       (Some (lit "odd")) None None []
       [Ref (lit "#/components/schemas/Id"); Item h_count] [] None)).

(** A typed schema with keywords of several kinds. *)
Definition h_sized : schema :=
  Schema (h_data true)
    (SkAny (AnySchema (Some (lit "string")) None (Some 2%Q) (Some true) None (Some 0%Q) None [] [] None
       None None None None None (Some true) [] None (Some 2) (Some 5) [] [] [] None)).

(** An object with all of these. *)
Definition h_object : schema :=
  Schema (h_data true)
    (SkObject (ObjectType
       [(lit "name", Item h_name); (lit "count", Item h_count); (lit "choice", Item h_choice);
        (lit "both", Item h_both); (lit "sized", Item h_sized);
        (lit "anything", Item (Schema (h_data true) (SkAny h_any)))]
       [lit "name"; lit "count"; lit "name"] (Some (ApSchema (Ref (lit "#/components/schemas/Id"))))
       (Some 1) (Some 7))).

(** References: the identifiers are strings. *)
Definition h_refs (n : str) (v : json) : bool :=
  match v with JStr _ => str_eqb n (lit "#/components/schemas/Id") | _ => false end.
Definition h_matches (p s : str) : bool := negb (Nat.eqb (length s) 2).
Definition h_format (f : str) (v : json) : bool := true.

Definition h_value : json :=
  JObj [(lit "count", JNum 7); (lit "name", JStr (lit "abc")); (lit "choice", JArr [JNum 1; JNum 2]);
        (lit "both", JNull); (lit "sized", JStr (lit "xyz")); (lit "other", JStr (lit "id"))].
Definition h_wrong : json :=
  JObj [(lit "count", JNum 7); (lit "name", JStr (lit "abc")); (lit "choice", JArr [JNum 1; JNum 1])].

(** What a list closed under [children] contains. *)
Lemma nested_closed (l : list schema) t s : nested t s -> In s l ->
  (forall u, In u l -> incl (children (s_kind u)) l) -> In t l.
Proof. induction 1 as [|s u Hu Hn IH]; auto. intros Hs Hl. apply IH; auto. now apply (Hl s). Qed.

Definition h_all : list schema :=
  [h_object; h_name; h_count; h_choice;
   Schema plain_data (SkArray (ArrayType (Some (Item h_count)) (Some 1) None true)); h_both; h_sized;
   Schema (h_data true) (SkAny h_any)].

Lemma h_nested t : nested t h_object -> In t h_all.
Proof.
  intro H. apply (nested_closed h_all _ _ H); [now left|].
  intros u Hu w Hw. cbn [h_all In] in Hu.
  repeat (destruct Hu as [<-|Hu]; [cbn in Hw |- *; tauto|]). destruct Hu.
Qed.

Local Ltac bounded H := repeat (destruct H as [<-|H]; [vm_compute; congruence|]); destruct H.
Local Ltac doubles H :=
  repeat (destruct H as [<-|H]; [first [apply double_small; vm_compute; congruence|exists 1%Z, 62%Z; split; [|split]; [vm_compute; congruence|reflexivity|reflexivity]]|]); destruct H.
Local Ltac one :=
  split; [intros n Hn; cbn in Hn; bounded Hn|];
  split; [intros z Hz; cbn in Hz; doubles Hz|];
  split; [cbn; repeat constructor; cbn; intuition discriminate|]; intro Hn.

Lemma h_kept : all_kept h_refs h_matches h_format h_object.
Proof.
  intros t H. apply h_nested in H. unfold h_all in H.
  destruct H as [<-|H]; [one; exact I|].
  destruct H as [<-|H]; [one; right; cbn; auto|].
  destruct H as [<-|H]; [one; discriminate|].
  destruct H as [<-|H]; [one; reflexivity|].
  destruct H as [<-|H]; [one; discriminate|].
  destruct H as [<-|H]; [one; split; [reflexivity|]; left; split; reflexivity|].
  destruct H as [<-|H]; [one; reflexivity|].
  destruct H as [<-|H]; [one; split; [reflexivity|]; right; right; repeat split; reflexivity|].
  destruct H.
Qed.

(** ** Witnesses *)

(** A least length of 2^32 is converted to 0. *)
Definition h_long : schema :=
  Schema plain_data (SkString (StringType VEmpty None [] (Some (2 ^ 32)) None)).

(** A maximum of 2^53 + 1 is converted to 2^53. *)
Definition h_large : schema :=
  Schema plain_data (SkInteger (IntegerType VEmpty None false false None (Some (2 ^ 53 + 1)%Z) [])).

(** A nullable schema that bounds the length of strings is converted to one
    that accepts no string. *)
Definition h_untyped (nullable : bool) : schema :=
  Schema (SchemaData nullable false false false None None None false None [])
    (SkAny (AnySchema None None None None None None None [] [] None None None None None None None [] None
       (Some 1) None [] [] [] None)).

(** A nullable enumeration that does not list null. *)
Definition h_listed (nullable : bool) : schema :=
  Schema (SchemaData nullable false false false None None None false None [])
    (SkString (StringType VEmpty None [Some (lit "a"); Some (lit "b")] None None)).

(** A nullable enumeration without type. *)
Definition h_values (nullable : bool) : schema :=
  Schema (SchemaData nullable false false false None None None false None [])
    (SkAny (AnySchema None None None None None None None [] [] None None None None None None None
       [JStr (lit "a"); JNull] None None None [] [] [] None)).

(** A nullable choice with a nullable alternative. *)
Definition h_twice (nullable : bool) : schema :=
  Schema (SchemaData nullable false false false None None None false None [])
    (SkOneOf [Item (h_listed false); Item (Schema (h_data true)
       (SkArray (ArrayType None None None false)))]).

(** A type that is not one of the six. *)
Definition h_null_type : schema :=
  Schema plain_data
    (SkObject (ObjectType [(lit "a", Item (Schema plain_data
       (SkAny (AnySchema (Some (lit "null")) None None None None None None [] [] None None None None None
          None None [] None None None [] [] [] None))))] [] None None None)).

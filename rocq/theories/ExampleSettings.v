(** Concrete data for the examples of PropSettings.v. *)
From Coq Require Import Sorting.Permutation.
From Verif Require Import Base OasModel OpModel BuilderModel MethodModel SanitizeModel GenerateModel MacroModel MacroSpec MacroProofs
  SettingsModel SettingsSpec SettingsProofs SettingsMain SettingsOrder ExampleData ExampleGenerate ExampleMacro.
Local Open Scope N_scope.

(** Paths: words with [::] between them; keywords are no words of a path. *)
Definition s_word (w : str) : bool := negb (existsb (str_eqb w) [lit "const"; lit "static"; lit "async"; lit "move"]).
Fixpoint s_path (ts : list tree) : option (list tree * list tree) :=
  match ts with
  | TrWord w :: TrSign a :: TrSign b :: r =>
      if negb (s_word w) then None
      else if (a =? ch ":") && (b =? ch ":") then
        match s_path r with
        | Some (p, l) => Some (TrWord w :: TrSign a :: TrSign b :: p, l)
        | None => None
        end
      else Some ([TrWord w], TrSign a :: TrSign b :: r)
  | TrWord w :: r => if s_word w then Some ([TrWord w], r) else None
  | _ => None
  end.
(** Closures: one word between bars, then anything at all. *)
Definition s_closure (ts : list tree) : (list tree * list tree) + list tree :=
  match ts with
  | TrSign a :: TrWord w :: TrSign b :: t :: r => if b =? ch "|" then inl (ts, []) else inr (TrSign b :: t :: r)
  | TrSign a :: TrWord w :: r => inr r
  | TrSign a :: r => inr r
  | _ => inr ts
  end.
Lemma s_no_paren : no_paren s_path.
Proof. intros l r. reflexivity. Qed.

Fixpoint s_text (l : list tree) : str :=
  match l with
  | [] => []
  | TrWord w :: r => w ++ s_text r
  | TrSign c :: r => c :: s_text r
  | TrParen _ :: r => s_text r
  end.
Definition s_type (p : type_path) : str := match p with TypePath _ s l => s ++ flat_map (fun x => lit "::" ++ x) l end.
Definition s_word_of (s : str) : list tree := [TrWord s].

(** Two orders of hash maps. *)
Definition s_same : hash_order := fun _ l => l.
Definition s_back : hash_order := fun A l => rev l.
Definition s_o : hash_orders := HashOrders s_same s_same s_same s_same s_same s_same.
Definition s_o' : hash_orders := HashOrders s_back s_back s_back s_back s_back s_back.
Lemma s_o_ok : orders_ok s_o.
Proof. repeat split; intros A l; apply Permutation_refl. Qed.
Lemma s_o'_ok : orders_ok s_o'.
Proof. repeat split; intros A l; apply Permutation_rev. Qed.

Definition s_hook : list tree := [TrParen [TrWord (lit "move"); TrSign (ch "|"); TrWord (lit "r"); TrSign (ch "|"); TrWord (lit "f"); TrParen []]].
Definition s_path_hook : list tree := [TrWord (lit "a"); TrSign (ch ":"); TrSign (ch ":"); TrWord (lit "b")].
Definition s_broken : list tree := TrWord (lit "async") :: s_path_hook.

Definition s_entries : list (entry (list tree) str) :=
  [EnSpec _ _ (lit "api.json"); EnInterface _ _ Builder; EnPreHook _ _ s_hook; EnPostHook _ _ s_path_hook;
   EnDerives _ _ [s_word_of (lit "Hash"); s_word_of (lit "Ord")]; EnMapType _ _ (s_word_of (lit "Map")); EnUnknownCrates _ _ PolicyDeny;
   EnCrates _ _ some_section;
   EnPatch _ _ [(lit "A", MacroPatch _ (Some (lit "B")) [s_word_of (lit "Eq")]); (lit "C", MacroPatch _ None [])];
   EnReplace _ _ [(lit "D", [TkIdent (lit "a"); TkPathSep; TkIdent (lit "E")]); (lit "F", [TkIdent (lit "G")])];
   EnConvert _ _ [(lit "{}", [TkIdent (lit "H")])];
   EnOther _ _ (lit "struct_builder")].

Definition s_read (o : hash_orders) (i : invocation (list tree) str) :=
  read_invocation (list tree) str N str s_text unicode15 some_semver s_closure s_path (fun ts => ts) s_type some_impl N.eqb [0; 1] o i.
Definition s_calls (o : hash_orders) (i : invocation (list tree) str) : list (type_call str N str) :=
  match s_read o i with
  | Some (_, s) => type_calls _ _ _ _ (o_patch_out o) (o_replace_out o) s
  | None => []
  end.
(** One file, in a directory. *)
Definition s_open (p : str) : str + str :=
  if str_eqb p (lit "/x/api.json") then inl (lit "ping") else inr (lit "no such file").
Definition s_api (o : hash_orders) (i : invocation (list tree) str) : expansion :=
  generate_api (list tree) str N str s_text unicode15 some_semver s_closure s_path (fun ts => ts) s_type some_impl N.eqb [0; 1]
    (Some (lit "/x")) None s_open (fun s => Some (y_doc s)) (fun _ => inr []) (fun _ => lit "e")
    (fun _ _ => Ok x_ts) (fun _ => y_types) o i.

Lemma s_eqb : forall i j, (i =? j) = true <-> i = j.
Proof. exact N.eqb_eq. Qed.
Lemma s_defaults : NoDup [0; 1].
Proof. constructor; [intros [[=]|[]]|constructor; [easy|constructor]]. Qed.

Lemma s_delivered : s_calls s_o (InvKeys _ _ s_entries) =
  [CallTypeMod _ _ _ (lit "types"); CallStructBuilder _ _ _ true; CallDerive _ _ _ (lit "Hash"); CallDerive _ _ _ (lit "Ord");
   CallUnknownCrates _ _ _ PolicyDeny; CallCrate _ _ _ (lit "chrono") VersAny None; CallCrate _ _ _ (lit "rand") VersNever None;
   CallCrate _ _ _ (lit "uuid") (VersVersion (lit "1.0.0")) (Some (lit "mine"));
   CallPatch _ _ _ (lit "A") [PatchRename (lit "B"); PatchDerive (lit "Eq")]; CallPatch _ _ _ (lit "C") [];
   CallReplacement _ _ _ (lit "D") (lit "a::E") [0; 1]; CallReplacement _ _ _ (lit "F") (lit "G") [0; 1];
   CallConversion _ _ _ (lit "{}") (lit "H") [0; 1]; CallMapType _ _ _ (lit "Map")].
Proof. vm_compute. reflexivity. Qed.
Lemma s_reversed : s_calls s_o' (InvKeys _ _ s_entries) <> s_calls s_o (InvKeys _ _ s_entries).
Proof. vm_compute. discriminate. Qed.
Lemma s_separate : forall l, In (EnCrates _ _ l) s_entries -> separate_crates unicode15 some_semver l.
Proof.
  intros l H. cbn [In s_entries] in H.
  repeat (destruct H as [H|H]; [first [discriminate H|injection H as <-; exact some_separate]|]). destruct H.
Qed.
Lemma s_expanded : s_api s_o (InvKeys _ _ s_entries)
  = Expanded match s_api s_o (InvKeys _ _ s_entries) with Expanded c _ => c | _ => y_empty end (lit "/x/api.json").
Proof. vm_compute. reflexivity. Qed.
Lemma s_missing : s_api s_o (InvString _ _ (lit "/y")) = CompileError (Some (lit "couldn't read file /y: no such file")).
Proof. vm_compute. reflexivity. Qed.
Lemma s_rejected : s_api s_o (InvKeys _ _ [EnInterface _ _ Builder]) = CompileError None
  /\ s_api s_o (InvKeys _ _ (EnInterface _ _ Builder :: s_entries)) = CompileError None.
Proof. vm_compute. auto. Qed.

(** A hook that is neither a closure nor a path. *)
Lemma s_broken_read : closure_or_path s_closure s_path s_broken = Some s_path_hook
  /\ forall out, ~ plain_hook s_closure s_path s_broken out.
Proof.
  split; [vm_compute; reflexivity|]. intros out H. remember s_broken as ts eqn:E.
  destruct H as [inner out _|kws ts body Hk Hb Hc|ts out Hp].
  - discriminate E.
  - assert (Hin : In (TrSign (ch "|")) s_broken).
    { rewrite <- E. apply in_or_app. right. destruct ts as [|t ts]; [discriminate Hb|]. cbn in Hb. injection Hb as ->. now left. }
    vm_compute in Hin. intuition discriminate.
  - subst ts. vm_compute in Hp. discriminate.
Qed.

(** The order of hash maps can decide which crate is used. *)
Definition s_clash : list (entry (list tree) str) :=
  [EnSpec _ _ (lit "api.json"); EnCrates _ _ [(lit "a", lit "x@1.0"); (lit "b", lit "x@2.0")]].
Lemma same_crates {V I Sch} (cs cs' : list (type_call V I Sch)) : same_calls cs cs' ->
  forall c v r, In (CallCrate _ _ _ c v r) cs <-> In (CallCrate _ _ _ c v r) cs'.
Proof.
  induction 1 as [cs|a b c H1 IH1 H2 IH2|a n p n' p' b Hn|a n r i n' r' i' b Hn|a n r i i' b Hp|a h n i i' b Hp]; intros k v w.
  - reflexivity.
  - now rewrite IH1.
  - rewrite !in_app_iff. cbn [In]. split; intros [H|[H|[H|H]]]; auto; discriminate H.
  - rewrite !in_app_iff. cbn [In]. split; intros [H|[H|[H|H]]]; auto; discriminate H.
  - rewrite !in_app_iff. cbn [In]. split; intros [H|[H|H]]; auto; discriminate H.
  - rewrite !in_app_iff. cbn [In]. split; intros [H|[H|H]]; auto; discriminate H.
Qed.
Lemma s_clashing : ~ same_calls (s_calls s_o (InvKeys _ _ s_clash)) (s_calls s_o' (InvKeys _ _ s_clash)).
Proof.
  intro H. pose proof (proj1 (same_crates _ _ H (lit "x") (VersVersion (lit "2.0")) (Some (lit "b")))) as X.
  assert (Hin : In (CallCrate str N str (lit "x") (VersVersion (lit "2.0")) (Some (lit "b"))) (s_calls s_o (InvKeys _ _ s_clash)))
    by (vm_compute; auto 10).
  apply X in Hin. vm_compute in Hin. repeat (destruct Hin as [Hin|Hin]; [discriminate Hin|]). destruct Hin.
Qed.
Lemma s_clash_read : exists r, s_read s_o (InvKeys _ _ s_clash) = Some r.
Proof. eexists. vm_compute. reflexivity. Qed.

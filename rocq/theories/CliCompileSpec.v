(** What the Rust compiler asks of a generated command line interface, beside a client that compiles. *)
From Verif Require Import Base MethodModel OpModel BuilderModel BuilderSpec SanitizeModel GenerateModel GenerateSpec PageSpec CliModel CliSpec.
Local Open Scope N_scope.

(** What code may need of a type: that values can be stored by clap ([Clone], [Send], [Sync]); that clap finds a parser
    for it; that it has [Display] and [TryFrom<String>]; [Deserialize]; [JsonSchema], [Serialize] and [Debug]. *)
Inductive cli_trait := TcStored | TcParsed | TcListed | TcRead | TcShown.

Section Code.
(** The traits of a type, which is given by its text; [sets t n ty]: the builder of the structure [t] has a method [n]
    for values of the type [ty]. *)
Variable has : str -> cli_trait -> Prop.
Variable sets : type_id -> str -> str -> Prop.
Variable ctypes : type_id -> option cli_type.
Variable ts : type_space.

Definition named (t : type_id) (ty : str) : Prop := exists ct, ctypes t = Some ct /\ ct_ident ct = ty.
Definition shown_type (t : type_id) : Prop := exists ty, named t ty /\ has ty TcShown.
(** Bytes and connections cannot be shown. *)
Definition shown (k : resp_kind) : Prop :=
  match k with RType t => shown_type t | RNone => True | RRaw | RUpgrade => False end.

(** ** The code *)

(** The type of the list of an enumeration without variants cannot be inferred. *)
Definition parser_compiles (p : value_parser) : Prop :=
  match p with
  | VpEnum ty vs => has ty TcStored /\ has ty TcListed /\ vs <> []
  | VpType ty => has ty TcStored /\ has ty TcParsed
  | VpFlag => True
  end.

(** The builder has a setter [n] for values of the type [ty]. *)
Definition setter_name (f : builder_field) : str := match bf_setter f with StBody _ _ => lit "body" | _ => bf_name f end.
Definition has_setter (c : builder_code) (n ty : str) : Prop :=
  exists f t, In f (bc_fields c) /\ setter_name f = n /\ bf_param f = PType t /\ named t ty.

Inductive consumer_compiles (c : builder_code) : consumer -> Prop :=
| cc_param ty id n : has ty TcStored -> has_setter c n ty -> consumer_compiles c (CoParam ty id n)
| cc_prop ty id n f t msg : has ty TcStored -> In f (bc_fields c) -> bf_setter f = StBody t msg -> sets t n ty ->
    consumer_compiles c (CoProp ty id n).

Definition success_compiles (k : resp_kind) (so : success_output) : Prop :=
  match so with SoItem => shown k | SoNoItem => k = RNone | SoTodo => True end.
Definition error_compiles (k : resp_kind) (eo : error_output) : Prop :=
  match eo with EoError => shown k | EoTodo => True end.

(** The type of the items of a page. *)
Definition page_item (t item : type_id) : Prop :=
  exists props a, ts_details ts t = Some (TdStruct props) /\ property props (lit "items") a /\ ts_details ts a = Some (TdVec item).

Inductive output_compiles (c : builder_code) : output -> Prop :=
| oc_one_shot so eo : success_compiles (sb_success (bc_send c)) so -> error_compiles (sb_error (bc_send c)) eo ->
    output_compiles c (OutOneShot so eo)
| oc_listing ty eo t item : bc_stream c <> None -> has ty TcShown -> sb_success (bc_send c) = RType t -> page_item t item ->
    shown_type item -> error_compiles (sb_error (bc_send c)) eo -> output_compiles c (OutListing ty eo).

Record operation_compiles (o : cli_operation) (c : builder_code) : Prop := OperationCompiles {
  oo_parsers : Forall (fun a => parser_compiles (cl_parser a)) (cg_parsers (co_args o));
  oo_consumers : Forall (consumer_compiles c) (cg_consumers (co_args o));
  oo_json : forall ty, cg_json (co_args o) = Some ty -> has ty TcRead /\ has_setter c (lit "body") ty;
  oo_output : output_compiles c (co_output o) }.

(** ** Finding the method *)

(** The methods that every type has and that take it by value: they come before all that take a reference.  Those of a
    type with [Clone] that take a reference come with those of other traits, and after its own. *)
Definition by_value : list str := [lit "into"; lit "try_into"].
Definition by_reference : list str := [lit "clone"; lit "clone_into"; lit "to_owned"].
(** The methods that every client has; the other two functions are not called on a client. *)
Definition fixed_method (g : generated_code) (n : str) : Prop :=
  In n (ge_fixed g) /\ n <> lit "new" /\ n <> lit "new_with_client".

(** [self.client.n()] is the method that makes the builder [s]. *)
Inductive finds (g : generated_code) (n s : str) : Prop :=
| fd_own doc : ~ In n by_value -> ~ fixed_method g n -> In (ImBuilder n doc s) (oc_impl (ge_code g)) -> finds g n s
| fd_trait t doc : ~ In n by_value -> ~ In n by_reference -> ~ fixed_method g n -> ~ In n (map im_name (oc_impl (ge_code g))) ->
    In t (oc_traits (ge_code g)) -> In (ImBuilder n doc s) (tc_methods t) ->
    (forall t', In t' (oc_traits (ge_code g)) -> In n (map im_name (tc_methods t')) -> t' = t) -> finds g n s.

(** ** The file *)

Definition own_functions : list str := [lit "new"; lit "get_command"; lit "execute"].
Definition callbacks : list str :=
  [lit "success_item"; lit "success_no_item"; lit "error"; lit "list_start"; lit "list_item"; lit "list_end_success"; lit "list_end_error"].

Record cli_compiles (k : cli_code) (g : generated_code) : Prop := CliCompiles {
  lk_functions : NoDup (own_functions ++ map co_cli_fn (cc_operations k) ++ map co_execute_fn (cc_operations k));
  lk_trait : NoDup (callbacks ++ map co_execute_fn (cc_operations k));
  lk_variants : NoDup (cc_variants k);
  lk_commands : forall v f, In (v, f) (cc_commands k) -> In v (cc_variants k) /\ In f (map co_cli_fn (cc_operations k));
  lk_executes : forall v f, In (v, f) (cc_executes k) -> In v (cc_variants k) /\ In f (map co_execute_fn (cc_operations k));
  lk_operations : Forall (fun o => exists sc, In sc (oc_builders (ge_code g)) /\ sc_name sc = co_struct o
      /\ finds g (co_op_name o) (sc_name sc) /\ operation_compiles o (sc_code sc)) (cc_operations k) }.

(** ** What that takes of the operations *)

Section Sound.
Variable U : unicode.
Variable types : type_id -> option type_info.

(** Texts make values of the type. *)
Definition argument_type (ct : cli_type) : Prop :=
  has (ct_ident ct) TcStored
  /\ (forall vs, ct_details ct = CdEnum (map (fun v => (v, true)) vs) -> has (ct_ident ct) TcListed /\ vs <> [])
  /\ ((forall vs, ct_details ct <> CdEnum (map (fun v => (v, true)) vs)) -> has (ct_ident ct) TcParsed).

Record sound_command (m : op_method) (sb : sig_body) : Prop := SoundCommand {
  (* making an identifier of the name of a parameter gives the name of one of the same type *)
  sm_params : forall p t ct, In p (m_params m) -> has_argument m p -> p_typ p = PType t -> ctypes t = Some ct ->
    argument_type ct
    /\ exists q u, In q (m_params m) /\ p_name q = snake U (p_name p) /\ p_typ q = PType u /\ named u (ct_ident ct);
  sm_props : forall own rest pr ct, own_properties U ctypes m own rest -> In pr own -> value_type ctypes (pr_type pr) ct ->
    argument_type ct
    /\ exists p t, In p (m_params m) /\ nested types p t /\ sets t (snake U (pr_name pr)) (ct_ident ct);
  sm_body : forall t ct, body_of m (Some (PType t)) -> ctypes t = Some ct -> has (ct_ident ct) TcRead;
  sm_success : forall t, sb_success sb = RType t -> shown_type t;
  sm_error : forall t, sb_error sb = RType t -> shown_type t;
  sm_items : forall pg, m_paginated m = Some pg -> shown_type (pg_item pg) }.

Record sound_cli (s : settings) (ms : list op_method) : Prop := SoundCli {
  (* making an identifier of the name of an operation gives the name of one *)
  sx_names : forall m, In m ms -> exists n, In n ms /\ m_operation_id n = snake U (m_operation_id m);
  sx_value : forall m, In m ms -> ~ In (m_operation_id m) by_value;
  (* methods of traits are found: in one trait only, and not hidden by the client's own *)
  sx_tags : se_tag s = Separate -> forall m, In m ms -> (length (m_tags m) <= 1)%nat;
  sx_tagged : se_tag s = Separate -> forall m, In m ms -> m_tags m <> [] ->
    ~ In (m_operation_id m) by_reference
    /\ m_operation_id m <> lit "baseurl" /\ m_operation_id m <> lit "client" /\ m_operation_id m <> lit "api_version"
    /\ (se_inner s = true -> m_operation_id m <> lit "inner");
  sx_commands : Forall (fun m => exists sb, method_sig_body (se_hooks s) m = Ok sb /\ sound_command m sb) ms }.
End Sound.
End Code.

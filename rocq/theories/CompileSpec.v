(** What the Rust compiler asks of the generated code, as far as names, numbers and types of arguments,
    traits of types, moved values and exhaustive matches go.  Lifetimes, and what a hook is called with, are
    not covered. *)
From Verif Require Import Base TemplateModel TemplateSpec MethodModel OpModel BuilderModel StreamModel GenerateModel
  RequestSpec.
Local Open Scope N_scope.

(** ** Bodies of methods *)

Inductive rust_trait := TrDisplay | TrSerialize | TrDeserialize | TrDebug | TrClone.

(** The types of local variables. *)
Inductive var_type :=
| VtArg (t : type_id)        (* a generated type, or a reference to it *)
| VtOption (t : type_id)
| VtBody                     (* what converts into a reqwest::Body *)
| VtUrl
| VtHeaders
| VtRequest
| VtResult
| VtResponse.

(** A format string with [n] places for arguments. *)
Inductive format_string : str -> nat -> Prop :=
| fs_end : format_string [] 0
| fs_place s n : format_string s n -> format_string (ch "{" :: ch "}" :: s) (S n)
| fs_open s n : format_string s n -> format_string (ch "{" :: ch "{" :: s) n
| fs_close s n : format_string s n -> format_string (ch "}" :: ch "}" :: s) n
| fs_char c s n : c <> ch "{" -> c <> ch "}" -> format_string s n -> format_string (c :: s) n.

(** The status codes are 16-bit numbers. *)
Definition covers (p : pat) (n : N) : Prop :=
  match p with
  | PatCode c => n = c
  | PatRange lo hi => lo <= n <= hi
  | PatAny => True
  end.
Definition exhaustive (ps : list pat) : Prop := forall n, n < 65536 -> Exists (fun p => covers p n) ps.

Section Types.
(** The traits that types have. *)
Variable has : type_id -> rust_trait -> Prop.

Notation env := (list (prod str var_type)) (only parsing).

(** The variable has a method [to_string]. *)
Definition prints (G : env) (x : str) : Prop := exists t, assoc x G = Some (VtArg t) /\ has t TrDisplay.

Definition header_stmt_ok (G : env) (s : header_stmt) : Prop :=
  match s with
  | HRequired _ x => prints G x
  | HOptional _ x => exists t, assoc x G = Some (VtOption t) /\ has t TrDisplay
  end.

Definition call_ok (G : env) (c : chain_call) : Prop :=
  match c with
  | CAcceptJson | CWebsocket => True
  | CContentTypeBody _ => assoc (lit "body") G = Some VtBody
  | CJson | CForm => exists t, assoc (lit "body") G = Some (VtArg t) /\ has t TrSerialize
  | CQuery _ x => exists t, (assoc x G = Some (VtArg t) \/ assoc x G = Some (VtOption t)) /\ has t TrSerialize
  | CHeaders => assoc (lit "header_map") G = Some VtHeaders
  end.

(** Decoding a response to a value of the declared type. *)
Inductive decodes : decode -> resp_kind -> Prop :=
| dc_type t : has t TrDeserialize -> decodes DFromResponse (RType t)
| dc_none : decodes DEmpty RNone
| dc_raw : decodes DStream RRaw
| dc_upgrade : decodes DUpgrade RUpgrade.
Inductive rhs_ok (success error : resp_kind) : rhs -> Prop :=
| ro_ok d : decodes d success -> rhs_ok success error (RhsOk d)
| ro_err d : decodes d error -> rhs_ok success error (RhsErr d)
| ro_unexpected : rhs_ok success error RhsUnexpected.

(** The statements of a body, with the variables in scope. *)
Inductive body_ok (success error : resp_kind) : env -> list stmt -> Prop :=
| bo_url G x u rest : format_string (ue_fmt u) (S (length (ue_args u))) -> Forall (prints G) (ue_args u) ->
    (ue_args u = [] \/ assoc (lit "encode_path") G = None) ->
    body_ok success error ((x, VtUrl) :: G) rest -> body_ok success error G (SLetUrl x u :: rest)
| bo_headers G hs rest : Forall (header_stmt_ok ((lit "header_map", VtHeaders) :: G)) hs ->
    body_ok success error ((lit "header_map", VtHeaders) :: G) rest -> body_ok success error G (SLetHeaders hs :: rest)
| bo_request G x m url calls rest : startable m -> assoc url G = Some VtUrl -> Forall (call_ok G) calls ->
    body_ok success error ((x, VtRequest) :: G) rest -> body_ok success error G (SLetRequest x m url calls :: rest)
| bo_pre G x rest : assoc x G = Some VtRequest -> body_ok success error G rest -> body_ok success error G (SPreHook x :: rest)
| bo_pre_async G x rest : assoc x G = Some VtRequest -> body_ok success error G rest ->
    body_ok success error G (SPreHookAsync x :: rest)
| bo_execute G x q rest : assoc q G = Some VtRequest -> body_ok success error ((x, VtResult) :: G) rest ->
    body_ok success error G (SLetExecute x q :: rest)
| bo_post G x rest : assoc x G = Some VtResult -> body_ok success error G rest -> body_ok success error G (SPostHook x :: rest)
| bo_post_async G x rest : assoc x G = Some VtResult -> body_ok success error G rest ->
    body_ok success error G (SPostHookAsync x :: rest)
| bo_try G x r rest : assoc r G = Some VtResult -> body_ok success error ((x, VtResponse) :: G) rest ->
    body_ok success error G (SLetTry x r :: rest)
| bo_match G x arms : assoc x G = Some VtResponse -> exhaustive (map fst arms) ->
    Forall (fun a => rhs_ok success error (snd a)) arms -> body_ok success error G [SMatch x arms].

(** A method with parameters of these types. *)
Definition method_ok (G : env) (sb : sig_body) : Prop :=
  NoDup (map fst G) /\ body_ok (sb_success sb) (sb_error sb) G (sb_body sb).

(** ** What that takes of an operation *)

(** The type of the variable of a parameter. *)
Definition variable_type (p : op_param) : var_type :=
  match p_typ p with
  | PType t => if is_optional (p_kind p) then VtOption t else VtArg t
  | PRawBody => VtBody
  end.
Definition scope (m : op_method) : env := map (fun p => (p_name p, variable_type p)) (m_params m).

(** A parameter is used as its kind demands: path parameters with a placeholder and headers are written as text,
    the others serialized. *)
Definition usable (placeholders : list str) (p : op_param) : Prop :=
  match p_kind p, p_typ p with
  | KPath, PType t => In (p_api_name p) placeholders -> has t TrDisplay
  | KHeader _, PType t => has t TrDisplay /\ p_name p <> lit "header_map"
  | KQuery _, PType t => has t TrSerialize /\ p_name p <> lit "header_map"
  | KBody _, PType t => has t TrSerialize
  | KBody _, PRawBody => True
  | _, PRawBody => False
  end.

(** [ps] are the pieces of the path. *)
Record sound_operation (ps : list piece) (m : op_method) (sb : sig_body) : Prop := SoundOperation {
  so_names : NoDup (map p_name (m_params m));
  so_path : no_stray ps;
  so_encode_path : vars ps = [] \/ ~ In (lit "encode_path") (map p_name (m_params m));
  so_verb : startable (m_method m);
  so_params : Forall (usable (vars ps)) (m_params m);
  so_success : forall t, sb_success sb = RType t -> has t TrDeserialize;
  so_error : forall t, sb_error sb = RType t -> has t TrDeserialize }.
End Types.

(** Model of the builder interface: progenitor-impl/src/method.rs:1400-1861
    ([builder_struct]), and of positional methods (551-625). *)
From Verif Require Import Base ClientModel MethodModel RunModel.
Local Open Scope N_scope.

(** typify's [Type::name] and [Type::builder] (some for structs when
    [struct_builder] is set, lib.rs:263); [None] is an unknown type. *)
Record type_info := TypeInfo { ti_name : str; ti_builder : bool }.

(** method.rs:1421-1448, the type of the field of a parameter: [Result<T, String>],
    [Result<Option<T>, String>] or [Result<builder::T, String>]. *)
Inductive field_type := FtRequired | FtOptional | FtBuilder (t : type_id).

(** method.rs:1454-1479, its initial value: [Err(msg)], [Ok(None)] or
    [Ok(Default::default())]. *)
Inductive initial := InErr (msg : str) | InNone | InDefault.

(** method.rs:1506-1636, the setter: what it stores, with its error message. *)
Inductive setter :=
| StOptional (msg : str)            (* method.rs:1520-1540 *)
| StRequired (msg : str)            (* method.rs:1541-1560 *)
| StBody (t : type_id) (msg : str)  (* method.rs:1562-1597: body and body_map *)
| StRaw (msg : str).                (* method.rs:1601-1633: reqwest::Body or String *)

(** One field per parameter (method.rs:1421-1502); [bf_param] is the type [T], or [reqwest::Body]. *)
Record builder_field := BuilderField {
  bf_name : str;
  bf_param : param_type;
  bf_type : field_type;
  bf_initial : initial;
  bf_finalize : option type_id;     (* method.rs:1484-1502: [.and_then(|v| T::try_from(v)..)] *)
  bf_setter : setter }.

(** The generated struct and its impl block (method.rs:1841-1860). *)
Record builder_code := BuilderCode {
  bc_client : str;
  bc_fields : list builder_field;
  bc_send : sig_body;
  bc_stream : option (list str);    (* method.rs:1679-1778: the fields reset to [Ok(None)] *)
  bc_clone : bool }.                (* method.rs:1780-1787: whether [Clone] is derived besides [Debug] *)

Section Generate.
Variable types : type_id -> option type_info.

(** [self.type_space.get_type(type_id)?] (method.rs:1426, 1459, 1489, 1513). *)
Definition get_type (t : type_id) : outcome type_info :=
  match types t with
  | Some i => Ok i
  | None => Err (TypeError (lit "unexpected internal value"))
  end.

(** The patterns of method.rs:1430-1433. *)
Definition is_body_kind (k : param_kind) : bool := match k with KBody _ => true | _ => false end.

(** method.rs:1421-1448. *)
Definition field_type_of (p : op_param) : outcome field_type :=
  match p_typ p with
  | PType t =>
      do i <- get_type t;
      Ok (if is_body_kind (p_kind p) && ti_builder i then FtBuilder t
          else if is_required (p_kind p) then FtRequired else FtOptional)
  | PRawBody => Ok FtRequired
  end.

(** method.rs:1467 and 1475, the message of a field that is not set. *)
Definition not_initialized (p : op_param) : str := p_name p ++ lit " was not initialized".

(** method.rs:1457-1478. *)
Definition initial_of (p : op_param) : outcome initial :=
  match p_typ p with
  | PType t =>
      do i <- get_type t;
      Ok (if is_body_kind (p_kind p) && ti_builder i then InDefault
          else if is_required (p_kind p) then InErr (not_initialized p) else InNone)
  | PRawBody => Ok (InErr (not_initialized p))
  end.

(** method.rs:1487-1501. *)
Definition finalize_of (p : op_param) : outcome (option type_id) :=
  match p_typ p with
  | PType t => do i <- get_type t; Ok (if ti_builder i then Some t else None)
  | PRawBody => Ok None
  end.

(** method.rs:1522-1526, 1543-1547, 1603-1604 and 1617-1618, the message of a failed conversion. *)
Definition conversion_failed (ty : str) (p : op_param) : str :=
  lit "conversion to `" ++ ty ++ lit "` for " ++ p_name p ++ lit " failed".

(** method.rs:1506-1636. *)
Definition setter_of (p : op_param) : outcome setter :=
  match p_typ p with
  | PType t =>
      do i <- get_type t;
      match ti_builder i, is_optional (p_kind p) with
      | true, true => Panic (lit "internal error: entered unreachable code")
      | false, true => Ok (StOptional (conversion_failed (ti_name i) p))
      | false, false => Ok (StRequired (conversion_failed (ti_name i) p))
      | true, false =>
          if str_eqb (p_name p) (lit "body")
          then Ok (StBody t (conversion_failed (ti_name i) p ++ lit ": "))
          else Panic (lit "assertion `left == right` failed")
      end
  | PRawBody =>
      match p_kind p with
      | KBody OctetStream => Ok (StRaw (conversion_failed (lit "reqwest::Body") p))
      | KBody (Text _) => Ok (StRaw (conversion_failed (lit "String") p))
      | _ => Panic (lit "internal error: entered unreachable code")
      end
  end.

(** method.rs:1421-1502: one field per parameter. *)
Fixpoint fields_of (ps : list op_param) (tys : list field_type) (ins : list initial)
    (fins : list (option type_id)) (sets : list setter) : list builder_field :=
  match ps, tys, ins, fins, sets with
  | p :: ps, t :: tys, i :: ins, f :: fins, s :: sets =>
      BuilderField (p_name p) (p_typ p) t i f s :: fields_of ps tys ins fins sets
  | _, _, _, _, _ => []
  end.

(** method.rs:1683-1697, the query parameters other than [limit]. *)
Definition reset_fields (ps : list op_param) : list str :=
  flat_map (fun p => match p_kind p with
                     | KQuery _ => if str_eqb (p_api_name p) (lit "limit") then [] else [p_name p]
                     | _ => []
                     end) ps.

(** method.rs:1418 and 1443-1445, [cloneable]. *)
Definition cloneable (ps : list op_param) : bool :=
  forallb (fun p => match p_typ p with PRawBody => false | PType _ => true end) ps.

(** method.rs:1400-1861, [builder_struct], without documentation. *)
Definition builder_struct (h : hooks) (m : op_method) : outcome builder_code :=
  let ps := m_params m in
  do tys <- mapM field_type_of ps;
  do ins <- mapM initial_of ps;
  do fins <- mapM finalize_of ps;
  do sets <- mapM setter_of ps;
  do sb <- method_sig_body h m;
  do stream <-
    match m_paginated m with
    | None => Ok None
    | Some pg =>
        match types (pg_item pg) with
        | Some _ => Ok (Some (reset_fields ps))
        | None => Panic (lit "called `Result::unwrap()` on an `Err` value")
        end
    end;
  Ok (BuilderCode (unique_ident_from (lit "client") (map p_name ps)) (fields_of ps tys ins fins sets) sb stream
        (cloneable ps)).

(** The methods of the impl block (method.rs:1849-1858). *)
Definition setter_methods (f : builder_field) : list str :=
  match bf_setter f with
  | StBody _ _ => [lit "body"; lit "body_map"]
  | _ => [bf_name f]
  end.
(** method.rs:1848-1859. *)
Definition builder_methods (c : builder_code) : list str :=
  [lit "new"] ++ flat_map setter_methods (bc_fields c) ++ [lit "send"]
  ++ match bc_stream c with Some _ => [lit "stream"] | None => [] end.
(** method.rs:1843-1846. *)
Definition builder_struct_fields (c : builder_code) : list str :=
  bc_client c :: map bf_name (bc_fields c).
End Generate.

(** ** Running builder code *)

Section Builder.
(** Values of typify's builder types: [Default], [From<T>], and [TryFrom] for
    [T] with the text of its error. *)
Variable B : Type.
Variable b_default : type_id -> B.
Variable b_from : type_id -> value -> B.
Variable b_try_from : type_id -> B -> result value str.

(** The value of a field (the fields of the struct, method.rs:1843-1846). *)
Inductive field :=
| FReq (r : result value str)
| FOpt (r : result (option value) str)
| FBuilder (r : result B str).
(** The struct of method.rs:1843-1846. *)
Notation builder_state := (list (prod (list N) field)) (only parsing).

(** Typing of initial values; [None] does not compile (method.rs:1850-1853). *)
Definition initial_field (f : builder_field) : option field :=
  match bf_type f, bf_initial f with
  | FtRequired, InErr m => Some (FReq (RErr m))
  | FtOptional, InErr m => Some (FOpt (RErr m))
  | FtBuilder _, InErr m => Some (FBuilder (RErr m))
  | FtOptional, InNone => Some (FOpt (ROk None))
  | FtBuilder t, InDefault => Some (FBuilder (ROk (b_default t)))
  | _, _ => None
  end.

(** method.rs:1849-1854, [new]. *)
Fixpoint new_fields (fs : list builder_field) : option builder_state :=
  match fs with
  | [] => Some []
  | f :: r =>
      match initial_field f, new_fields r with
      | Some x, Some st => Some ((bf_name f, x) :: st)
      | _, _ => None
      end
  end.

(** A call on the builder: a setter with the outcome of [value.try_into()]
    (and the text of the error), or [body_map] (method.rs:1506-1632). *)
Inductive setter_call := CallSet (name : str) (conv : result value str) | CallBodyMap (f : B -> B).

(** What the setter assigns to its field (method.rs:1506-1632). *)
Definition set_value (ty : field_type) (s : setter) (conv : result value str) : option field :=
  match s, ty with
  | StOptional msg, FtOptional =>
      Some (FOpt (match conv with ROk v => ROk (Some v) | RErr _ => RErr msg end))
  | StRequired msg, FtRequired | StRaw msg, FtRequired =>
      Some (FReq (match conv with ROk v => ROk v | RErr _ => RErr msg end))
  | StBody t msg, FtBuilder _ =>
      Some (FBuilder (match conv with ROk v => ROk (b_from t v) | RErr s => RErr (msg ++ s) end))
  | _, _ => None
  end.

(** [self.name = value] (method.rs:1506-1632). *)
Fixpoint assign (name : str) (x : field) (st : builder_state) : builder_state :=
  match st with
  | [] => []
  | (n, y) :: r => if str_eqb n name then (n, x) :: r else (n, y) :: assign name x r
  end.

(** method.rs:1843-1846. *)
Fixpoint find_field (name : str) (fs : list builder_field) : option builder_field :=
  match fs with
  | [] => None
  | f :: r => if str_eqb (bf_name f) name then Some f else find_field name r
  end.

(** One call; [None] is a call that does not compile (method.rs:1506-1632). *)
Definition apply_call (fs : list builder_field) (st : builder_state) (c : setter_call) : option builder_state :=
  match c with
  | CallSet name conv =>
      match find_field name fs with
      | Some f =>
          match set_value (bf_type f) (bf_setter f) conv with
          | Some x => Some (assign name x st)
          | None => None
          end
      | None => None
      end
  | CallBodyMap g =>
      match find_field (lit "body") fs with
      | Some f =>
          match bf_setter f, assoc (lit "body") st with
          | StBody _ _, Some (FBuilder r) =>
              Some (assign (lit "body") (FBuilder (match r with ROk b => ROk (g b) | RErr e => RErr e end)) st)
          | _, _ => None
          end
      | None => None
      end
  end.

(** method.rs:1506-1632. *)
Fixpoint apply_calls (fs : list builder_field) (st : builder_state) (cs : list setter_call)
  : option builder_state :=
  match cs with
  | [] => Some st
  | c :: r =>
      match apply_call fs st c with
      | Some st' => apply_calls fs st' r
      | None => None
      end
  end.

(** [Client::op()] (method.rs:1863-1896: [builder::Op::new(self)]) followed by calls. *)
Definition build (fs : list builder_field) (cs : list setter_call) : option builder_state :=
  match new_fields fs with
  | Some st => apply_calls fs st cs
  | None => None
  end.

(** method.rs:1667-1671, the value of one parameter variable: [FINALIZE.map_err(Error::InvalidRequest)?]. *)
Definition finalize_field (fin : option type_id) (x : field) : option (result binding str) :=
  match fin, x with
  | _, FReq r => Some (match r with ROk v => ROk (BVal v) | RErr e => RErr e end)
  | None, FOpt r => Some (match r with ROk v => ROk (BOpt v) | RErr e => RErr e end)
  | Some t, FBuilder r =>
      Some (match r with
            | ROk b => match b_try_from t b with ROk v => ROk (BVal v) | RErr e => RErr e end
            | RErr e => RErr e
            end)
  | _, _ => None
  end.

(** method.rs:1655-1672: one [let] per parameter, in order. *)
Fixpoint finalize_all (fs : list builder_field) (st : builder_state) (env : locals_env)
  : option (result locals_env str) :=
  match fs with
  | [] => Some (ROk env)
  | f :: r =>
      match assoc (bf_name f) st with
      | None => None
      | Some x =>
          match finalize_field (bf_finalize f) x with
          | None => None
          | Some (RErr e) => Some (RErr e)
          | Some (ROk b) => finalize_all r st ((bf_name f, b) :: env)
          end
      end
  end.

Section Send.
Variable V : Type.
Variable ctx : context.
Variable from_slice : type_id -> list N -> result V jerr.
Variable W : Type.
Variable ops : world_ops W.

(** method.rs:1649-1677, [send]. *)
Definition send (c : builder_code) (st : builder_state) (w : W) : final V * list event * W :=
  match finalize_all (bc_fields c) st [] with
  | None => (DoesNotCompile, [], w)
  | Some (RErr e) => (Returned (RErr (InvalidRequest e)), [], w)
  | Some (ROk env) => run V ctx from_slice W ops (bc_send c) env w
  end.
End Send.
End Builder.
Arguments FReq {B}.
Arguments FOpt {B}.
Arguments FBuilder {B}.
Arguments CallSet {B}.
Arguments CallBodyMap {B}.

(** Model of the streams generated for paginated operations:
    progenitor-impl/src/method.rs:627-753 (positional) and 1679-1778
    (builder). *)
From Verif Require Import Base ClientModel MethodModel RunModel BuilderModel FutureModel.
Local Open Scope N_scope.

(** ** The positional style *)

(** Arguments of the calls (method.rs:649-680). *)
Inductive arg_expr :=
| ANone            (* None *)
| AState           (* state.as_deref() *)
| AVar (x : str).

(** method.rs:633-680: the parameters of the stream function, and the arguments of the
    first and of the following calls. *)
Definition stream_params (ps : list op_param) : list op_param :=
  filter (fun p => negb (str_eqb (p_name p) (lit "page_token"))) ps.
(** method.rs:649-657, the arguments of the first call. *)
Definition first_params (ps : list op_param) : list arg_expr :=
  map (fun p => if str_eqb (p_api_name p) (lit "page_token") then ANone else AVar (p_name p)) ps.
(** method.rs:667: the pattern of query parameters. *)
Definition is_query (k : param_kind) : bool := match k with KQuery _ => true | _ => false end.
(** method.rs:663-680, the arguments of the following calls. *)
Definition step_params (ps : list op_param) : list arg_expr :=
  map (fun p => if str_eqb (p_api_name p) (lit "page_token") then AState
                else if negb (str_eqb (p_api_name p) (lit "limit")) && is_query (p_kind p) then ANone
                else AVar (p_name p)) ps.

Section Streams.
Variable V : Type.
(** The fields [items] and [next_page] of a decoded page. *)
Variable page_items : V -> list V.
Variable page_next : V -> option value.
Variable ctx : context.
Variable from_slice : type_id -> list N -> result V jerr.
Variable W : Type.
Variable ops : world_ops W.
(** method.rs:706-749. *)
Notation E := (cerror (inner V)).

(** Awaiting a call and taking the page out of it ([into_inner], method.rs:707
    and 1731); a decoded success value is the only one with the fields of a page. *)
Definition page_of (r : final V * list event * W) : awaited V E W :=
  let '(f, _, w) := r in
  match f with
  | Returned (ROk rv) => match rv_inner rv with IVal v => ADone (ROk v) w | _ => APanic w end
  | Returned (RErr e) => ADone (RErr e) w
  | _ => APanic w
  end.

(** Evaluating the arguments of a call; [None] does not compile (method.rs:705, 729-731). *)
Definition eval_arg (env : locals_env) (state : option value) (a : arg_expr) : option binding :=
  match a with
  | ANone => Some (BOpt None)
  | AState => Some (BOpt state)
  | AVar x => assoc x env
  end.
(** method.rs:705, 729-731. *)
Fixpoint bind_args (env : locals_env) (state : option value) (ps : list op_param) (l : list arg_expr)
  : option locals_env :=
  match ps, l with
  | [], [] => Some []
  | p :: ps, a :: l =>
      match eval_arg env state a, bind_args env state ps l with
      | Some b, Some r => Some ((p_name p, b) :: r)
      | _, _ => None
      end
  | _, _ => None
  end.

(** [self.operation(args)]: the parameters of the method bound to the
    arguments (method.rs:559-625). *)
Definition call_method (sb : sig_body) (ps : list op_param) (env : locals_env) (state : option value)
    (l : list arg_expr) (w : W) : awaited V E W :=
  match bind_args env state ps l with
  | Some args => page_of (run V ctx from_slice W ops sb args w)
  | None => APanic w
  end.

(** method.rs:706-707, 710, 718: the variables [page], [first] and [state] of the closures hide parameters of
    these names.  None of them has the type of a parameter, so that using one as argument does not compile. *)
Definition hidden_names : list str := [lit "page"; lit "first"; lit "state"].
(** method.rs:706-731, the variables that the arguments of the following calls may use. *)
Definition visible (env : locals_env) : locals_env := filter (fun b => negb (mem (fst b) hidden_names)) env.

(** method.rs:716-745, the closure of [try_unfold]. *)
Definition positional_step (sb : sig_body) (ps : list op_param) (env : locals_env)
    (state : option value) (w : W) : awaited (option (list V * option value)) E W :=
  match state with
  | None => ADone (ROk None) w
  | Some _ =>
      map_ok (fun page => Some (page_items page, page_next page))
        (call_method sb ps (visible env) state (step_params ps) w)
  end.

(** The states of the streams: the first page, then the unfolded pages (method.rs:716-745). *)
Notation rest_state T := (prod (option T) (option (list V))) (only parsing).
(** method.rs:706-749. *)
Notation page_state T := (flat (prod (option (list V)) (rest_state T))) (only parsing).

(** method.rs:701-750: [first.chain(rest)] behind [try_flatten_stream]. *)
Definition pages {T} (first : W -> awaited (option (list V) * (option T * option (list V))) E W)
    (step : T -> W -> awaited (option (list V * T)) E W)
  : poller (flat (option (list V) * (option T * option (list V)))) (result V E) W :=
  try_flatten_stream first (chain iter_ok (try_flatten (try_unfold step) iter_ok)).

(** method.rs:690-752. *)
Definition positional_stream (sb : sig_body) (ps : list op_param) (env : locals_env)
  : poller (page_state (option value)) (result V E) W :=
  pages (fun w => map_ok (fun page => (Some (page_items page), (Some (page_next page), None)))
                    (call_method sb ps env None (first_params ps) w))
        (positional_step sb ps env).

(** ** The builder style *)

Section Builder.
Variable B : Type.
Variable b_try_from : type_id -> B -> result value str.
(** method.rs:1721-1774. *)
Notation builder_state := (list (prod (list N) (field B))) (only parsing).

(** [.send()] and the page in it (method.rs:1729-1731, 1752-1758). *)
Definition send_page (c : builder_code) (st : builder_state) (w : W) : awaited V E W :=
  page_of (send B b_try_from V ctx from_slice W ops c st w).

(** method.rs:1724-1727: [Self { a: Ok(None), .., ..self.clone() }]. *)
Definition reset (names : list str) (st : builder_state) : builder_state :=
  fold_left (fun st n => assign B n (FOpt (ROk None)) st) names st.

(** method.rs:1741-1770; [Self { page_token: Ok(next_page), ..next.clone() }]. *)
Definition builder_step (c : builder_code) (s : option value * builder_state) (w : W)
  : awaited (option (list V * (option value * builder_state))) E W :=
  let '(next_page, next) := s in
  match next_page with
  | None => ADone (ROk None) w
  | Some _ =>
      map_ok (fun page => Some (page_items page, (page_next page, next)))
        (send_page c (assign B (lit "page_token") (FOpt (ROk next_page)) next) w)
  end.

(** method.rs:1711-1777. *)
Definition builder_stream (c : builder_code) (resets : list str) (st : builder_state)
  : poller (page_state (prod (option value) builder_state)) (result V E) W :=
  let next := reset resets st in
  pages (fun w => map_ok (fun page => (Some (page_items page), (Some (page_next page, next), None)))
                    (send_page c st w))
        (builder_step c).
End Builder.
End Streams.

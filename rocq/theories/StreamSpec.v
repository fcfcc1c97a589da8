(** What consuming a paginated stream yields, given what the server answers. *)
From Verif Require Import Base ClientModel MethodModel RunModel FutureModel StreamModel RequestSpec.
Local Open Scope N_scope.

Section Spec.
Context {V W E : Type} (page_items : V -> list V) (page_next : V -> option value).

(** [request None] asks for the first page, [request (Some token)] for the
    page with that token. *)
Variable request : option value -> W -> awaited V E W.

(** [fetched t w ps t' w']: starting with the request [t], the pages [ps] were
    received one after the other, each asked for with the token of the one
    before; [t'] is the token of the last. *)
Inductive fetched : option value -> W -> list V -> option value -> W -> Prop :=
| fe_one t w p w' : request t w = ADone (ROk p) w' -> fetched t w [p] (page_next p) w'
| fe_more t w p w1 token ps t' w' : request t w = ADone (ROk p) w1 -> page_next p = Some token ->
    fetched (Some token) w1 ps t' w' -> fetched t w (p :: ps) t' w'.

(** The items of the pages, in order. *)
Definition items_of (ps : list V) : list V := List.concat (map page_items ps).

(** What the consumer sees of items. *)
Definition yields (l : list V) : list (option (result V E)) := map (fun a => Some (ROk a)) l.

(** [takes p s w k os w']: asking [k] times yields [os]; the world is then [w']. *)
Definition takes {S} (p : poller S (result V E) W) (s : S) (w : W) (k : nat)
    (os : list (option (result V E))) (w' : W) : Prop :=
  exists n s', forall fuel, (n <= fuel)%nat -> take p fuel k s w = Some (os, s', w').

(** The stream [p] from [s] behaves as the requests prescribe. *)
Record streams {S} (p : poller S (result V E) W) (s : S) : Prop := Streams {
  (** every item of every page once, in order, then the end *)
  st_complete : forall w ps w', fetched None w ps None w' -> forall k,
    takes p s w (length (items_of ps) + Datatypes.S k) (yields (items_of ps) ++ repeat None (Datatypes.S k)) w';
  (** nothing is requested before it is needed: [k] items take the pages up to
      the one that holds the [k]-th item *)
  st_lazy : forall w ps p0 t w', fetched None w (ps ++ [p0]) t w' -> forall k,
    (length (items_of ps) < k <= length (items_of (ps ++ [p0])))%nat ->
    takes p s w k (yields (firstn k (items_of (ps ++ [p0])))) w';
  (** a failing request ends the stream after the items before it *)
  st_first_fails : forall w e w', request None w = ADone (RErr e) w' -> forall k,
    takes p s w (Datatypes.S k) (Some (RErr e) :: repeat None k) w';
  st_fails : forall w ps token w1 e w', fetched None w ps (Some token) w1 ->
    request (Some token) w1 = ADone (RErr e) w' -> forall k,
    takes p s w (length (items_of ps) + Datatypes.S k) (yields (items_of ps) ++ Some (RErr e) :: repeat None k) w' }.
End Spec.

(** ** The requests of a paginated operation *)

(** The arguments for the page with the given token: the token, the caller's
    limit and other arguments, and no other query argument. *)
Definition page_arguments (token : value) (args : arguments) : arguments :=
  map (fun pv => (fst pv,
                  if str_eqb (p_api_name (fst pv)) (lit "page_token") then Some token
                  else match p_kind (fst pv) with
                       | KQuery _ => if str_eqb (p_api_name (fst pv)) (lit "limit") then snd pv else None
                       | _ => snd pv
                       end)) args.

(** One call of the method with these arguments. *)
Definition page_request {V W} (ctx : context) (fs : type_id -> list N -> result V jerr) (ops : world_ops W)
    (sb : sig_body) (args : arguments) (t : option value) (w : W) : awaited V (cerror (inner V)) W :=
  page_of V W (run V ctx fs W ops sb
                 (variables (match t with None => args | Some token => page_arguments token args end)) w).

(** The parameters of a paginated operation: [page_token] keeps its name, and
    it and every query parameter is optional. *)
Definition paginated_params (ps : list op_param) : Prop :=
  NoDup (map p_name ps) /\
  (exists p, In p ps /\ p_api_name p = lit "page_token" /\ p_kind p = KQuery false) /\
  (forall p, In p ps -> p_name p = lit "page_token" <-> p_api_name p = lit "page_token") /\
  (forall p r, In p ps -> p_kind p = KQuery r -> r = false).

(** The arguments of the stream function in the positional style. *)
Definition without_token (args : arguments) : arguments :=
  filter (fun pv => negb (str_eqb (p_api_name (fst pv)) (lit "page_token"))) args.

(** The parameters whose arguments every call has: the limit, and all but the query parameters. *)
Definition repeated (p : op_param) : Prop :=
  p_api_name p <> lit "page_token" /\ (p_api_name p = lit "limit" \/ forall r, p_kind p <> KQuery r).

(** A call of the positional stream function for the parameters [ps]: the
    arguments with an absent token. *)
Record positional_call (ps : list op_param) (args : arguments) : Prop := PositionalCall {
  pc_params : paginated_params ps;
  pc_args : map fst args = ps;
  pc_token : forall p o, In (p, o) args -> p_api_name p = lit "page_token" -> o = None;
  pc_names : forall p, In p ps -> repeated p -> ~ In (p_name p) [lit "page"; lit "first"; lit "state"] }.

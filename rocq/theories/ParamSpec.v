(** The parameters of a generated method and their order. *)
From Coq Require Export Permutation Sorted.
From Verif Require Import Base OasModel TemplateModel MethodModel OpModel RefSpec.
Local Open Scope N_scope.

(** ** Which documented parameters count *)

Definition param_name (p : parameter) : str := pd_name (parameter_data p).

(** [p] is the last parameter of its name in [l]. *)
Definition last_of_name (l : list parameter) (p : parameter) : Prop :=
  exists pre post, l = pre ++ p :: post /\ ~ In (param_name p) (map param_name post).

(** [p] counts: it is an operation parameter, or a path-item parameter whose
    name no operation parameter has. *)
Definition effective (path_item operation : list parameter) (p : parameter) : Prop :=
  last_of_name operation p \/
  (last_of_name path_item p /\ ~ In (param_name p) (map param_name operation)).

(** Two parameters are the same parameter in the sense of the specification:
    name and location agree. *)
Definition location (p : parameter) : N :=
  match p with ParQuery _ _ => 0 | ParHeader _ => 1 | ParPath _ _ => 2 | ParCookie _ => 3 end.
Definition same_param (p q : parameter) : Prop := param_name p = param_name q /\ location p = location q.

(** ** Order *)

(** Where a name first occurs. *)
Inductive occurs_at : list str -> str -> nat -> Prop :=
| oc_here x l : occurs_at (x :: l) x 0
| oc_later x y l n : x <> y -> occurs_at l y n -> occurs_at (x :: l) y (S n).

Definition rank (k : param_kind) : N :=
  match k with KPath => 0 | KQuery _ => 1 | KHeader _ => 2 | KBody _ => 3 end.

(** The required order: by kind; path parameters by first occurrence in the
    template; query and header parameters by API name. *)
Definition precedes (names : list str) (a b : op_param) : Prop :=
  rank (p_kind a) < rank (p_kind b) \/
  (rank (p_kind a) = rank (p_kind b) /\
   match p_kind a with
   | KPath => exists i j, occurs_at names (p_api_name a) i /\ occurs_at names (p_api_name b) j /\ (i < j)%nat
   | KBody _ => False
   | _ => str_cmp (p_api_name a) (p_api_name b) = Lt
   end).

Definition is_path (p : op_param) : bool := match p_kind p with KPath => true | _ => false end.

(** A parameter list as it reaches the sort: at most one body, at the end, and
    the other API names distinct. *)
Definition presented (l : list op_param) : Prop :=
  exists front body, l = front ++ body /\
    Forall (fun p => match p_kind p with KBody _ => False | _ => True end) front /\
    NoDup (map p_api_name front) /\
    (body = [] \/ exists b ct, body = [b] /\ p_kind b = KBody ct).

(** The method parameter [q] stands for the documented parameter [p]. *)
Definition stands_for (snake : str -> str) (p : parameter) (q : op_param) : Prop :=
  p_api_name q = param_name p /\ p_name q = snake (param_name p) /\
  p_description q = pd_description (parameter_data p) /\
  match p with
  | ParPath _ _ => p_kind q = KPath
  | ParQuery d _ => exists r, p_kind q = KQuery r /\ (r = true -> pd_required d = true)
  | ParHeader d => p_kind q = KHeader (pd_required d)
  | ParCookie _ => False
  end.

Definition is_body (p : op_param) : bool := match p_kind p with KBody _ => true | _ => false end.

(** [p] counts, with parameters identified by name and location. *)
Definition last_of_location (l : list parameter) (p : parameter) : Prop :=
  exists pre post, l = pre ++ p :: post /\ ~ Exists (same_param p) post.
Definition effective_by_location (path_item operation : list parameter) (p : parameter) : Prop :=
  last_of_location operation p \/
  (last_of_location path_item p /\ ~ Exists (same_param p) operation).

(** The same operation with its parameters listed differently. *)
Definition with_parameters (op : operation) (l : list (ref_or parameter)) : operation :=
  Operation (op_id op) (op_tags op) (op_summary op) (op_description op) l (op_request_body op)
    (op_default op) (op_responses op) (op_extensions op).

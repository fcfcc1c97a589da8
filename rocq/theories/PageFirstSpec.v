(** Parameters required on the first page. *)
From Verif Require Import Base OasModel.
Local Open Scope N_scope.

(** The value [v] under the key [k], the first with this key. *)
Definition first_under {A} (k : str) (l : list (str * A)) (v : A) : Prop :=
  exists pre post, l = pre ++ (k, v) :: post /\ ~ In k (map fst pre).

(** The extension lists the parameters [l]: under [required], or as the only element of an array. *)
Inductive requires_first : json -> list str -> Prop :=
| rq_object fs l : first_under (lit "required") fs (JArr (map JStr l)) -> requires_first (JObj fs) l
| rq_array l : requires_first (JArr [JArr (map JStr l)]) l.

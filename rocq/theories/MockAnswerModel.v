(** What a mock server answers. *)
From Verif Require Import Base Utf8 SerdeModel HeaderModel ClientModel MethodModel RunModel MockModel.
Local Open Scope N_scope.

(** What a [Then] has been told: [.status()], [.header()], [.json_body_obj()] or [.json_body()] (httpmock.rs:285-299, 311-346). *)
Record mock_answer := MockAnswer {
  an_status : N;
  an_headers : list (str * str);
  an_body : list N }.

(** Calling a method of the [Then] wrapper with a status, if it takes one, and a value, if it takes one (httpmock.rs:277-349).  [None]:
    the failed assertion of 333, a value that cannot be turned into JSON, or a call that does not compile. *)
Definition then_answer (t : then_method) (status : N) (v : option value) : option mock_answer :=
  match then_call (tm_status t) status with
  | None => None
  | Some code =>
      match tm_value t, v with
      | TvNone, None => Some (MockAnswer code [] [])
      | TvObj _, Some v | TvJson, Some v =>
          match v_json v with
          | Some j => Some (MockAnswer code [(lit "content-type", lit "application/json")] j)
          | None => None
          end
      | _, _ => None
      end
  end.

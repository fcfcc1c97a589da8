(** Clients: how they are made, and what their methods see of them. *)
From Verif Require Import Base HeaderModel ClientModel RunModel GenerateModel.
Local Open Scope N_scope.

(** The calls on [reqwest::ClientBuilder] that the code makes (lib.rs:446-451), durations in seconds. *)
Inductive client_option := ConnectTimeout (seconds : N) | Timeout (seconds : N).

(** [Client] (lib.rs:429-433); [inner] is there if the settings ask for it (374-378). *)
Record client_value (C I : Type) := ClientValue {
  cl_baseurl : str;
  cl_client : C;
  cl_inner : option I }.
Arguments cl_baseurl {C I}.
Arguments cl_client {C I}.
Arguments cl_inner {C I}.

Section Client.
(** reqwest's clients, [ClientBuilder::build] on the calls made before it, with the text of its error; the type of
    [inner]; whether the code is compiled for wasm32. *)
Context {C I : Type} (build : list client_option -> result C str) (wasm : bool).

(** lib.rs:465-475, [new_with_client]; the parameter [inner] is there if the field is (379-388). *)
Definition new_with_client (baseurl : str) (client : C) (inner : option I) : client_value C I := ClientValue _ _ baseurl client inner.

(** lib.rs:441-457, [new]; [unwrap] panics with the error of [build]. *)
Definition new_client (baseurl : str) (inner : option I) : outcome (client_value C I) :=
  let options := if wasm then [] else [ConnectTimeout 15; Timeout 15] in
  match build options with
  | ROk client => Ok (new_with_client baseurl client inner)
  | RErr e => Panic (lit "called `Result::unwrap()` on an `Err` value: " ++ e)
  end.

(** lib.rs:478-480. *)
Definition get_baseurl (c : client_value C I) : str := cl_baseurl c.
(** lib.rs:483-485. *)
Definition get_client (c : client_value C I) : C := cl_client c.
(** lib.rs:491-493. *)
Definition get_api_version (g : generated_code) (c : client_value C I) : str := ge_version g.
(** lib.rs:365-372. *)
Definition get_inner (c : client_value C I) : option I := cl_inner c.

(** What the code of a method reads: the field [baseurl] (template.rs:49), [api_version()] (method.rs:835); the rest of
    the context is what reqwest and the surroundings do. *)
Definition context_of (g : generated_code) (c : client_value C I) (parse_url : str -> result (str * option str * hmap) rerr)
    (query_error json_error : rerr) (key : list N) : context :=
  Context (cl_baseurl c) (get_api_version g c) parse_url query_error json_error key.
End Client.

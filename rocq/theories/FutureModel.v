(** The combinators of the futures crate (futures-util 0.3) used by generated
    streams.  A stream is a state with a function that produces the next item;
    waiting ([Poll::Pending]) is left out: a poll runs until it is ready. *)
From Verif Require Import Base.

(** The outcome of a poll: ready with the next item (or the end), a panic, or
    out of fuel (only [try_flatten] loops) (method.rs:706-749). *)
Inductive polled (S X W : Type) :=
| PReady (o : option X) (s : S) (w : W)
| PPanic (w : W)
| PFuel.
Arguments PReady {S X W}.
Arguments PPanic {S X W}.
Arguments PFuel {S X W}.

(** The outcome of a future: a result, or a panic (method.rs:706-749). *)
Inductive awaited (A E W : Type) :=
| ADone (r : result A E) (w : W)
| APanic (w : W).
Arguments ADone {A E W}.
Arguments APanic {A E W}.

(** method.rs:706-749. *)
Notation poller S X W := (nat -> S -> W -> polled S X W) (only parsing).

(** [stream::iter(items).map(Ok)] (method.rs:711, 735-737). *)
Definition iter_ok {A E W} : poller (list A) (result A E) W :=
  fun _ l w => match l with
               | [] => PReady None [] w
               | a :: r => PReady (Some (ROk a)) r w
               end.

(** futures-util stream/try_stream/try_unfold.rs: after the end or an error
    there is no state left (method.rs:716-744). *)
Definition try_unfold {T A E W} (f : T -> W -> awaited (option (A * T)) E W) : poller (option T) (result A E) W :=
  fun _ s w =>
    match s with
    | None => PReady None None w
    | Some x =>
        match f x w with
        | ADone (ROk (Some (a, x'))) w' => PReady (Some (ROk a)) (Some x') w'
        | ADone (ROk None) w' => PReady None None w'
        | ADone (RErr e) w' => PReady (Some (RErr e)) None w'
        | APanic w' => PPanic w'
        end
    end.

(** futures-util stream/try_stream/try_flatten.rs (method.rs:745). *)
Fixpoint try_flatten {S T A E W} (outer : poller S (result T E) W) (inner : poller T (result A E) W)
    (fuel : nat) (s : S * option T) (w : W) : polled (S * option T) (result A E) W :=
  match fuel with
  | O => PFuel
  | Datatypes.S n =>
      match snd s with
      | Some t =>
          match inner n t w with
          | PReady (Some (ROk a)) t' w' => PReady (Some (ROk a)) (fst s, Some t') w'
          | PReady (Some (RErr e)) t' w' => PReady (Some (RErr e)) (fst s, Some t') w'
          | PReady None _ w' => try_flatten outer inner n (fst s, None) w'
          | PPanic w' => PPanic w'
          | PFuel => PFuel
          end
      | None =>
          match outer n (fst s) w with
          | PReady (Some (ROk t)) s' w' => try_flatten outer inner n (s', Some t) w'
          | PReady (Some (RErr e)) s' w' => PReady (Some (RErr e)) (s', None) w'
          | PReady None s' w' => PReady None (s', None) w'
          | PPanic w' => PPanic w'
          | PFuel => PFuel
          end
      end
  end.

(** futures-util stream/stream/chain.rs (method.rs:747). *)
Definition chain {S1 S2 X W} (first : poller S1 X W) (second : poller S2 X W) : poller (option S1 * S2) X W :=
  fun fuel s w =>
    let continue w :=
      match second fuel (snd s) w with
      | PReady o s2 w' => PReady o (None, s2) w'
      | PPanic w' => PPanic w'
      | PFuel => PFuel
      end in
    match fst s with
    | Some s1 =>
        match first fuel s1 w with
        | PReady (Some x) s1' w' => PReady (Some x) (Some s1', snd s) w'
        | PReady None _ w' => continue w'
        | PPanic w' => PPanic w'
        | PFuel => PFuel
        end
    | None => continue w
    end.

(** futures-util future/try_future/try_flatten.rs, the [Stream] impl (method.rs:749). *)
Inductive flat (S : Type) := FlatFirst | FlatSecond (s : S) | FlatEmpty.
Arguments FlatFirst {S}.
Arguments FlatSecond {S}.
Arguments FlatEmpty {S}.
(** method.rs:749. *)
Definition try_flatten_stream {S A E W} (future : W -> awaited S E W) (p : poller S (result A E) W)
  : poller (flat S) (result A E) W :=
  fun fuel s w =>
    let second s w :=
      match p fuel s w with
      | PReady (Some x) s' w' => PReady (Some x) (FlatSecond s') w'
      | PReady None _ w' => PReady None FlatEmpty w'
      | PPanic w' => PPanic w'
      | PFuel => PFuel
      end in
    match s with
    | FlatFirst =>
        match future w with
        | ADone (ROk s') w' => second s' w'
        | ADone (RErr e) w' => PReady (Some (RErr e)) FlatEmpty w'
        | APanic w' => PPanic w'
        end
    | FlatSecond s' => second s' w
    | FlatEmpty => PReady None FlatEmpty w
    end.

(** [TryFutureExt::map_ok] (method.rs:706, 732). *)
Definition map_ok {A B E W} (f : A -> B) (x : awaited A E W) : awaited B E W :=
  match x with
  | ADone (ROk a) w => ADone (ROk (f a)) w
  | ADone (RErr e) w => ADone (RErr e) w
  | APanic w => APanic w
  end.

(** A consumer that asks for [k] items
    (a user of the streams of method.rs:706-749, such as cli.rs:304-321). *)
Fixpoint take {S X W} (p : poller S X W) (fuel k : nat) (s : S) (w : W) : option (list (option X) * S * W) :=
  match k with
  | O => Some ([], s, w)
  | Datatypes.S k =>
      match p fuel s w with
      | PReady o s' w' =>
          match take p fuel k s' w' with
          | Some (os, s'', w'') => Some (o :: os, s'', w'')
          | None => None
          end
      | _ => None
      end
  end.

(** Many tasks querying through one protocol object of either kind.
    Models IotProtocol.query (kasa/protocols/iotprotocol.py:76-83) and
    SmartProtocol.query (smartprotocol.py:132-135): the body of a query runs
    under the object's lock, and nothing else of the object runs a query.
    What the body does is left open here: [Retry_Model], [Smart_Model] and the
    transports' models describe it. *)
From Verif Require Import Base.

Section Protocol.
(** [S]: everything queries share (protocol, transport, device).
    [I]: what an await may give back: a value, an exception, a cancellation.
    [W]: what may happen meanwhile without any query doing it (the device,
    the clock, an unlocked close()). *)
Variables S I W R A : Type.
Variable world : W -> S -> S.

(** A coroutine: it has returned or raised, or it is suspended at an await; the
    next piece, up to the next await, depends on what the await gives and
    on the shared state at that time. *)
Inductive coroutine : Type :=
| Return (r : res A)
| Await (next : I -> S -> S * coroutine).

(** self._query(request, retry_count), from the moment the lock is granted:
    the piece up to the first await. *)
Variable query_body : R -> S -> S * coroutine.

Inductive place : Type :=
| Waiting                       (* at async with self._query_lock *)
| Inside (co : coroutine)
| Done (r : res A).

Record task := mkTask { request : R; at_ : place }.

(** [finished]: the queries that have left the lock, latest first (a history
    that nothing reads). *)
Record state := mkState {
  holder : option nat; shared : S; tasks : nat -> option task;
  finished : list (nat * res A) }.

Definition init (s : S) : state := mkState None s (fun _ => None) [].

Definition upd {B} (f : nat -> B) (k : nat) (v : B) : nat -> B :=
  fun i => if Nat.eqb i k then v else f i.

Definition goto (c : state) (t : nat) (r : R) (p : place) : nat -> option task :=
  upd (tasks c) t (Some (mkTask r p)).

(** The piece of [t] that has just run: suspended again, or out of the lock. *)
Definition settle (c : state) (t : nat) (r : R) (x : S * coroutine) : state :=
  match snd x with
  | Await _ => mkState (Some t) (fst x) (goto c t r (Inside (snd x))) (finished c)
  | Return v => mkState None (fst x) (goto c t r (Done v)) ((t, v) :: finished c)
  end.

Inductive event : Type :=
| EQuery (t : nat) (r : R)
| EAcquire (t : nat)
| EResume (t : nat) (i : I)
| ECancelWait (t : nat)         (* cancelled before the lock was granted *)
| EWorld (w : W).

Definition step (c : state) (e : event) : state :=
  match e with
  | EQuery t r =>
      match tasks c t with
      | Some _ => c
      | None => mkState (holder c) (shared c) (goto c t r Waiting) (finished c)
      end
  | EAcquire t =>
      match tasks c t with
      | Some k =>
          match at_ k, holder c with
          | Waiting, None => settle c t (request k) (query_body (request k) (shared c))
          | _, _ => c
          end
      | None => c
      end
  | EResume t i =>
      match tasks c t with
      | Some k =>
          match at_ k with
          | Inside (Await next) => settle c t (request k) (next i (shared c))
          | _ => c
          end
      | None => c
      end
  | ECancelWait t =>
      match tasks c t with
      | Some k =>
          match at_ k with
          | Waiting => mkState (holder c) (shared c)
                         (goto c t (request k) (Done (Err Cancelled))) (finished c)
          | _ => c
          end
      | None => c
      end
  | EWorld w => mkState (holder c) (world w (shared c)) (tasks c) (finished c)
  end.

Definition run (c : state) (es : list event) : state := fold_left step es c.
End Protocol.

Arguments Return {S I A}.
Arguments Await {S I A}.
Arguments Waiting {S I A}.
Arguments Inside {S I A}.
Arguments Done {S I A}.
Arguments mkTask {S I R A}.
Arguments request {S I R A}.
Arguments at_ {S I R A}.
Arguments mkState {S I R A}.
Arguments holder {S I R A}.
Arguments shared {S I R A}.
Arguments tasks {S I R A}.
Arguments finished {S I R A}.
Arguments EQuery {I W R}.
Arguments EAcquire {I W R}.
Arguments EResume {I W R}.
Arguments ECancelWait {I W R}.
Arguments EWorld {I W R}.

(** How a discovery ends: the coroutines Discover.discover (kasa/discover.py:429-511) and the waiting
    part of discover_single (543-584), _DiscoverProtocol.wait_for_discovery_to_complete (285-303), the
    tasks it waits for and connection_lost (409-412).  What a reply is worth is in Disc_Model; here
    only the verdict matters.  No proofs.

    Simplified: a done callback of asyncio runs at once when a task ends; resuming a coroutine is an
    event of its own, so that other things may happen before.  If connection_made raised there is no
    sending task, and the field [task] means nothing. *)
From Verif Require Import Base.
Open Scope list_scope.

(** What a datagram of a host not heard before leads to, discover.py:336-396. *)
Inductive verdict := VDevice (has_protocol : bool) | VUnsupported | VInvalid | VNothing.
(** discover_task, 319: running; asked to end by cancel(); ended *)
Inductive sender := TRuns | TCancelling | TEnded (r : res unit).
(** A callback task: running (whether or not asked to end), or ended *)
Inductive cbtask := CRuns | CEnded (r : res unit).
(** A future of asyncio.gather, 303: pending (and asked to end?), or set *)
Inductive gather := GPending (cancel_requested : bool) | GSet (r : res unit).
(** Where the call is: at the start event (discover.py:288-289), at the sending task (294), at the callbacks (303),
    closing devices (508-511; the position, the number of devices when the loop began, and the
    exception), or over. *)
Inductive place :=
| AtStart
| AtTask
| AtGather (n : nat) (g : gather)
| AtClose (i count : nat) (e : exn)
| Over (r : res unit).

Record state := mkState {
  at_ : place; task : sender; target_discovered : bool;
  devices : list bool;             (* discovered_devices in order: whether each has a protocol *)
  callback_tasks : list cbtask;
  is_open : bool;                  (* the UDP transport *)
  must_cancel : bool;              (* a cancellation to be thrown when the call is resumed *)
  closed : list nat }.             (* the devices whose protocol was closed, by position *)

(** Which function: discover, with the callbacks it was given, or discover_single, which passes on
    none and closes no devices. *)
Record kind := mkKind { single : bool; on_discovered : bool; on_unsupported : bool }.

(** connection_made has run before create_datagram_endpoint returns; [started]: it did not raise. *)
Definition init (started : bool) : state :=
  mkState (if started then AtTask else AtStart) TRuns false [] [] true false [].

Inductive event :=
| EReply (target : bool) (v : verdict)     (* a datagram of a host not heard before *)
| ESenderEnds (r : res unit)
| ECallbackEnds (i : nat) (r : res unit)
| ELost                                    (* the transport fails *)
| EStartTimeout
| ECancel                                  (* the task that awaits the call is cancelled *)
| EResume
| EClosed (r : res unit).                  (* the close() that is awaited has ended *)

Definition set_at (s : state) (p : place) : state :=
  mkState p (task s) (target_discovered s) (devices s) (callback_tasks s) (is_open s) (must_cancel s) (closed s).
(** finally: transport.close(), discover.py:512-513 and 583-584 *)
Definition over (s : state) (r : res unit) : state :=
  mkState (Over r) (task s) (target_discovered s) (devices s) (callback_tasks s) false false (closed s).
(** Task.cancel() *)
Definition cancel (t : sender) : sender := match t with TRuns => TCancelling | _ => t end.

(** The loop over discovered_devices.values(), discover.py:509-510, before the device at position [i]: a
    dictionary that has grown meanwhile raises RuntimeError. *)
Definition close_from (s : state) (i count : nat) (e : exn) : state :=
  if negb (Nat.eqb (length (devices s)) count) then over s (Err PyRuntime)
  else match nth_error (devices s) i with
       | None => over s (Err e)
       | Some true => set_at s (AtClose i count e)
       | Some false => over s (Err PyAttributeError)
       end.
(** except (KasaException, CancelledError), discover.py:508-511 *)
Definition fail (k : kind) (s : state) (e : exn) : state :=
  let s := mkState (at_ s) (task s) (target_discovered s) (devices s) (callback_tasks s) (is_open s) false (closed s) in
  if negb (single k) && (is_kasa e || negb (is_exception e)) then close_from s 0 (length (devices s)) e
  else over s (Err e).
(** asyncio.gather of the tasks: the first that has failed, in order, or all have ended *)
Definition ended (c : cbtask) : bool := match c with CEnded _ => true | CRuns => false end.
Definition failed (c : cbtask) : option exn := match c with CEnded (Err e) => Some e | _ => None end.
Fixpoint first_failure (l : list cbtask) : option exn :=
  match l with [] => None | c :: l => match failed c with Some e => Some e | None => first_failure l end end.
Definition gather_all (l : list cbtask) : gather :=
  match first_failure l with
  | Some e => GSet (Err e)
  | None => if forallb ended l then GSet (Ok tt) else GPending false
  end.
(** 303; gather of nothing is a future with a result already *)
Definition wait_callbacks (s : state) : state :=
  match callback_tasks s with
  | [] => over s (Ok tt)
  | l => set_at s (AtGather (length l) (gather_all l))
  end.
(** What the call does when it is resumed, discover.py:294-303. *)
Definition after_task (k : kind) (s : state) (r : res unit) : state :=
  match r with
  | Ok _ => wait_callbacks s
  | Err Cancelled => if target_discovered s then wait_callbacks s else fail k s Cancelled
  | Err e => fail k s e
  end.
Definition unmark (s : state) : state :=
  mkState (at_ s) (task s) (target_discovered s) (devices s) (callback_tasks s) (is_open s) false (closed s).
Definition resume (k : kind) (s : state) : state :=
  match at_ s with
  | AtStart => if must_cancel s then fail k s Cancelled else s
  | AtTask =>
      if must_cancel s then after_task k (unmark s) (Err Cancelled)
      else match task s with TEnded r => after_task k s r | _ => s end
  | AtGather _ g =>
      if must_cancel s then fail k s Cancelled
      else match g with
           | GSet (Ok _) => over s (Ok tt)
           | GSet (Err e) => fail k s e
           | GPending _ => s
           end
  | AtClose _ _ _ => if must_cancel s then over s (Err Cancelled) else s
  | Over _ => s
  end.
(** Task.cancel() of the task that runs the call: what it waits for is cancelled if it can be, else the
    cancellation is thrown when it is resumed. *)
Definition mark (s : state) : state :=
  mkState (at_ s) (task s) (target_discovered s) (devices s) (callback_tasks s) (is_open s) true (closed s).
Definition cancel_call (s : state) : state :=
  match at_ s with
  | AtStart | AtClose _ _ _ => mark s
  | AtTask =>
      match task s with
      | TEnded _ => mark s
      | t => mkState (at_ s) (cancel t) (target_discovered s) (devices s) (callback_tasks s) (is_open s) (must_cancel s) (closed s)
      end
  | AtGather n g =>
      match g with
      | GPending _ => set_at s (AtGather n (GPending true))
      | GSet _ => mark s
      end
  | Over _ => s
  end.
(** A reply, discover.py:345-396, with _handle_discovered_event, 398-403 *)
Definition reply (k : kind) (s : state) (target : bool) (v : verdict) : state :=
  let task_of (b : bool) := if b then [CRuns] else [] in
  let cbs := match v with
             | VDevice _ => task_of (on_discovered k)
             | VUnsupported => task_of (on_unsupported k)
             | _ => []
             end in
  let devs := match v with VDevice p => [p] | _ => [] end in
  let heard := match v with VNothing => false | _ => target end in
  mkState (at_ s) (if heard then cancel (task s) else task s) (target_discovered s || heard)
          (devices s ++ devs) (callback_tasks s ++ cbs) (is_open s) (must_cancel s) (closed s).
Fixpoint put {A} (i : nat) (a : A) (l : list A) : list A :=
  match l, i with
  | [], _ => []
  | _ :: l, O => a :: l
  | x :: l, S i => x :: put i a l
  end.
(** A callback task ends; _done_callback of asyncio.gather *)
Definition callback_ends (s : state) (i : nat) (r : res unit) : state :=
  match nth_error (callback_tasks s) i with
  | Some CRuns =>
      let cbs := put i (CEnded r) (callback_tasks s) in
      let s := mkState (at_ s) (task s) (target_discovered s) (devices s) cbs (is_open s) (must_cancel s) (closed s) in
      match at_ s with
      | AtGather n (GPending asked) =>
          if Nat.ltb i n then
            match r with
            | Err e => set_at s (AtGather n (GSet (Err e)))
            | Ok _ => if forallb ended (firstn n cbs)
                      then set_at s (AtGather n (GSet (if asked then Err Cancelled else Ok tt))) else s
            end
          else s
      | _ => s
      end
  | _ => s
  end.

Definition step (k : kind) (s : state) (e : event) : state :=
  match e with
  | EReply target v => if is_open s then reply k s target v else s
  | ESenderEnds r =>
      match task s with
      | TRuns =>
          match r with
          | Err Cancelled => s                     (* a task ends so only if it was cancelled *)
          | _ => mkState (at_ s) (TEnded r) (target_discovered s) (devices s) (callback_tasks s) (is_open s) (must_cancel s) (closed s)
          end
      | TCancelling =>
          mkState (at_ s) (TEnded (Err Cancelled)) (target_discovered s) (devices s) (callback_tasks s) (is_open s) (must_cancel s) (closed s)
      | TEnded _ => s
      end
  | ECallbackEnds i r => callback_ends s i r
  | ELost =>
      if is_open s then
        mkState (at_ s) (cancel (task s)) (target_discovered s) (devices s) (callback_tasks s) false (must_cancel s) (closed s)
      else s
  | EStartTimeout =>
      match at_ s with AtStart => if must_cancel s then s else fail k s PyTimeout | _ => s end
  | ECancel => cancel_call s
  | EResume => resume k s
  | EClosed r =>
      match at_ s with
      | AtClose i count e =>
          if must_cancel s then s
          else match r with
               | Err x => over s (Err x)
               | Ok _ =>
                   close_from (mkState (at_ s) (task s) (target_discovered s) (devices s) (callback_tasks s) (is_open s)
                                       (must_cancel s) (closed s ++ [i])) (S i) count e
               end
      | _ => s
      end
  end.
Definition run (k : kind) (s : state) (es : list event) : state := fold_left (step k) es s.

(** Many tasks querying one legacy device at the same time.
    Models IotProtocol.query/_query (kasa/protocols/iotprotocol.py:76-137) over
    XorTransport (kasa/transports/xortransport.py:59-182) at the granularity of
    asyncio: a task runs undisturbed from one [await] to the next, and between
    two awaits anything may happen to the shared transport. *)
From Verif Require Import Base Xor_Model.

Definition tid := nat.
Definition cid := nat.

(** One TCP connection.  [c_open]: not closed by us.  [c_asked]: requests
    written by us and not answered yet, each with the task that wrote it (the
    device never sees the tag).  [c_flight]: bytes the device has sent and
    which have not arrived.  [c_buf]: bytes in the StreamReader. *)
Record conn := mkConn {
  c_open : bool; c_asked : list (tid * bytes); c_flight : bytes; c_buf : bytes }.

Section WithJson.
(** json_loads (kasa/json.py) on the decoded text: an oracle, [None] if it raises. *)
Variable J : Type.
Variable json_loads : bytes -> option J.

(** The await at which a task is suspended. [retry] is the loop variable of
    iotprotocol.py:86. *)
Inductive pc : Type :=
| Waiting                                        (* async with self._query_lock, iotprotocol.py:82 *)
| Opening (retry : nat)                          (* open_connection, xortransport.py:67 *)
| Draining (retry : nat) (c : cid)               (* writer.drain(), xortransport.py:82 *)
| Header (retry : nat) (c : cid)                 (* readexactly(4), xortransport.py:84 *)
| Body (retry : nat) (c : cid) (n : N)           (* readexactly(length), xortransport.py:87 *)
| Closing (retry : nat) (e : exn)                (* writer.wait_closed(), xortransport.py:101; [e] raised next *)
| Resting (retry : nat)                          (* asyncio.sleep, iotprotocol.py:125 *)
| Finished (r : res J).

(** A call [query(request, retry_count)]; [request] after json_dumps and encode. *)
Record task := mkTask { request : bytes; retries : nat; at_ : pc }.

(** [holder]: the owner of _query_lock.  [conns]/[fresh]: the connections opened
    so far.  [writer]: XorTransport.writer/reader (always set together).
    [tasks]: the calls made so far.
    Two histories, only ever extended and never read by the code:
    [wrote], who wrote a request, newest first; [answered], what the device
    answered to which request of whom. *)
Record state := mkState {
  holder : option tid;
  conns : cid -> conn;
  fresh : cid;
  writer : option cid;
  tasks : tid -> option task;
  wrote : list tid;
  answered : list (tid * bytes * bytes) }.

Definition no_conn : conn := mkConn false [] [] [].

(** IotProtocol.__init__ and XorTransport.__init__, iotprotocol.py:65-74, xortransport.py:42-47 *)
Definition init : state :=
  mkState None (fun _ => no_conn) 0 None (fun _ => None) [] [].

Definition upd {A} (f : nat -> A) (k : nat) (v : A) : nat -> A :=
  fun i => if Nat.eqb i k then v else f i.

Definition set_conn (s : state) (c : cid) (v : conn) : state :=
  mkState (holder s) (upd (conns s) c v) (fresh s) (writer s) (tasks s) (wrote s) (answered s).

(** Suspending task [t], a call with [k]'s arguments, at [p]. *)
Definition goto (s : state) (t : tid) (k : task) (p : pc) : state :=
  mkState (holder s) (conns s) (fresh s) (writer s)
    (upd (tasks s) t (Some (mkTask (request k) (retries k) p))) (wrote s) (answered s).

(** Leaving [async with self._query_lock] with a result, iotprotocol.py:82-83 *)
Definition finish (s : state) (t : tid) (k : task) (r : res J) : state :=
  let s1 := goto s t k (Finished r) in
  mkState None (conns s1) (fresh s1) (writer s1) (tasks s1) (wrote s1) (answered s1).

(** close_without_wait, xortransport.py:103-108 *)
Definition close_without_wait (s : state) : state :=
  match writer s with
  | None => s
  | Some c =>
      let v := conns s c in
      mkState (holder s)
        (upd (conns s) c (mkConn false (c_asked v) (c_flight v) (c_buf v)))
        (fresh s) None (tasks s) (wrote s) (answered s)
  end.

(** [await self.reset()] in an except clause of send, and then [raise e],
    xortransport.py:133-155,170-178, when a connection is open. *)
Definition reset_and_raise (s : state) (t : tid) (k : task) (retry : nat) (e : exn) : state :=
  goto (close_without_wait s) t k (Closing retry e).

(** _execute_send up to the drain, xortransport.py:75-82 *)
Definition write (s : state) (t : tid) (k : task) (retry : nat) (c : cid) : state :=
  match encrypt (request k) with
  | Err _ => reset_and_raise s t k retry (exec_exn FException)
  | Ok _ =>
      let v := conns s c in
      let s1 := set_conn s c
        (mkConn (c_open v) (c_asked v ++ [(t, request k)]) (c_flight v) (c_buf v)) in
      let s2 := mkState (holder s1) (conns s1) (fresh s1) (writer s1) (tasks s1)
        (t :: wrote s1) (answered s1) in
      goto s2 t k (Draining retry c)
  end.

(** The beginning of an attempt: send and _connect, xortransport.py:59-64,130-131.
    With a connection at hand nothing is awaited before the write. *)
Definition attempt (s : state) (t : tid) (k : task) (retry : nat) : state :=
  match writer s with
  | Some c => write s t k retry c
  | None => goto s t k (Opening retry)
  end.

(** What IotProtocol._query does with an exception of send,
    iotprotocol.py:89-134.  transport.reset() finds nothing left to close there
    (send has closed the connection and the lock is held), so its await
    does not suspend. *)
Definition caught (s : state) (t : tid) (k : task) (retry : nat) (e : exn) : state :=
  match e with
  | KRetry _ =>
      if Nat.leb (retries k) retry then finish (close_without_wait s) t k (Err e)
      else attempt (close_without_wait s) t k (S retry)
  | KTimeout =>
      if Nat.leb (retries k) retry then finish (close_without_wait s) t k (Err e)
      else goto (close_without_wait s) t k (Resting retry)
  | KConn =>
      if Nat.leb (retries k) retry then finish s t k (Err e)
      else attempt s t k (S retry)
  | _ =>
      if is_kasa e then finish (close_without_wait s) t k (Err e)
      else finish s t k (Err e)
  end.

(** An except clause of send raising [e]: waiting for the connection to close
    if there is one, xortransport.py:95-101. *)
Definition raised (s : state) (t : tid) (k : task) (retry : nat) (e : exn) : state :=
  match writer s with
  | Some _ => reset_and_raise s t k retry e
  | None => caught s t k retry e
  end.

(** What can happen.  Events that are not possible in a state change nothing. *)
Inductive event : Type :=
| EQuery (t : tid) (req : bytes) (retry_count : nat)  (* somebody calls query() *)
| EAcquire (t : tid)                                  (* the lock is granted to [t] *)
| EOpened (t : tid) (bad : option fault)              (* connected; setsockopt may fail *)
| EDrained (t : tid)
| ERead (t : tid)                                     (* readexactly has its bytes *)
| EFault (t : tid) (f : fault)                        (* the await of [t] fails or [t] is cancelled *)
| EClosed (t : tid)                                   (* wait_closed is over, whether it raised or not *)
| ESlept (t : tid)
| EAnswer (c : cid) (rep : bytes)                     (* the device answers the oldest request of [c] *)
| EDeliver (c : cid) (n : nat)                        (* [n] more bytes arrive *)
| EDisconnect.                                        (* somebody calls close(): no lock is taken *)

(** Cancelling [t], which is inside send: xortransport.py:156-160,179-182. *)
Definition cancelled (s : state) (t : tid) (k : task) : state :=
  finish (close_without_wait s) t k (Err Cancelled).

Definition on_task (s : state) (t : tid) (f : task -> state) : state :=
  match tasks s t with Some k => f k | None => s end.

Definition step (s : state) (ev : event) : state :=
  match ev with
  | EQuery t req n =>                              (* iotprotocol.py:76-82 *)
      match tasks s t with
      | Some _ => s
      | None => goto s t (mkTask req n Waiting) Waiting
      end
  | EAcquire t =>                                  (* iotprotocol.py:82-87 *)
      on_task s t (fun k =>
        match at_ k, holder s with
        | Waiting, None =>
            attempt (mkState (Some t) (conns s) (fresh s) (writer s) (tasks s)
                       (wrote s) (answered s)) t k 0
        | _, _ => s
        end)
  | EOpened t bad =>                               (* xortransport.py:66-73 *)
      on_task s t (fun k =>
        match at_ k with
        | Opening retry =>
            let c := fresh s in
            let s1 := mkState (holder s) (upd (conns s) c (mkConn true [] [] []))
              (S c) (Some c) (tasks s) (wrote s) (answered s) in
            match bad with
            | None => write s1 t k retry c
            | Some FCancel => cancelled s1 t k
            | Some f => raised s1 t k retry (connect_exn f)
            end
        | _ => s
        end)
  | EDrained t =>                                  (* xortransport.py:82-84; self.reader may be None *)
      on_task s t (fun k =>
        match at_ k with
        | Draining retry _ =>
            match writer s with
            | None => raised s t k retry (exec_exn FException)
            | Some c => goto s t k (Header retry c)
            end
        | _ => s
        end)
  | ERead t =>
      on_task s t (fun k =>
        match at_ k with
        | Header retry c =>                        (* xortransport.py:84-87 *)
            match readexactly 4 (c_buf (conns s c)) with
            | None => s
            | Some (hdr, rest) =>
                let v := conns s c in
                let s1 := set_conn s c (mkConn (c_open v) (c_asked v) (c_flight v) rest) in
                match unpack_u32 hdr, writer s1 with
                | Ok n, Some c' => goto s1 t k (Body retry c' n)
                | _, _ => raised s1 t k retry (exec_exn FException)
                end
            end
        | Body retry c n =>                        (* xortransport.py:87-93 *)
            let v := conns s c in
            if (n <=? N.of_nat (length (c_buf v)))%N then
              match readexactly (N.to_nat n) (c_buf v) with
              | None => s
              | Some (buffer, rest) =>
                  let s1 := set_conn s c (mkConn (c_open v) (c_asked v) (c_flight v) rest) in
                  match json_loads (decrypt buffer) with
                  | Some j => finish s1 t k (Ok j)
                  | None => raised s1 t k retry (exec_exn FException)
                  end
              end
            else s
        | _ => s
        end)
  | EFault t f =>
      on_task s t (fun k =>
        match at_ k, f with
        | Waiting, FCancel => goto s t k (Finished (Err Cancelled))
        | Opening _, FCancel | Draining _ _, FCancel
        | Header _ _, FCancel | Body _ _ _, FCancel => cancelled s t k
        | Opening retry, _ => raised s t k retry (connect_exn f)
        | Draining retry _, _ | Header retry _, _ | Body retry _ _, _ =>
            raised s t k retry (exec_exn f)
        | Closing _ _, FCancel | Resting _, FCancel => finish s t k (Err Cancelled)
        | _, _ => s
        end)
  | EClosed t =>                                   (* xortransport.py:100-101 *)
      on_task s t (fun k =>
        match at_ k with
        | Closing retry e => caught s t k retry e
        | _ => s
        end)
  | ESlept t =>                                    (* iotprotocol.py:125-126 *)
      on_task s t (fun k =>
        match at_ k with
        | Resting retry => attempt s t k (S retry)
        | _ => s
        end)
  | EAnswer c rep =>
      let v := conns s c in
      match c_asked v with
      | [] => s
      | (t, req) :: rest =>
          let s1 := set_conn s c
            (mkConn (c_open v) rest (c_flight v ++ device_frame rep) (c_buf v)) in
          mkState (holder s1) (conns s1) (fresh s1) (writer s1) (tasks s1) (wrote s1)
            ((t, req, rep) :: answered s1)
      end
  | EDeliver c n =>
      let v := conns s c in
      set_conn s c (mkConn (c_open v) (c_asked v) (skipn n (c_flight v))
                      (c_buf v ++ firstn n (c_flight v)))
  | EDisconnect => close_without_wait s            (* iotprotocol.py:158-160, xortransport.py:95-101 *)
  end.

Definition run (s : state) (es : list event) : state := fold_left step es s.
End WithJson.

Arguments Waiting {J}.
Arguments Opening {J}.
Arguments Draining {J}.
Arguments Header {J}.
Arguments Body {J}.
Arguments Closing {J}.
Arguments Resting {J}.
Arguments Finished {J}.
Arguments mkTask {J}.
Arguments request {J}.
Arguments retries {J}.
Arguments at_ {J}.
Arguments mkState {J}.
Arguments holder {J}.
Arguments conns {J}.
Arguments fresh {J}.
Arguments writer {J}.
Arguments tasks {J}.
Arguments wrote {J}.
Arguments answered {J}.
Arguments init {J}.

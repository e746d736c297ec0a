(** The retry loops of the two protocols.
    Models kasa/protocols/iotprotocol.py:85-137 and smartprotocol.py:137-199. *)
From Verif Require Import Base.

(** What a query does to the outside, in order. *)
Inductive act : Type :=
| Exec       (* one _execute_query *)
| Reset      (* await self._transport.reset() *)
| Sleep.     (* await asyncio.sleep(BACKOFF_SECONDS_AFTER_TIMEOUT) *)

Section Loop.
(** [S] is everything an attempt depends on and changes: protocol, transport,
    device.  [exec] is one _execute_query, [treset] the transport's reset
    (assumed not to raise; both transports' resets suppress errors). *)
Context {S A : Type}.
Variable exec : S -> S * res A.
Variable treset : S -> S.

(** IotProtocol._query, iotprotocol.py:85-137.  [n] iterations of
    [for retry in range(retry_count + 1)] remain, [retry] is the current index.
    The handlers are tried in source order; an exception that is not a
    KasaException leaves the loop untouched.  Logging is not modelled. *)
Fixpoint iot_loop (n : nat) (retry retry_count : Z) (s : S) : S * list act * res A :=
  match n with
  | O => (s, [], Err KKasa)                                    (* 137 *)
  | Datatypes.S n' =>
      let (s1, r) := exec s in
      match r with
      | Ok a => (s1, [Exec], Ok a)
      | Err KConn =>                                           (* 89-93 *)
          if (retry >=? retry_count)%Z then (s1, [Exec], Err KConn)
          else let '(s2, tr, r2) := iot_loop n' (retry + 1) retry_count s1 in
               (s2, Exec :: tr, r2)
      | Err (KAuth c) => (treset s1, [Exec; Reset], Err (KAuth c))   (* 94-99 *)
      | Err (KRetry c) =>                                      (* 100-112 *)
          if (retry >=? retry_count)%Z then (treset s1, [Exec; Reset], Err (KRetry c))
          else let '(s2, tr, r2) := iot_loop n' (retry + 1) retry_count (treset s1) in
               (s2, Exec :: Reset :: tr, r2)
      | Err KTimeout =>                                        (* 113-126 *)
          if (retry >=? retry_count)%Z then (treset s1, [Exec; Reset], Err KTimeout)
          else let '(s2, tr, r2) := iot_loop n' (retry + 1) retry_count (treset s1) in
               (s2, Exec :: Reset :: Sleep :: tr, r2)
      | Err e =>
          if is_kasa e then (treset s1, [Exec; Reset], Err e)  (* 127-134 *)
          else (s1, [Exec], Err e)
      end
  end.

Definition iot_query (retry_count : Z) (s : S) : S * list act * res A :=
  iot_loop (Z.to_nat (retry_count + 1)) 0 retry_count s.

(** SmartProtocol._query, smartprotocol.py:137-199: the same shape, but a
    retryable error also sleeps before the next attempt (173). *)
Fixpoint smart_loop (n : nat) (retry retry_count : Z) (s : S) : S * list act * res A :=
  match n with
  | O => (s, [], Err KKasa)                                    (* 199 *)
  | Datatypes.S n' =>
      let (s1, r) := exec s in
      match r with
      | Ok a => (s1, [Exec], Ok a)
      | Err KConn =>                                           (* 143-154 *)
          if (retry >=? retry_count)%Z then (s1, [Exec], Err KConn)
          else let '(s2, tr, r2) := smart_loop n' (retry + 1) retry_count s1 in
               (s2, Exec :: tr, r2)
      | Err (KAuth c) => (treset s1, [Exec; Reset], Err (KAuth c))   (* 155-160 *)
      | Err (KRetry c) =>                                      (* 161-174 *)
          if (retry >=? retry_count)%Z then (treset s1, [Exec; Reset], Err (KRetry c))
          else let '(s2, tr, r2) := smart_loop n' (retry + 1) retry_count (treset s1) in
               (s2, Exec :: Reset :: Sleep :: tr, r2)
      | Err KTimeout =>                                        (* 175-188 *)
          if (retry >=? retry_count)%Z then (treset s1, [Exec; Reset], Err KTimeout)
          else let '(s2, tr, r2) := smart_loop n' (retry + 1) retry_count (treset s1) in
               (s2, Exec :: Reset :: Sleep :: tr, r2)
      | Err e =>
          if is_kasa e then (treset s1, [Exec; Reset], Err e)  (* 189-196 *)
          else (s1, [Exec], Err e)
      end
  end.

Definition smart_query (retry_count : Z) (s : S) : S * list act * res A :=
  smart_loop (Z.to_nat (retry_count + 1)) 0 retry_count s.
End Loop.

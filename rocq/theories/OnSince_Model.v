(** The reported switch-on time.  Models on_since of kasa/smart/smartdevice.py,
    iot/iotdevice.py and iot/iotstrip.py.  Instants and durations in microseconds.
    No proofs. *)
From Verif Require Import Base Py.
Open Scope Z_scope.

Definition SECOND : Z := 1000000.
(** What a reading sees: whether the device is on, its on-time counter in
    seconds (None: not reported), the device's clock. *)
Record reading := mkRd { is_on : bool; on_time : option Z; clock : Z }.

(** The cached value is replaced by a later one only, smartdevice.py:630-635,
    iotdevice.py:644-649, iotstrip.py:469-474: 0 < diff > 5 s *)
Definition keep (cached : option Z) (on_since : Z) : option Z :=
  match cached with
  | None => Some on_since
  | Some c => if (0 <? on_since - c) && (5 * SECOND <? on_since - c) then Some on_since else Some c
  end.

Inductive kind := KSmart | KIot | KSocket.
(** SmartDevice.on_since, smartdevice.py:615-635; IotDevice.on_since,
    iotdevice.py:630-649; IotStripPlug.on_since, iotstrip.py:456-474.  The new
    cached value and the result. *)
Definition on_since (k : kind) (cached : option Z) (r : reading) : option Z * res (option Z) :=
  match k with
  | KSmart | KIot =>
      match is_on r, on_time r with
      | true, Some t => let c := keep cached (clock r - t * SECOND) in (c, Ok c)
      | _, _ => (None, Ok None)
      end
  | KSocket =>
      if is_on r then
        match on_time r with
        | Some t => let c := keep cached (clock r - t * SECOND) in (c, Ok c)
        | None => (cached, Err PyKeyError)
        end
      else (None, Ok None)
  end.
Fixpoint readings (k : kind) (cached : option Z) (rs : list reading) : list (res (option Z)) :=
  match rs with
  | [] => []
  | r :: rs => let (c, v) := on_since k cached r in v :: readings k c rs
  end.

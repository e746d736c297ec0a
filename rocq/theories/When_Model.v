(** Times worked out from a device's clock: since when it has been on, and when it will switch itself
    off.  Models on_since of kasa/smart/smartdevice.py, iot/iotdevice.py and iot/iotstrip.py, and
    auto_off_at of kasa/smart/modules/autooff.py, on dates with a time zone.  No proofs. *)
From Verif Require Import Base Py Clock_Model.
Open Scope string_scope.
Open Scope list_scope.
Open Scope Z_scope.

(** dt + timedelta and dt - timedelta of the standard library, as used in smartdevice.py:630-630 and
    autooff.py:97-97: the fields are moved, the zone is kept and the fold is cleared; [d] in
    microseconds *)
Definition plus (dt : moment) (d : Z) : moment := mkMoment (wall dt + d) false (tzinfo dt).

Definition same_zone (a b : zone) : bool :=
  match a, b with
  | Region k, Region k' => String.eqb k k'
  | Offset o n, Offset o' n' => (o =? o') && match n, n' with
                                             | Some x, Some y => String.eqb x y
                                             | None, None => true
                                             | _, _ => false
                                             end
  | _, _ => false
  end.

Section When.
Variable off_wall : string -> Z -> bool -> Z.

(** a - b of the standard library, in microseconds, as used in smartdevice.py:631-633: within one zone
    the difference of the fields, else that of the instants.  Zones of the database are cached objects
    (cachedzoneinfo.py:14-27); that two fixed offsets may be equal and not the same object makes no
    difference.  The dates here all have a zone. *)
Definition minus (a b : moment) : Z :=
  match tzinfo a, tzinfo b with
  | Some x, Some y =>
      if same_zone x y then wall a - wall b else timestamp off_wall x a - timestamp off_wall y b
  | _, _ => wall a - wall b
  end.

(** smartdevice.py:631-635, iotdevice.py:644-649, iotstrip.py:470-474 *)
Definition keep (cached : option moment) (dt : moment) : moment :=
  match cached with
  | None => dt
  | Some c => if (0 <? minus dt c) && (5 * million <? minus dt c) then dt else c
  end.

(** A number of seconds; fractions are left out *)
Definition seconds (v : json) : res Z :=
  match as_int v with Some n => Ok (million * n) | None => Err PyTypeError end.

(** SmartDevice.on_since, smartdevice.py:615-635: the value kept and the result; [info] is the device
    info, [time] what the device's time gives *)
Definition smart_on_since (cached : option moment) (info : dict json) (time : res moment)
  : option moment * res (option moment) :=
  let on := match dget "device_on" info with Some v => truthy v | None => false end in
  match (if on then dget "on_time" info else None) with
  | None | Some JNull => (None, Ok None)
  | Some v =>
      match (let! t := time in let! n := seconds v in Ok (plus t (- n))) with
      | Ok dt => let c := keep cached dt in (Some c, Ok (Some c))
      | Err e => (cached, Err e)
      end
  end.

(** IotDevice.on_since, iotdevice.py:630-649; [on]: what is_on gives *)
Definition iot_on_since (on : bool) (cached : option moment) (info : dict json) (time : res moment)
  : option moment * res (option moment) :=
  match (if on then dget "on_time" info else None) with
  | None => (None, Ok None)
  | Some v =>
      match (let! t := time in let! n := seconds v in Ok (plus t (- n))) with
      | Ok dt => let c := keep cached dt in (Some c, Ok (Some c))
      | Err e => (cached, Err e)
      end
  end.

(** IotStripPlug.on_since, iotstrip.py:456-474: with the socket's own entry and the strip's time *)
Definition socket_on_since (on : bool) (cached : option moment) (info : dict json) (time : res moment)
  : option moment * res (option moment) :=
  if on then
    match (let! v := dindex "on_time" info in let! t := time in let! n := seconds v in Ok (plus t (- n))) with
    | Ok dt => let c := keep cached dt in (Some c, Ok (Some c))
    | Err e => (cached, Err e)
    end
  else (None, Ok None).

(** A reading: the device's entry, whether it is on, and its time *)
Record reading := mkReading { r_info : dict json; r_on : bool; r_time : res moment }.
Inductive kind := Smart | Iot | Socket.
Definition on_since (k : kind) (cached : option moment) (r : reading) : option moment * res (option moment) :=
  match k with
  | Smart => smart_on_since cached (r_info r) (r_time r)
  | Iot => iot_on_since (r_on r) cached (r_info r) (r_time r)
  | Socket => socket_on_since (r_on r) cached (r_info r) (r_time r)
  end.
Fixpoint readings (k : kind) (cached : option moment) (rs : list reading) : list (res (option moment)) :=
  match rs with
  | [] => []
  | r :: rs => let (c, v) := on_since k cached r in v :: readings k c rs
  end.

(** AutoOff.auto_off_at, autooff.py:84-97 *)
Definition auto_off_at (info : dict json) (time : res moment) : res (option moment) :=
  let! s := dindex "auto_off_status" info in
  if match s with JStr x => String.eqb x "on" | _ => false end then
    let! t := time in
    let! v := dindex "auto_off_remain_time" info in
    let! n := seconds v in
    Ok (Some (plus t n))
  else Ok None.
End When.

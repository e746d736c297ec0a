(** Clocks of SMART devices and cameras: kasa/smart/modules/time.py, kasa/smartcam/modules/time.py,
    and the time of a device, kasa/smart/smartdevice.py.  No proofs. *)
From Coq Require Import Ascii.
From Verif Require Import Base Py Gadget_Model.
Open Scope string_scope.
Open Scope list_scope.
Open Scope Z_scope.

(** A tzinfo object: a ZoneInfo with its key, or another one with a fixed offset in seconds and
    what its tzname() gives *)
Inductive zone := Region (key : string) | Offset (secs : Z) (name : option string).
(** A datetime: its fields, counted in microseconds from 1970-01-01 00:00 on the same clock, its
    fold attribute and its tzinfo.  Ranges of years are left out. *)
Record moment := mkMoment { wall : Z; fold : bool; tzinfo : option zone }.
Definition million : Z := 1000000.

(** f"{n:02d}" for 0 <= n < 100 *)
Definition digit_char (n : Z) : ascii := ascii_of_nat (Z.to_nat (48 + n)).
Definition pad2 (n : Z) : string := String (digit_char (n / 10)) (String (digit_char (n mod 10)) "").
(** timezone(td).tzname(None), datetime.py of the standard library: UTC, or the offset *)
Definition utc_name (secs : Z) : string :=
  if secs =? 0 then "UTC"
  else
    let a := Z.abs secs in
    let sign := if secs <? 0 then "-" else "+" in
    let seconds := if a mod 60 =? 0 then "" else String ":" (pad2 (a mod 60)) in
    let hours := pad2 (a / 3600) in
    let minutes := pad2 (a / 60 mod 60) in
    ("UTC" ++ sign ++ hours ++ ":" ++ minutes ++ seconds)%string.
(** timezone(td, name), timezone(td): the offset must be less than a day *)
Definition fixed_zone (secs : Z) (name : option string) : res zone :=
  if (-86400 <? secs) && (secs <? 86400)
  then Ok (Offset secs (Some (match name with Some n => n | None => utc_name secs end)))
  else Err PyValueError.

Section Clock.
(** The time zone database.  [known key]: there is a zone of that name, else the lookup raises
    ZoneInfoNotFoundError (names that lead outside the database, for which it raises ValueError,
    are left out); [off_at], [fold_at]: its
    offset in seconds, and whether the wall clock shows the time for the second time, at an
    instant; [off_wall]: the offset utcoffset() gives for a wall clock and fold. *)
Variable known : string -> bool.
Variable off_at : string -> Z -> Z.
Variable fold_at : string -> Z -> bool.
Variable off_wall : string -> Z -> bool -> Z.

(** datetime.fromtimestamp(us / 1e6, tz) *)
Definition from_timestamp (us : Z) (z : zone) : moment :=
  match z with
  | Region k => mkMoment (us + million * off_at k us) (fold_at k us) (Some z)
  | Offset o _ => mkMoment (us + million * o) false (Some z)
  end.
(** z.utcoffset(dt) *)
Definition utcoffset (z : zone) (dt : moment) : Z :=
  match z with Region k => off_wall k (wall dt) (fold dt) | Offset o _ => o end.
(** dt.replace(tzinfo=z).timestamp(), in microseconds *)
Definition timestamp (z : zone) (dt : moment) : Z := wall dt - million * utcoffset z dt.

(** ** SMART devices; the data is the reply to get_device_time *)
(** d.get(k), for a number; None and texts have none.  Fractions are left out. *)
Definition number (k : string) (d : dict json) : res Z :=
  match dget k d with
  | Some v => match as_int v with Some z => Ok z | None => Err PyTypeError end
  | None => Err PyTypeError
  end.
(** Time._post_update_hook, smart/modules/time.py:37-50: the zone kept, with
    CachedZoneInfo.get_cached_zone_info, cachedzoneinfo.py:14-27.  A region that is no text is a
    TypeError. *)
Definition smart_zone (d : dict json) : res zone :=
  let! diff := number "time_diff" d in
  match dget "region" d with
  | Some v =>
      if truthy v then
        match v with
        | JStr region => if known region then Ok (Region region) else fixed_zone (60 * diff) (Some region)
        | _ => Err PyTypeError
        end
      else fixed_zone (60 * diff) None
  | None => fixed_zone (60 * diff) None
  end.
(** Time.time, smart/modules/time.py:57-63 *)
Definition smart_time (z : zone) (d : dict json) : res moment :=
  let! t := number "timestamp" d in Ok (from_timestamp (million * t) z).
Variable reply : cmd -> res json.
(** region = tz.key if isinstance(tz, ZoneInfo) else dt.tzname(); if region: ..., smart/modules/
    time.py:79-83 *)
Definition region_of (z : option zone) : option string :=
  match z with
  | Some (Region k) => Some k
  | Some (Offset _ n) => n
  | None => None
  end.
(** Time.set_time, smart/modules/time.py:65-84; [z] is the zone kept *)
Definition smart_set_time (z : zone) (dt : moment) : M (list cmd) json :=
  let tz := match tzinfo dt with None => z | Some t => t end in
  let params := [("timestamp", JInt (Z.quot (timestamp tz dt) million));
                 ("time_diff", JInt (Z.quot (utcoffset tz dt) 60))] in
  let params := match region_of (tzinfo dt) with
                | Some r => if String.eqb r "" then params else dset "region" (JStr r) params
                | None => params
                end in
  send reply (mkCmd "set_device_time" params).

(** ** Cameras *)
(** datetime.strptime(s, "%z").tzinfo, for a text of at most six characters: Z, +HHMM or +HH:MM,
    with either sign *)
Definition digit_val (c : ascii) : option Z :=
  let n := Z.of_nat (nat_of_ascii c) in if (48 <=? n) && (n <=? 57) then Some (n - 48) else None.
Definition offset_parts (sg h1 h2 m1 m2 : ascii) : res zone :=
  match digit_val h1, digit_val h2, digit_val m1, digit_val m2 with
  | Some a, Some b, Some c, Some d =>
      if c <=? 5 then
        let secs := 60 * (60 * (10 * a + b) + (10 * c + d)) in
        if Ascii.eqb sg "+" then fixed_zone secs None
        else if Ascii.eqb sg "-" then fixed_zone (- secs) None
        else Err PyValueError
      else Err PyValueError
  | _, _, _, _ => Err PyValueError
  end.
Definition parse_offset (s : string) : res zone :=
  match s with
  | String c "" => if Ascii.eqb c "Z" then fixed_zone 0 None else Err PyValueError
  | String sg (String h1 (String h2 (String m1 (String m2 "")))) => offset_parts sg h1 h2 m1 m2
  | String sg (String h1 (String h2 (String c (String m1 (String m2 ""))))) =>
      if Ascii.eqb c ":" then offset_parts sg h1 h2 m1 m2 else Err PyValueError
  | _ => Err PyValueError
  end.
(** s[-6:] *)
Definition last6 (s : string) : string := sdrop (String.length s - 6) s.
(** The texts of a camera's basic settings: zone_id, and timezone *)
Definition text (k : string) (d : dict json) : res string :=
  let! v := dindex k d in match v with JStr s => Ok s | _ => Err PyTypeError end.
(** Time._post_update_hook, smartcam/modules/time.py:47-65: the zone and time kept.  [clock] is
    data["getClockStatus"]["system"]["clock_status"], [basic] data["getTimezone"]["system"]
    ["basic"]. *)
Definition cam_hook (clock basic : dict json) : res (zone * moment) :=
  let! id := text "zone_id" basic in
  let! v := dindex "seconds_from_1970" clock in
  let! z := (if known id then Ok (Region id)
             else let! s := text "timezone" basic in parse_offset (last6 s)) in
  match as_int v with
  | Some t => Ok (z, from_timestamp (million * t) z)
  | None => Err PyTypeError
  end.
(** The zone of the computer running the program, as its offset at an instant, and
    dt.isoformat().replace("T", " ") of a wall clock *)
Variable host : Z -> Z.
Variable iso : Z -> string.
(** Time.set_time, smartcam/modules/time.py:77-92; datetime.fromtimestamp(timestamp) without a
    zone gives the computer's own wall clock *)
Definition cam_set_time (z : zone) (dt : moment) : M (list cmd) json :=
  let tz := match tzinfo dt with None => z | Some t => t end in
  let ts := timestamp tz dt in
  let lt := iso (ts + million * host ts) in
  let params := [("seconds_from_1970", JInt (Z.quot ts million)); ("local_time", JStr lt)] in
  do! r <- send reply (mkCmd "setTimezone" [("system", JObj [("clock_status", JObj params)])]) ;;
  match tzinfo dt with
  | Some (Region k) =>
      send reply (mkCmd "setTimezone" [("system", JObj [("basic", JObj [("zone_id", JStr k)])])])
  | _ => mret r
  end.

(** ** The time of a device *)
(** SmartDevice.time, smartdevice.py:604-613; [own], [parents]: what the time of the Time module
    of the device, and of its parent, gives, if there is such a module.  [now]: the computer's
    current time in its own zone, in microseconds. *)
Definition device_time (own parents : option (res moment)) (now : moment) : res moment :=
  match own with
  | Some t => t
  | None =>
      match parents with
      | Some t => t
      | None => Ok (mkMoment (wall now - wall now mod million) (fold now) (tzinfo now))
      end
  end.
End Clock.

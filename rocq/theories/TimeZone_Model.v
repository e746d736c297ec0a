(** Legacy devices' time zones and setting their clock: kasa/iot/iottimezone.py and
    kasa/iot/modules/time.py.  No proofs. *)
From Verif Require Import Base Py Gadget_Model.
Open Scope string_scope.
Open Scope list_scope.
Open Scope Z_scope.

(** TIMEZONE_INDEX, iottimezone.py:74-185; its keys are 0 to 109, in order, and are left out *)
Definition zones : list string :=
  ["Etc/GMT+12"; "Pacific/Samoa"; "US/Hawaii"; "US/Alaska"; "Mexico/BajaNorte"; "Etc/GMT+8"; "PST8PDT";
   "US/Arizona"; "America/Mazatlan"; "MST"; "MST7MDT"; "Mexico/General"; "Etc/GMT+6"; "CST6CDT";
   "America/Monterrey"; "Canada/Saskatchewan"; "America/Bogota"; "Etc/GMT+5"; "EST";
   "America/Indiana/Indianapolis"; "America/Caracas"; "America/Asuncion"; "Etc/GMT+4"; "Canada/Atlantic";
   "America/Cuiaba"; "Brazil/West"; "America/Santiago"; "Canada/Newfoundland"; "America/Sao_Paulo";
   "America/Argentina/Buenos_Aires"; "America/Cayenne"; "America/Miquelon"; "America/Montevideo";
   "Chile/Continental"; "Etc/GMT+2"; "Atlantic/Azores"; "Atlantic/Cape_Verde"; "Africa/Casablanca"; "UCT";
   "GB"; "Africa/Monrovia"; "Europe/Amsterdam"; "Europe/Belgrade"; "Europe/Brussels"; "Europe/Sarajevo";
   "Africa/Lagos"; "Africa/Windhoek"; "Asia/Amman"; "Europe/Athens"; "Asia/Beirut"; "Africa/Cairo";
   "Asia/Damascus"; "EET"; "Africa/Harare"; "Europe/Helsinki"; "Asia/Istanbul"; "Asia/Jerusalem";
   "Europe/Kaliningrad"; "Africa/Tripoli"; "Asia/Baghdad"; "Asia/Kuwait"; "Europe/Minsk"; "Europe/Moscow";
   "Africa/Nairobi"; "Asia/Tehran"; "Asia/Muscat"; "Asia/Baku"; "Europe/Samara"; "Indian/Mauritius";
   "Asia/Tbilisi"; "Asia/Yerevan"; "Asia/Kabul"; "Asia/Ashgabat"; "Asia/Yekaterinburg"; "Asia/Karachi";
   "Asia/Kolkata"; "Asia/Colombo"; "Asia/Kathmandu"; "Asia/Almaty"; "Asia/Dhaka"; "Asia/Novosibirsk";
   "Asia/Rangoon"; "Asia/Bangkok"; "Asia/Krasnoyarsk"; "Asia/Chongqing"; "Asia/Irkutsk"; "Asia/Singapore";
   "Australia/Perth"; "Asia/Taipei"; "Asia/Ulaanbaatar"; "Asia/Tokyo"; "Asia/Seoul"; "Asia/Yakutsk";
   "Australia/Adelaide"; "Australia/Darwin"; "Australia/Brisbane"; "Australia/Canberra"; "Pacific/Guam";
   "Australia/Hobart"; "Antarctica/DumontDUrville"; "Asia/Magadan"; "Asia/Srednekolymsk"; "Etc/GMT-11";
   "Asia/Anadyr"; "Pacific/Auckland"; "Etc/GMT-12"; "Pacific/Fiji"; "Etc/GMT-13"; "Pacific/Apia";
   "Etc/GMT-14"].

(** A tzinfo object: a ZoneInfo with its key, or an object of another class, told apart by a
    number *)
Inductive tz := Zone (key : string) | Fixed (n : Z).
(** TIMEZONE_INDEX[i] *)
Definition zone_at (i : Z) : res string :=
  if i <? 0 then Err PyKeyError else match nth_error zones (Z.to_nat i) with Some n => Ok n | None => Err PyKeyError end.
(** get_timezone, iottimezone.py:15-24.  CachedZoneInfo.get_cached_zone_info, cachedzoneinfo.py:
    14-23, gives a ZoneInfo with the key asked for; the time zone database is taken to have all
    names of the table. *)
Definition get_timezone (index : Z) : res tz :=
  if 109 <? index then Ok (Zone "Etc/UTC") else let! n := zone_at index in Ok (Zone n).
(** rev[name], for rev = {val: key for key, val in TIMEZONE_INDEX.items()}: the last key with
    that value *)
Fixpoint rev_index (name : string) (i : Z) (l : list string) : option Z :=
  match l with
  | [] => None
  | x :: l' =>
      match rev_index name (i + 1) l' with
      | Some j => Some j
      | None => if String.eqb name x then Some i else None
      end
  end.
Section Clock.
(** tzone.utcoffset(day), at noon of the given day of the current year, counted from 0; None
    for an object that gives none.  The year is taken not to change during a call. *)
Variable offset : tz -> nat -> option Z.
Definition same_offset (a b : option Z) : bool :=
  match a, b with Some x, Some y => x =? y | None, None => true | _, _ => false end.
(** _is_same_timezone, iottimezone.py:59-71 *)
Definition is_same_timezone (a b : tz) : bool :=
  forallb (fun day => same_offset (offset a day) (offset b day)) (seq 0 365).
(** for i in range(110), iottimezone.py:35-37, from [i] with [n] rounds to go *)
Fixpoint scan (t : tz) (i : Z) (n : nat) : res (option Z) :=
  match n with
  | O => Ok None
  | S n' => let! z := get_timezone i in if is_same_timezone t z then Ok (Some i) else scan t (i + 1) n'
  end.
(** get_timezone_index, iottimezone.py:27-38.  The final raise uses [name], which is unbound
    for a tzinfo that is no ZoneInfo. *)
Definition get_timezone_index (t : tz) : res Z :=
  match match t with Zone n => rev_index n 0 zones | Fixed _ => None end with
  | Some i => Ok i
  | None =>
      let! r := scan t 0 110 in
      match r with Some i => Ok i | None => Err (match t with Zone _ => PyValueError | Fixed _ => PyUnboundLocal end) end
  end.
(** get_matching_timezones, iottimezone.py:41-56 *)
Fixpoint match_scan (t : tz) (i : Z) (n : nat) (matches : list string) : res (list string) :=
  match n with
  | O => Ok matches
  | S n' =>
      let! z := get_timezone i in
      let key := match z with Zone k => k | Fixed _ => "" end in
      match_scan t (i + 1) n' (if is_same_timezone t z then if smem key matches then matches else matches ++ [key] else matches)
  end.
Definition get_matching_timezones (t : tz) : res (list string) :=
  match_scan t 0 110 (match t with Zone n => if smem n zones then [n] else [] | Fixed _ => [] end).

(** A datetime: its fields and time zone *)
Record datetime := mkTime { d_year : Z; d_month : Z; d_day : Z; d_hour : Z; d_min : Z; d_sec : Z; d_zone : option tz }.
(** Time._post_update_hook, modules/time.py:26-29; [reply] is data.get("get_timezone") with its
    index, [old] the zone known so far *)
Definition time_hook (reply : option (option Z)) (old : tz) : tz * res unit :=
  match reply with
  | None => (old, Ok tt)
  | Some None => (old, Err PyTypeError)
  | Some (Some i) => match get_timezone i with Ok z => (z, Ok tt) | Err e => (old, Err e) end
  end.
(** Time.time, modules/time.py:31-44; [zone] is the known zone.  The datetime constructor's range
    checks are left out. *)
Definition time_of (zone : tz) (r : dict Z) : res datetime :=
  let! y := dindex "year" r in
  let! mo := dindex "month" r in
  let! d := dindex "mday" r in
  let! h := dindex "hour" r in
  let! mi := dindex "min" r in
  let! s := dindex "sec" r in
  Ok (mkTime y mo d h mi s (Some zone)).
Variable reply : cmd -> res json.
(** except Exception as ex: raise KasaException(ex) *)
Definition wrapped {A} (m : M (list cmd) A) : M (list cmd) A :=
  fun log => match m log with
             | (log', Err e) => (log', Err (if is_exception e then KKasa else e))
             | r => r
             end.
(** Time.set_time, modules/time.py:66-89; [current] is
    self.data.get("get_timezone", {}).get("index", -1) *)
Definition set_time (current : Z) (dt : datetime) : M (list cmd) json :=
  let params := [("year", JInt (d_year dt)); ("month", JInt (d_month dt)); ("mday", JInt (d_day dt));
                 ("hour", JInt (d_hour dt)); ("min", JInt (d_min dt)); ("sec", JInt (d_sec dt))] in
  match d_zone dt with
  | Some t =>
      do! index <- mlift (get_timezone_index t) ;;
      if negb (current =? -1) && negb (current =? index)
      then wrapped (send reply (mkCmd "set_timezone" (dset "index" (JInt index) params)))
      else wrapped (send reply (mkCmd "set_time" params))
  | None => wrapped (send reply (mkCmd "set_time" params))
  end.
End Clock.

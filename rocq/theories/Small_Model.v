(** Small SMART modules: kasa/smart/modules/fan.py, autooff.py, led.py, childlock.py,
    childprotection.py, frostprotection.py, mop.py, dustbin.py, speaker.py,
    overheatprotection.py, batterysensor.py, humiditysensor.py, temperaturesensor.py,
    waterleaksensor.py, cloud.py.  No proofs.
    A module's data, or the device info, is given as a dictionary; its setters send
    through Gadget_Model.send. *)
From Coq Require Import DecimalString Decimal.
From Verif Require Import Base Py Gadget_Model.
Open Scope string_scope.
Open Scope list_scope.
Open Scope Z_scope.

(** v == k for a text k *)
Definition is_str (k : string) (v : json) : bool :=
  match v with JStr s => String.eqb s k | _ => false end.

(** v is False *)
Definition is_false (v : json) : bool :=
  match v with JBool b => negb b | _ => false end.

(** v == 0 *)
Definition is_zero (v : json) : bool :=
  match v with
  | JInt z => z =? 0
  | JBool b => negb b
  | JFloat _ => negb (truthy v)
  | _ => false
  end.

(** {x.name: x.value for x in E} of an IntEnum, and E(v).name *)
Definition value_of (e : list (string * Z)) (name : string) : option Z := dget name e.
Fixpoint name_of (e : list (string * Z)) (v : Z) : res string :=
  match e with
  | [] => Err PyValueError
  | (n, z) :: rest => if z =? v then Ok n else name_of rest v
  end.
(** E(v).name for a value read from the device *)
Definition enum_name (e : list (string * Z)) (v : json) : res string :=
  match as_int v with Some z => name_of e z | None => Err PyValueError end.

(** int(v); floats and texts with spaces, underscores or a plus sign are not modelled *)
Definition py_int (v : json) : res Z :=
  match v with
  | JInt z => Ok z
  | JBool b => Ok (if b then 1 else 0)
  | JStr s => match NilZero.int_of_string s with Some i => Ok (Z.of_int i) | None => Err PyValueError end
  | _ => Err PyTypeError
  end.

Section Commands.
Variable reply : cmd -> res json.

(** ** Fan; the data is the device info *)
(** fan_speed_level, fan.py:51-54 *)
Definition fan_speed_level (info : dict json) : res json :=
  let! on := dindex "device_on" info in
  if is_false on then Ok (JInt 0) else dindex "fan_speed_level" info.
(** set_fan_speed_level, fan.py:56-66 *)
Definition set_fan_speed_level (level : Z) : M (list cmd) json :=
  if (level <? 0) || (4 <? level) then mfail PyValueError
  else if level =? 0 then send reply (mkCmd "set_device_info" [("device_on", JBool false)])
  else send reply (mkCmd "set_device_info" [("device_on", JBool true); ("fan_speed_level", JInt level)]).
(** sleep_mode, fan.py:68-71; set_sleep_mode, 73-75 *)
Definition sleep_mode (info : dict json) : res json := dindex "fan_sleep_mode_on" info.
Definition set_sleep_mode (on : bool) : M (list cmd) json :=
  send reply (mkCmd "set_device_info" [("fan_sleep_mode_on", JBool on)]).

(** ** Auto off; the data is the reply to get_auto_off_config *)
(** enabled, autooff.py:61-64; delay, 73-76 *)
Definition auto_off_enabled (d : dict json) : res json := dindex "enable" d.
Definition auto_off_delay (d : dict json) : res json := dindex "delay_min" d.
(** set_enabled, autooff.py:66-71; set_delay, 78-82 *)
Definition set_auto_off_enabled (d : dict json) (enable : bool) : M (list cmd) json :=
  do! delay <- mlift (dindex "delay_min" d) ;;
  send reply (mkCmd "set_auto_off_config" [("enable", JBool enable); ("delay_min", delay)]).
Definition set_auto_off_delay (d : dict json) (delay : Z) : M (list cmd) json :=
  do! enable <- mlift (dindex "enable" d) ;;
  send reply (mkCmd "set_auto_off_config" [("delay_min", JInt delay); ("enable", enable)]).
(** is_timer_active, autooff.py:84-87; auto_off_at, 89-97, as seconds; [now] is the
    device's time.  Only whole seconds are modelled. *)
Definition is_timer_active (info : dict json) : res bool :=
  let! v := dindex "auto_off_status" info in Ok (is_str "on" v).
Definition auto_off_at (info : dict json) (now : Z) : res (option Z) :=
  let! active := is_timer_active info in
  if active : bool then
    let! v := dindex "auto_off_remain_time" info in
    match as_int v with Some s => Ok (Some (now + s)) | None => Err PyTypeError end
  else Ok None.

(** ** Indicator LED; the data is the reply to get_led_info *)
(** led, led.py:29-32; set_led, 34-41 *)
Definition led_on (d : dict json) : res bool :=
  let! v := dindex "led_rule" d in Ok (negb (is_str "never" v)).
Definition set_led (d : dict json) (enable : bool) : M (list cmd) json :=
  let rule := if enable then "always" else "never" in
  send reply (mkCmd "set_led_info" (dset "led_rule" (JStr rule) d)).

(** ** Locks and frost protection *)
(** ChildLock.enabled, childlock.py:30-33; set_enabled, 35-37 *)
Definition child_lock (d : dict json) : res json := dindex "child_lock_status" d.
Definition set_child_lock (b : bool) : M (list cmd) json :=
  send reply (mkCmd "setChildLockInfo" [("child_lock_status", JBool b)]).
(** ChildProtection.enabled, childprotection.py:34-37; set_enabled, 39-41; the data is the
    device info *)
Definition child_protection (info : dict json) : res json := dindex "child_protection" info.
Definition set_child_protection (b : bool) : M (list cmd) json :=
  send reply (mkCmd "set_child_protection" [("enable", JBool b)]).
(** FrostProtection.enabled, frostprotection.py:21-24; set_enabled, 26-31;
    minimum_temperature, 33-36: the query is empty, so the data is the device info *)
Definition frost_enabled (info : dict json) : res json := dindex "frost_protection_on" info.
Definition set_frost (b : bool) : M (list cmd) json :=
  send reply (mkCmd "set_device_info" [("frost_protection_on", JBool b)]).
Definition frost_minimum (info : dict json) : res json := dindex "min_temp" info.

(** ** Vacuum accessories *)
(** Waterlevel, mop.py:16-22 *)
Definition water_levels : list (string * Z) := [("Disable", 0); ("Low", 1); ("Medium", 2); ("High", 3)].
(** waterlevel, mop.py:77-80; set_waterlevel, 82-90.  [s] is the reply to getCleanAttr. *)
Definition waterlevel (s : dict json) : res string :=
  let! v := dindex "cistern" s in
  let! z := py_int v in
  name_of water_levels z.
Definition set_waterlevel (s : dict json) (mode : string) : M (list cmd) json :=
  match value_of water_levels mode with
  | None => mfail PyValueError
  | Some z => send reply (mkCmd "setCleanAttr" (dset "cistern" (JInt z) s))
  end.
(** Mode, dustbin.py:14-22 *)
Definition dust_modes : list (string * Z) :=
  [("Smart", 0); ("Light", 1); ("Balanced", 2); ("Max", 3); ("Off", -1000)].
(** auto_collection, dustbin.py:118-121; set_auto_collection, 123-127.  [s] is the reply to
    getDustCollectionInfo. *)
Definition auto_collection (s : dict json) : res json := dindex "auto_dust_collection" s.
Definition set_auto_collection (s : dict json) (on : bool) : M (list cmd) json :=
  send reply (mkCmd "setDustCollectionInfo" (dset "auto_dust_collection" (JBool on) s)).
(** mode, dustbin.py:93-98; set_mode, 100-116 *)
Definition dust_mode (s : dict json) : res string :=
  let! auto := auto_collection s in
  if is_false auto then Ok "Off"
  else let! v := dindex "dust_collection_mode" s in enum_name dust_modes v.
Definition set_dust_mode (s : dict json) (mode : string) : M (list cmd) json :=
  match value_of dust_modes mode with
  | None => mfail PyValueError
  | Some z =>
      if String.eqb mode "Off" then set_auto_collection s false
      else send reply (mkCmd "setDustCollectionInfo"
             (dset "dust_collection_mode" (JInt z) (dset "auto_dust_collection" (JBool true) s)))
  end.
(** start_emptying, dustbin.py:79-86 *)
Definition start_emptying : M (list cmd) json :=
  send reply (mkCmd "setSwitchDustCollection" [("switch_dust_collection", JBool true)]).
(** volume, speaker.py:53-56; set_volume, 58-63; locate, 65-67 *)
Definition speaker_volume (d : dict json) : res json := dindex "volume" d.
Definition set_speaker_volume (v : Z) : M (list cmd) json :=
  if (v <? 0) || (100 <? v) then mfail PyValueError
  else send reply (mkCmd "setVolume" [("volume", JInt v)]).
Definition speaker_locate : M (list cmd) json :=
  send reply (mkCmd "playSelectAudio" [("audio_type", JStr "seek_me")]).
End Commands.

(** ** Sensors; all read the device info *)
(** overheated, overheatprotection.py:30-38 *)
Definition overheated (info : dict json) : res json :=
  match dget "overheat_status" info with
  | None | Some JNull => dindex "overheated" info
  | Some v => Ok (JBool (negb (is_str "normal" v)))
  end.
(** battery_low, batterysensor.py:63-72 *)
Definition battery_low (info : dict json) : res json :=
  let v := match dget "at_low_battery" info with
           | Some v => v
           | None => match dget "is_low" info with Some v => v | None => JNull end
           end in
  match v with JNull => Err KKasa | _ => Ok v end.
(** humidity_warning, humiditysensor.py:52-55 *)
Definition humidity_warning (info : dict json) : res bool :=
  let! v := dindex "current_humidity_exception" info in Ok (negb (is_zero v)).
(** temperature_warning, temperaturesensor.py:67-70 *)
Definition temperature_warning (info : dict json) : bool :=
  match dget "current_temp_exception" info with None => false | Some v => negb (is_zero v) end.
(** WaterleakStatus, waterleaksensor.py:12-17; status, 69-72 *)
Inductive leak := LNormal | LLeak | LDrying.
Definition leak_status (info : dict json) : res leak :=
  let! v := dindex "water_leak_status" info in
  if is_str "normal" v then Ok LNormal
  else if is_str "water_leak" v then Ok LLeak
  else if is_str "water_dry" v then Ok LDrying
  else Err PyValueError.
(** alert_timestamp, waterleaksensor.py:79-88, as seconds; [modules] are the names of the
    modules of the device itself.  The conversion to a datetime is left out. *)
Definition alert_timestamp (info : dict json) (modules : list string) : res (option json) :=
  match dget "trigger_timestamp" info with
  | None => Ok None
  | Some ts => if smem "Time" modules then Ok (Some ts) else Err PyKeyError
  end.
(** Cloud.is_connected, cloud.py:31-36, with SmartModule._has_data_error,
    smartmodule.py:258-263; [d] is what reading the module's data gives *)
Definition cloud_connected (d : res (dict json)) : res bool :=
  match d with
  | Err e => if is_device_error e then Ok false else Err e
  | Ok [] => Err PyAssertion
  | Ok d => let! v := dindex "status" d in Ok (is_zero v)
  end.

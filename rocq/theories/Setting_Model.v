(** Settings as a user interface sees them: the features of type Number and Choice that the modules
    declare, with what they advertise, what they show and what their setters send (lights, whose
    features are in IotLight_Model, SmartLight_Model, Scene_Model, Effect_Model and Preset_Model,
    are left out).  No proofs. *)
From Coq Require Import QArith.
From Verif Require Import Base Py.
Open Scope string_scope.
Open Scope list_scope.
Open Scope Z_scope.

(** Python values that occur as settings.  [Enum n]: a member of an Enum that is no number,
    [Dur ms]: a timedelta of whole milliseconds, [Digits v]: the string str(v) of a number.
    nan and the infinities are in Feature_Model. *)
Inductive pv := Int (z : Z) | Flt (q : Q) | Bool (b : bool) | Str (s : string) | Enum (n : string) | Dur (ms : Z) | Digits (v : pv).

(** What is known of a device: the sections its modules read, and [Own], attributes of the object *)
Inductive sec :=
| DimmerConf   (* get_dimmer_parameters, iot/modules/dimmer.py:156-158 *)
| Pir          (* get_config, iot/modules/motion.py:262-264 *)
| PirArray     (* its list "array": the key is the index *)
| AlarmConf    (* get_alarm_configure, smart/modules/alarm.py:33-38 *)
| AutoOff      (* get_auto_off_config *)
| CleanAttr    (* getCleanAttr, clean.py:266, mop.py:60-65 *)
| DustInfo     (* getDustCollectionInfo, dustbin.py:72-77 *)
| Speaker      (* getVolume *)
| Info         (* get_device_info *)
| OnHalf | OffHalf  (* _on_state and _off_state, lighttransition.py:129-139 *)
| Protect      (* get_protection_power *)
| MaxPower     (* get_max_power *)
| Siren        (* getSirenConfig *)
| Own.         (* _pan_step and _tilt_step, smartcam/modules/pantilt.py:16-17 *)
Record state := mkState { at_ : sec -> dict pv;
  sounds : list string;       (* get_support_alarm_type_list, alarm.py:154-156 *)
  cam_sounds : list string }. (* getSirenTypeList, smartcam/modules/alarm.py:125-127 *)
Definition sec_eqb (a b : sec) : bool :=
  match a, b with
  | DimmerConf, DimmerConf | Pir, Pir | PirArray, PirArray | AlarmConf, AlarmConf | AutoOff, AutoOff | CleanAttr, CleanAttr
  | DustInfo, DustInfo | Speaker, Speaker | Info, Info | OnHalf, OnHalf | OffHalf, OffHalf | Protect, Protect
  | MaxPower, MaxPower | Siren, Siren | Own, Own => true
  | _, _ => false
  end.

(** The settings *)
Inductive setting :=
| ThresholdMin | FadeOff | FadeOn | GentleOff | GentleOn | RampRate   (* iot/modules/dimmer.py:45-143 *)
| PirRange | PirThreshold                                            (* iot/modules/motion.py:124-151 *)
| AlarmSound | AlarmVolume | AlarmLevel | AlarmDuration              (* smart/modules/alarm.py:65-116 *)
| AutoOffMinutes                                                     (* smart/modules/autooff.py:33-44 *)
| CleanCount | FanPreset                                             (* smart/modules/clean.py:150-176 *)
| DustMode                                                           (* smart/modules/dustbin.py:57-70 *)
| MopLevel                                                           (* smart/modules/mop.py:45-58 *)
| Volume                                                             (* smart/modules/speaker.py:33-45 *)
| FanLevel                                                           (* smart/modules/fan.py:20-33 *)
| SmoothOn | SmoothOff                                               (* smart/modules/lighttransition.py:67-92 *)
| Protection                                                         (* smart/modules/powerprotection.py:30-43 *)
| Target | Offset                                                    (* smart/modules/temperaturecontrol.py:21-48 *)
| Unit                                                               (* smart/modules/temperaturesensor.py:45-56 *)
| CamSound | CamVolume | CamDuration                                 (* smartcam/modules/alarm.py:50-89 *)
| PanStep | TiltStep.                                                (* smartcam/modules/pantilt.py:48-91 *)

(** Numbers: int, float and bool *)
Definition num (v : pv) : option Q :=
  match v with Int z => Some (inject_Z z) | Flt q => Some q | Bool b => Some (if b then 1 else 0)%Q | _ => None end.
(** isinstance(v, int) *)
Definition int_of (v : pv) : option Z := match v with Int z => Some z | Bool b => Some (if b then 1 else 0) | _ => None end.
Definition truthy (v : pv) : bool :=
  match v with
  | Int z => negb (z =? 0) | Flt q => negb (Qeq_bool q 0) | Bool b => b | Str s => negb (String.eqb s "")
  | Enum _ => true | Dur ms => negb (ms =? 0) | Digits _ => true
  end.
Definition look (g : sec) (k : string) (st : state) : res pv := dindex k (at_ st g).

(** The enums: names and values, in order *)
Definition ranges : list (string * Z) := [("Far", 0); ("Mid", 1); ("Near", 2); ("Custom", 3)].        (* motion.py:17-23 *)
Definition volumes : list (string * Z) := [("mute", 0); ("low", 1); ("normal", 2); ("high", 3)].       (* alarm.py:14-23 *)
Definition speeds : list (string * Z) := [("Quiet", 1); ("Standard", 2); ("Turbo", 3); ("Max", 4); ("Ultra", 5)]. (* clean.py:51-58 *)
Definition modes : list (string * Z) := [("Smart", 0); ("Light", 1); ("Balanced", 2); ("Max", 3); ("Off", -1000)]. (* dustbin.py:14-22 *)
Definition levels : list (string * Z) := [("Disable", 0); ("Low", 1); ("Medium", 2); ("High", 3)].     (* mop.py:16-22 *)
Definition keys_of_index (i : Z) : string := if i =? 0 then "0" else if i =? 1 then "1" else if i =? 2 then "2" else if i =? 3 then "3" else "".
(** E(v).name for an Enum of numbers; E(v) raises ValueError *)
Definition name_of (e : list (string * Z)) (v : pv) : res string :=
  match num v with
  | Some q => match find (fun nv => Qeq_bool q (inject_Z (snd nv))) e with Some (n, _) => Ok n | None => Err PyValueError end
  | None => Err PyValueError
  end.
(** int(v) *)
Definition to_int (v : pv) : res pv :=
  match v with
  | Int z => Ok (Int z)
  | Bool b => Ok (Int (if b then 1 else 0))
  | Flt q => Ok (Int (Z.quot (Qnum q) (Zpos (Qden q))))
  | Digits w => match int_of w with Some z => Ok (Int z) | None => Err PyValueError end
  | Str _ => Err PyValueError
  | _ => Err PyTypeError
  end.

(** *** What is advertised *)
Inductive offer := Between (lo hi : pv) | Unbounded | OneOf (l : list string).
(** ranges, motion.py:310-318: the classes below the length of the device's list *)
Definition pir_ranges (st : state) : list string :=
  map fst (filter (fun nv => dmem (keys_of_index (snd nv)) (at_ st PirArray)) ranges).
(** range_getter and choices_getter of each; without either a number is taken from 0 to DEFAULT_MAX *)
Definition offered (st : state) (s : setting) : res offer :=
  match s with
  | ThresholdMin => Ok (Between (Int 0) (Int 51))                               (* dimmer.py:28-30, 53 *)
  | FadeOff | FadeOn => Ok (Between (Int 0) (Int 10000))                        (* 31-33, 68-71, 86-89 *)
  | GentleOff | GentleOn => Ok (Between (Int 0) (Int 120000))                   (* 34-36, 104-107, 122-125 *)
  | RampRate => Ok (Between (Int 10) (Int 50))                                  (* 37-40, 140 *)
  | PirRange => Ok (OneOf (pir_ranges st))
  | PirThreshold => Ok (Between (Int 0) (Int 100))                              (* motion.py:149 *)
  | AlarmSound => Ok (OneOf (sounds st))
  | AlarmVolume => Ok (OneOf (map fst volumes))
  | AlarmLevel => Ok (Between (Int 0) (Int 3))
  | AlarmDuration => Ok (Between (Int 1) (Int 600))
  | AutoOffMinutes | PanStep | TiltStep => Ok Unbounded
  | CleanCount => Ok (Between (Int 1) (Int 3))
  | FanPreset => Ok (OneOf (map fst speeds))
  | DustMode => Ok (OneOf (map fst modes))
  | MopLevel => Ok (OneOf (map fst levels))
  | Volume => Ok (Between (Int 0) (Int 100))
  | FanLevel => Ok (Between (Int 0) (Int 4))
  | SmoothOn => let! m := look OnHalf "max_duration" st in Ok (Between (Int 0) m)
  | SmoothOff => let! m := look OffHalf "max_duration" st in Ok (Between (Int 0) m)
  | Protection => let! m := look MaxPower "max_power" st in Ok (Between (Int 0) m)
  | Target => let! lo := look Info "min_control_temp" st in let! hi := look Info "max_control_temp" st in Ok (Between lo hi)
  | Offset => Ok (Between (Int (-10)) (Int 10))
  | Unit => Ok (OneOf ["celsius"; "fahrenheit"])
  | CamSound => Ok (OneOf (cam_sounds st))
  | CamVolume => Ok (Between (Int 0) (Int 10))
  | CamDuration => Ok (Between (Int 0) (Int 6000))
  end.
Definition below (v b : pv) : res bool :=
  match num v, num b with Some x, Some y => Ok (negb (Qle_bool y x)) | _, _ => Err PyTypeError end.
(** set_value up to the call of the setter, feature.py:246-261 *)
Definition gate (st : state) (s : setting) (v : pv) : res unit :=
  match offered st s with
  | Err e => match num v with None => Err PyValueError | Some _ => Err e end
  | Ok (OneOf l) => match v with Str x => if smem x l then Ok tt else Err PyValueError | _ => Err PyValueError end
  | Ok o =>
      match num v with
      | None => Err PyValueError
      | Some _ =>
          let (lo, hi) := match o with Between lo hi => (lo, hi) | _ => (Int 0, Int 65536) end in
          let! a := below v lo in let! b := below hi v in
          if a || b then Err PyValueError else Ok tt
      end
  end.

(** *** What is shown: the getters *)
Definition pir_index (st : state) : res (string * Z) :=
  let! i := look Pir "trigger_index" st in
  let! n := name_of ranges i in
  match dget n ranges with Some z => Ok (n, z) | None => Err PyKeyError end.
(** get_range_threshold, motion.py:348-354 *)
Definition pir_threshold (st : state) (i : Z) : res pv :=
  match dget (keys_of_index i) (at_ st PirArray) with None => Err KKasa | Some v => to_int v end.
Definition show (st : state) (s : setting) : res pv :=
  let ms k := let! v := look DimmerConf k st in match v with Int z => Ok (Dur z) | _ => Err PyTypeError end in
  let half g := let! d := look g "duration" st in let! e := look g "enable" st in Ok (if truthy e then d else Int 0) in
  match s with
  | ThresholdMin => look DimmerConf "minThreshold" st                           (* dimmer.py:160-163 *)
  | FadeOff => ms "fadeOffTime"                                                 (* 179-182 *)
  | FadeOn => ms "fadeOnTime"                                                   (* 198-201 *)
  | GentleOff => ms "gentleOffTime"                                             (* 217-220 *)
  | GentleOn => ms "gentleOnTime"                                               (* 236-239 *)
  | RampRate => look DimmerConf "rampRate" st                                   (* 255-258 *)
  (* pir_config, motion.py:266-276: the other fields it reads are left out *)
  | PirRange => let! ni := pir_index st in let! _ := pir_threshold st (snd ni) in Ok (Enum (fst ni))   (* 320-323 *)
  | PirThreshold => let! ni := pir_index st in pir_threshold st (snd ni)                               (* 356-359 *)
  | AlarmSound => look AlarmConf "type" st                                      (* alarm.py:138-141 *)
  | AlarmVolume => look AlarmConf "volume" st                                   (* 163-168 *)
  | AlarmLevel => let! v := look AlarmConf "volume" st in
                  match v with Str x => match dget x volumes with Some z => Ok (Int z) | None => Err PyKeyError end
                             | _ => Err PyKeyError end                          (* 158-161 *)
  | AlarmDuration => look AlarmConf "duration" st                               (* 179-182 *)
  | AutoOffMinutes => look AutoOff "delay_min" st                               (* autooff.py:73-76 *)
  | CleanCount => look CleanAttr "clean_number" st                              (* clean.py:404-407 *)
  | FanPreset => let! v := look CleanAttr "suction" st in let! n := name_of speeds v in Ok (Str n)     (* 313-316 *)
  | DustMode => let! a := look DustInfo "auto_dust_collection" st in           (* dustbin.py:93-98 *)
                match a with
                | Bool false => Ok (Str "Off")
                | _ => let! v := look DustInfo "dust_collection_mode" st in let! n := name_of modes v in Ok (Str n)
                end
  | MopLevel => let! v := look CleanAttr "cistern" st in let! i := to_int v in
                let! n := name_of levels i in Ok (Str n)                        (* mop.py:77-80 *)
  | Volume => look Speaker "volume" st                                          (* speaker.py:53-56 *)
  | FanLevel => let! on := look Info "device_on" st in
                match on with Bool false => Ok (Int 0) | _ => look Info "fan_speed_level" st end       (* fan.py:51-54 *)
  | SmoothOn => half OnHalf                                                     (* lighttransition.py:172-178 *)
  | SmoothOff => half OffHalf                                                   (* 207-213 *)
  | Protection => let! e := look Protect "enabled" st in                        (* powerprotection.py:88-104 *)
                  Ok (if truthy e then match dget "protection_power" (at_ st Protect) with Some v => v | None => Int 0 end else Int 0)
  | Target => look Info "target_temp" st                                        (* temperaturecontrol.py:128-131 *)
  | Offset => look Info "temp_offset" st                                        (* 156-159 *)
  | Unit => look Info "temp_unit" st                                            (* temperaturesensor.py:72-75 *)
  | CamSound => look Siren "siren_type" st                                      (* smartcam/modules/alarm.py:110-113 *)
  | CamVolume => let! v := look Siren "volume" st in to_int v                   (* 129-135 *)
  | CamDuration => look Siren "duration" st                                     (* 145-148 *)
  | PanStep => look Own "_pan_step" st
  | TiltStep => look Own "_tilt_step" st
  end.

(** *** What is done: the setters *)
(** A request, [part] being the key under which the parameters go, or an assignment to the object *)
Inductive act := Send (method part : string) (params : dict pv) | Assign (attr : string) (v : pv).
(** x < lo or x > hi: raise *)
Definition check (lo hi : pv) (e : exn) (v : pv) : res unit :=
  let! a := below v lo in let! b := below hi v in if a || b then Err e else Ok tt.
(** dimmer.py:184-196 and the like: an int is milliseconds, a timedelta itself; others cannot be compared *)
Definition set_time (hi : Z) (method key : string) (v : pv) : res (list act) :=
  let! ms := match v with Dur ms => Ok ms | _ => match int_of v with Some z => Ok z | None => Err PyTypeError end end in
  if (ms <? 0) || (hi <? ms) then Err KKasa else Ok [Send method "" [(key, Int ms)]].
(** set_alarm_volume with _check_and_convert_volume, alarm.py:170-177, 238-252: what is checked
    is the name, what is sent is the argument *)
Definition set_alarm_volume (st : state) (v : pv) : res (list act) :=
  let name := match int_of v with
              | Some z => match find (fun nv => snd nv =? z) volumes with Some (n, _) => Str n | None => Str "invalid" end
              | None => v end in
  if match name with Str n => dmem n volumes | _ => false end
  then Ok [Send "set_alarm_configure" "" (dset "volume" v (at_ st AlarmConf))] else Err PyValueError.
Definition by_name (e : list (string * Z)) (v : pv) (k : Z -> res (list act)) : res (list act) :=
  match v with Str n => match dget n e with Some z => k z | None => Err PyValueError end | _ => Err PyValueError end.
(** lighttransition.py:185-204, 221-243 *)
Definition set_half (g : sec) (part : string) (st : state) (v : pv) : res (list act) :=
  let! m := look g "max_duration" st in
  let! over := below m v in
  if over then Err PyValueError
  else let! positive := below (Int 0) v in
       if positive then Ok [Send "set_on_off_gradually_info" part [("enable", Bool true); ("duration", v)]]
       else let! d := look g "duration" st in
            Ok [Send "set_on_off_gradually_info" part [("enable", Bool false); ("duration", d)]].
(** PowerProtection.set_enabled, powerprotection.py:62-79; the threshold is given when switching on *)
Definition set_protect (st : state) (enabled : bool) (threshold : option pv) : res (list act) :=
  let! _ := match threshold with
            | Some t => if truthy t then let! m := look MaxPower "max_power" st in check (Int 0) m PyValueError t else Ok tt
            | None => Ok tt end in
  let params := dset "enabled" (Bool enabled) (at_ st Protect) in
  Ok [Send "set_protection_power" "" (match threshold with Some t => dset "protection_power" t params | None => params end)].
(** v == 0 *)
Definition is_zero (v : pv) : bool := match num v with Some q => Qeq_bool q 0 | None => false end.
Definition setter (st : state) (s : setting) (v : pv) : res (list act) :=
  match s with
  | ThresholdMin => let! _ := check (Int 0) (Int 51) KKasa v in Ok [Send "calibrate_brightness" "" [("minThreshold", v)]]  (* dimmer.py:165-177 *)
  | FadeOff => set_time 10000 "set_fade_off_time" "fadeTime" v                  (* 184-196 *)
  | FadeOn => set_time 10000 "set_fade_on_time" "fadeTime" v                    (* 203-215 *)
  | GentleOff => set_time 120000 "set_gentle_off_time" "duration" v             (* 222-234 *)
  | GentleOn => set_time 120000 "set_gentle_on_time" "duration" v               (* 241-253 *)
  | RampRate => let! _ := check (Int 10) (Int 50) KKasa v in Ok [Send "set_button_ramp_rate" "" [("rampRate", v)]]        (* 260-270 *)
  (* _set_range_from_str, motion.py:325-346: strip().capitalize() leaves the names as they are *)
  | PirRange => match v with
                | Str n => match dget n ranges with Some z => Ok [Send "set_trigger_sens" "" [("index", Int z)]] | None => Err KKasa end
                | _ => Err PyAttributeError end
  | PirThreshold => Ok [Send "set_trigger_sens" "" [("index", Int 3); ("value", v)]]                     (* 361-364 *)
  | AlarmSound => match v with
                  | Str x => if smem x (sounds st) then Ok [Send "set_alarm_configure" "" (dset "type" v (at_ st AlarmConf))] else Err PyValueError
                  | _ => Err PyValueError end                                   (* alarm.py:143-151 *)
  | AlarmVolume | AlarmLevel => set_alarm_volume st v
  | AlarmDuration => let! _ := check (Int 1) (Int 600) PyValueError v in
                     Ok [Send "set_alarm_configure" "" (dset "duration" v (at_ st AlarmConf))]           (* 184-191 *)
  | AutoOffMinutes => let! e := look AutoOff "enable" st in
                      Ok [Send "set_auto_off_config" "" [("delay_min", v); ("enable", e)]]               (* autooff.py:78-82 *)
  | CleanCount => Ok [Send "setCleanAttr" "" [("clean_number", v); ("type", Str "global")]]              (* clean.py:327-335, 409-411 *)
  | FanPreset => by_name speeds v (fun z => Ok [Send "setCleanAttr" "" [("suction", Int z); ("type", Str "global")]])  (* 318-335 *)
  | DustMode => by_name modes v (fun z =>                                       (* dustbin.py:100-116, 123-127 *)
      if match v with Str n => String.eqb n "Off" | _ => false end
      then Ok [Send "setDustCollectionInfo" "" (dset "auto_dust_collection" (Bool false) (at_ st DustInfo))]
      else Ok [Send "setDustCollectionInfo" "" (dset "dust_collection_mode" (Int z) (dset "auto_dust_collection" (Bool true) (at_ st DustInfo)))])
  | MopLevel => by_name levels v (fun z => Ok [Send "setCleanAttr" "" (dset "cistern" (Int z) (at_ st CleanAttr))])    (* mop.py:82-90 *)
  | Volume => let! _ := check (Int 0) (Int 100) PyValueError v in Ok [Send "setVolume" "" [("volume", v)]]             (* speaker.py:58-63 *)
  | FanLevel => let! _ := check (Int 0) (Int 4) PyValueError v in               (* fan.py:56-66 *)
                if is_zero v then Ok [Send "set_device_info" "" [("device_on", Bool false)]]
                else Ok [Send "set_device_info" "" [("device_on", Bool true); ("fan_speed_level", v)]]
  | SmoothOn => set_half OnHalf "on_state" st v
  | SmoothOff => set_half OffHalf "off_state" st v
  | Protection => if is_zero v then set_protect st false None else set_protect st true (Some v)         (* powerprotection.py:81-86 *)
  | Target => let! lo := look Info "min_control_temp" st in let! hi := look Info "max_control_temp" st in
              let! _ := check lo hi PyValueError v in                           (* temperaturecontrol.py:138-154 *)
              Ok [Send "set_device_info" "" (("target_temp", v) :: if dmem "frost_protection_on" (at_ st Info) then [("frost_protection_on", Bool false)] else [])]
  | Offset => let! _ := check (Int (-10)) (Int 10) PyValueError v in Ok [Send "set_device_info" "" [("temp_offset", v)]]  (* 161-166 *)
  | Unit => Ok [Send "set_temperature_unit" "" [("temp_unit", v)]]              (* temperaturesensor.py:77-81 *)
  | CamSound => match v with                                                    (* smartcam/modules/alarm.py:116-122, 187-217 *)
                | Str x => if String.eqb x "" then Ok [Send "setSirenConfig" "siren" []]
                           else if smem x (cam_sounds st) then Ok [Send "setSirenConfig" "siren" [("siren_type", v)]] else Err PyValueError
                | _ => Err PyValueError end
  | CamVolume => let! _ := check (Int 0) (Int 10) PyValueError v in Ok [Send "setSirenConfig" "siren" [("volume", Digits v)]]       (* 138-143 *)
  | CamDuration => let! _ := check (Int 0) (Int 6000) PyValueError v in Ok [Send "setSirenConfig" "siren" [("duration", v)]]        (* 151-156 *)
  | PanStep => Ok [Assign "_pan_step" v]                                        (* pantilt.py:22-23 *)
  | TiltStep => Ok [Assign "_tilt_step" v]                                      (* 25-26 *)
  end.
(** Feature.set_value, feature.py:244-272 *)
Definition set_value (st : state) (s : setting) (v : pv) : res (list act) :=
  let! _ := gate st s v in setter st s v.

(** What the properties of the SMART modules read: kasa/smart/modules/*.py on top of
    SmartModule.data, kasa/smart/smartmodule.py:179-237.  No proofs. *)
From Verif Require Import Base Py Smod_Model Gadget_Model Small_Model.
Open Scope string_scope.
Open Scope list_scope.
Open Scope Z_scope.

(** The module classes read here. *)
Inductive mname :=
| MAlarm | MAutoOff | MBattery | MChildLock | MChildProtection | MClean | MCloud | MColorTemp | MContact
| MDustbin | MEnergy | MFan | MFirmware | MFrost | MHomeKit | MHumidity | MLed | MMatter | MMop | MMotion
| MOverheat | MPowerProtection | MReport | MSpeaker | MThermostat | MTempSensor | MTriggerLogs | MLeak.

(** supported_version of the two classes whose query depends on it *)
Record facts := mkFacts { v_energy : Z; v_firmware : Z }.

(** query(): the methods, in order; parameters are left out.
    alarm.py:33-38, autooff.py:57-59, clean.py:256-266, dustbin.py:72-77, energy.py:51-60,
    firmware.py:134-138, led.py:17-19, mop.py:60-65, powerprotection.py:45-47,
    speaker.py:47-51, triggerlogs.py:30-32; the default query, smartmodule.py:151-159, with
    QUERY_GETTER_NAME for childlock.py:13, cloud.py:12, homekit.py:12 and matter.py:12; the
    empty query of batterysensor.py:54-56, childprotection.py:30-32, colortemperature.py:37-40,
    contactsensor.py:30-32, fan.py:47-49, frostprotection.py:17-19, humiditysensor.py:43-45,
    motionsensor.py:29-31, overheatprotection.py:39-41, reportmode.py:30-32,
    temperaturecontrol.py:73-76, temperaturesensor.py:58-60, waterleaksensor.py:64-67. *)
Definition query (f : facts) (m : mname) : list string :=
  match m with
  | MAlarm => ["get_alarm_configure"; "get_support_alarm_type_list"]
  | MAutoOff => ["get_auto_off_config"]
  | MChildLock => ["getChildLockInfo"]
  | MClean => ["getVacStatus"; "getCleanInfo"; "getCarpetClean"; "getAreaUnit"; "getBatteryInfo"; "getCleanStatus"; "getCleanAttr"]
  | MCloud => ["get_connect_cloud_state"]
  | MDustbin => ["getAutoDustCollection"; "getDustCollectionInfo"]
  | MEnergy => "get_energy_usage" ::
               (if 1 <? v_energy f then ["get_current_power"; "get_emeter_data"; "get_emeter_vgain_igain"] else [])
  | MFirmware => if 1 <? v_firmware f then ["get_auto_update_info"] else []
  | MHomeKit => ["get_homekit_info"]
  | MLed => ["get_led_info"]
  | MMatter => ["get_matter_setup_info"]
  | MMop => ["getMopState"; "getCleanAttr"]
  | MPowerProtection => ["get_protection_power"; "get_max_power"]
  | MSpeaker => ["getVolume"]
  | MTriggerLogs => ["get_trigger_logs"]
  | MBattery | MChildProtection | MColorTemp | MContact | MFan | MFrost | MHumidity | MMotion | MOverheat
  | MReport | MThermostat | MTempSensor | MLeak => []
  end.
(** optional_response_keys, smartmodule.py:168-175 and energy.py:62-67 *)
Definition optional (f : facts) (m : mname) : list string :=
  match m with MEnergy => if 1 <? v_energy f then ["get_energy_usage"] else [] | _ => [] end.
(** The module, for Smod_Model.data, which looks at nothing else of it. *)
Definition class (f : facts) (m : mname) : smod := mkMod "" (query f m) 0 (optional f m) false None.

(** A value handed to the user: as it is, divided by 1000, or as a number of minutes
    (timedelta).  The division is exact here. *)
Inductive value := Plain (j : json) | Thousandths (j : json) | Minutes (j : json).

(** The properties.  TemperatureControl's are called Control…; Thermostat's delegate to
    those and to TemperatureSensor's, thermostat.py:31-66. *)
Inductive reading :=
| AlarmSound | AlarmSounds | AlarmVolume | AlarmDuration | AlarmActive | AlarmSource
| AutoOffEnabled | AutoOffDelay | AutoOffActive
| Battery | BatteryLow
| ChildLockOn | ChildProtectionOn
| CleanSpeed | CleanBattery | CleanBoost | CleanUnit | CleanArea | CleanTime | CleanProgress | CleanCount
| CloudConnected
| ColorTemp
| ContactOpen
| DustMode | DustAuto
| EnergyNow | EnergyMonth | EnergyToday | EnergyCurrent | EnergyVoltage
| FanSpeed | FanSleep
| FirmwareVersion | AutoUpdate
| FrostOn | FrostMinimum | FrostUnit
| HomeKitCode
| Humidity | HumidityWarning
| LedMode | LedOn | LedNight
| MatterCode | MatterPayload
| MopAttached | MopLevel
| Motion
| Overheated
| Overloaded | ProtectionOn | ProtectionThreshold | ProtectionShown
| ReportInterval
| Volume
| ControlState | ControlMin | ControlMax | ControlTarget | ControlOffset
| Temperature | TemperatureWarning | TemperatureUnit
| Logs
| LeakStatus | LeakAlert.

Definition module_of (r : reading) : mname :=
  match r with
  | AlarmSound | AlarmSounds | AlarmVolume | AlarmDuration | AlarmActive | AlarmSource => MAlarm
  | AutoOffEnabled | AutoOffDelay | AutoOffActive => MAutoOff
  | Battery | BatteryLow => MBattery
  | ChildLockOn => MChildLock
  | ChildProtectionOn => MChildProtection
  | CleanSpeed | CleanBattery | CleanBoost | CleanUnit | CleanArea | CleanTime | CleanProgress | CleanCount => MClean
  | CloudConnected => MCloud
  | ColorTemp => MColorTemp
  | ContactOpen => MContact
  | DustMode | DustAuto => MDustbin
  | EnergyNow | EnergyMonth | EnergyToday | EnergyCurrent | EnergyVoltage => MEnergy
  | FanSpeed | FanSleep => MFan
  | FirmwareVersion | AutoUpdate => MFirmware
  | FrostOn | FrostMinimum | FrostUnit => MFrost
  | HomeKitCode => MHomeKit
  | Humidity | HumidityWarning => MHumidity
  | LedMode | LedOn | LedNight => MLed
  | MatterCode | MatterPayload => MMatter
  | MopAttached | MopLevel => MMop
  | Motion => MMotion
  | Overheated => MOverheat
  | Overloaded | ProtectionOn | ProtectionThreshold | ProtectionShown => MPowerProtection
  | ReportInterval => MReport
  | Volume => MSpeaker
  | ControlState | ControlMin | ControlMax | ControlTarget | ControlOffset => MThermostat
  | Temperature | TemperatureWarning | TemperatureUnit => MTempSensor
  | Logs => MTriggerLogs
  | LeakStatus | LeakAlert => MLeak
  end.

(** v as a dictionary; anything else cannot be indexed by a text *)
Definition as_dict (v : json) : res (dict json) := match v with JObj d => Ok d | _ => Err PyTypeError end.
(** self.data as a value *)
Definition whole (v : view) : json := match v with One j => j | Many d => JObj d end.
(** int and float *)
Definition is_num (v : json) : bool := match v with JInt _ | JFloat _ | JBool _ => true | _ => false end.
Definition plain (r : res json) : res value := let! j := r in Ok (Plain j).
Definition flag (r : res bool) : res value := let! b := r in Ok (Plain (JBool b)).
Definition text (r : res string) : res value := let! s := r in Ok (Plain (JStr s)).
(** FanSpeed and AreaUnit, clean.py:51-69 *)
Definition clean_speeds : list (string * Z) := [("Quiet", 1); ("Standard", 2); ("Turbo", 3); ("Max", 4); ("Ultra", 5)].
Definition area_units : list (string * Z) := [("Sqm", 0); ("Sqft", 1); ("Ping", 2)].
(** VOLUME_STR_TO_INT, alarm.py:14-23 *)
Definition volumes : list (string * Z) := [("mute", 0); ("low", 1); ("normal", 2); ("high", 3)].
(** x / 1_000 where x is not None, else None; energy.py:105-117,127-139 *)
Definition over_1000 (o : option json) : res value :=
  match o with
  | None | Some JNull => Ok (Plain JNull)
  | Some v => if is_num v then Ok (Thousandths v) else Err PyTypeError
  end.
(** v.get(k): absent and null are both None *)
Definition field (k : string) (v : json) : res (option json) :=
  match v with JObj d => Ok (dget k d) | _ => Err PyAttributeError end.
(** data.get(k, {}), a dictionary *)
Definition sub (k : string) (v : json) : res json :=
  match v with JObj d => Ok (match dget k d with Some x => x | None => JObj [] end) | _ => Err PyAttributeError end.
(** _energy as _post_update_hook leaves it, energy.py:30 *)
Definition usage (v : json) : res json :=
  match v with JObj d => Ok (match dget "get_energy_usage" d with Some x => x | None => v end) | _ => Err PyAttributeError end.
(** _current_consumption as _post_update_hook leaves it, energy.py:32-49 *)
Definition energy_now (v : json) : res value :=
  let! e := usage v in
  let! emeter := sub "get_emeter_data" v in
  let! _ := jcontains "voltage_mv" emeter in
  let! p := field "current_power" e in
  match p with
  | None | Some JNull =>
      let! p := field "power_mw" emeter in
      match p with
      | None | Some JNull =>
          let! now := sub "get_current_power" v in
          let! p := field "current_power" now in
          Ok (Plain (match p with Some x => x | None => JNull end))
      | Some v => if is_num v then Ok (Thousandths v) else Err PyTypeError
      end
  | Some v => if is_num v then Ok (Thousandths v) else Err PyTypeError
  end.
(** LogEntry.from_dict, triggerlogs.py:14-21: the fields, by their own names.  The types
    are not checked: mashumaro converts what it can. *)
Definition log_entry (v : json) : res json :=
  match v with
  | JObj d => match dget "id" d, dget "eventId" d, dget "timestamp" d, dget "event" d with
              | Some i, Some e, Some t, Some n =>
                  Ok (JObj [("id", i); ("event_id", e); ("timestamp", t); ("event", n)])
              | _, _, _, _ => Err PyOther
              end
  | _ => Err PyOther
  end.
Fixpoint log_entries (l : list json) : res (list json) :=
  match l with
  | [] => Ok []
  | v :: l => let! e := log_entry v in let! r := log_entries l in Ok (e :: r)
  end.
(** WaterleakStatus, waterleaksensor.py:12-17 *)
Definition leak_text (l : leak) : string :=
  match l with LNormal => "normal" | LLeak => "water_leak" | LDrying => "water_dry" end.
(** SmartModule._has_data_error, smartmodule.py:258-263, and Cloud.is_connected, cloud.py:31-36 *)
(* *)
Definition connected (dt : res json) : res value :=
  match dt with
  | Err e => if is_device_error e then Ok (Plain (JBool false)) else Err e
  | Ok v => if truthy v then let! s := jitem "status" v in Ok (Plain (JBool (is_zero s))) else Err PyAssertion
  end.

(** The readings.  [own]: the device's _last_update; [parent]: its parent's; [info]: sys_info.
    A device is given sys_info by its first update, smartdevice.py:239-250. *)
Section Device.
Variables (f : facts) (own : dict reply) (parent : option (dict reply)) (info : dict json).
(** self.data of a module *)
Definition dt (m : mname) : res json := let! v := data (class f m) own parent (JObj info) in Ok (whole v).
(** self.data[k], a dictionary *)
Definition at_ (m : mname) (k : string) : res (dict json) :=
  let! v := dt m in let! x := jitem k v in as_dict x.
(** self.data, a dictionary *)
Definition top (m : mname) : res (dict json) := let! v := dt m in as_dict v.
(** device.sys_info[k] *)
Definition sys (k : string) : res value := plain (dindex k info).

Definition read (r : reading) : res value :=
  match r with
  (* alarm.py:138-141, 153-156, 158-168, 179-182, 193-196, 198-202 *)
  | AlarmSound => plain (let! d := at_ MAlarm "get_alarm_configure" in dindex "type" d)
  | AlarmSounds => plain (let! d := at_ MAlarm "get_support_alarm_type_list" in dindex "alarm_type_list" d)
  | AlarmVolume => let! d := at_ MAlarm "get_alarm_configure" in
                   let! v := dindex "volume" d in
                   match v with
                   | JStr s => match value_of volumes s with Some z => Ok (Plain (JInt z)) | None => Err PyKeyError end
                   | _ => Err PyKeyError
                   end
  | AlarmDuration => plain (let! d := at_ MAlarm "get_alarm_configure" in dindex "duration" d)
  | AlarmActive => sys "in_alarm"
  | AlarmSource => let! v := dindex "in_alarm_source" info in Ok (Plain (if truthy v then v else JNull))
  (* autooff.py:61-64, 73-76, 84-87 *)
  | AutoOffEnabled => plain (let! d := top MAutoOff in auto_off_enabled d)
  | AutoOffDelay => plain (let! d := top MAutoOff in auto_off_delay d)
  | AutoOffActive => flag (is_timer_active info)
  (* batterysensor.py:58-61, 63-72 *)
  | Battery => sys "battery_percentage"
  | BatteryLow => plain (battery_low info)
  (* childlock.py:30-33, childprotection.py:34-37 *)
  | ChildLockOn => plain (let! d := top MChildLock in child_lock d)
  | ChildProtectionOn => plain (let! d := top MChildProtection in child_protection d)
  (* clean.py:313-316, 337-340, 374-377, 384-387, 389-392, 394-397, 399-402, 404-407, with
     _info and _settings, 347-355 *)
  | CleanSpeed => text (let! d := at_ MClean "getCleanAttr" in let! v := dindex "suction" d in enum_name clean_speeds v)
  | CleanBattery => plain (let! d := at_ MClean "getBatteryInfo" in dindex "battery_percentage" d)
  | CleanBoost => flag (let! d := at_ MClean "getCarpetClean" in let! v := dindex "carpet_clean_prefer" d in Ok (is_str "boost" v))
  | CleanUnit => text (let! d := at_ MClean "getAreaUnit" in let! v := dindex "area_unit" d in enum_name area_units v)
  | CleanArea => plain (let! d := at_ MClean "getCleanInfo" in dindex "clean_area" d)
  | CleanTime => let! d := at_ MClean "getCleanInfo" in
                 let! v := dindex "clean_time" d in
                 if is_num v then Ok (Minutes v) else Err PyTypeError
  | CleanProgress => plain (let! d := at_ MClean "getCleanInfo" in dindex "clean_percent" d)
  | CleanCount => plain (let! d := at_ MClean "getCleanAttr" in dindex "clean_number" d)
  | CloudConnected => connected (dt MCloud)
  (* colortemperature.py:54-57, contactsensor.py:34-37 *)
  | ColorTemp => plain (let! d := top MColorTemp in dindex "color_temp" d)
  | ContactOpen => sys "open"
  (* dustbin.py:93-98, 118-121, with _settings, 88-91 *)
  | DustMode => text (let! d := at_ MDustbin "getDustCollectionInfo" in dust_mode d)
  | DustAuto => plain (let! d := at_ MDustbin "getDustCollectionInfo" in auto_collection d)
  (* energy.py:69-72, 105-117, 125-139; the first three after the module's hook *)
  | EnergyNow => let! v := dt MEnergy in energy_now v
  | EnergyMonth => let! v := dt MEnergy in let! u := usage v in let! o := field "month_energy" u in over_1000 o
  | EnergyToday => let! v := dt MEnergy in let! u := usage v in let! o := field "today_energy" u in over_1000 o
  | EnergyCurrent => let! v := dt MEnergy in let! e := sub "get_emeter_data" v in let! o := field "current_ma" e in over_1000 o
  | EnergyVoltage => let! v := dt MEnergy in let! e := sub "get_emeter_data" v in let! o := field "voltage_mv" e in over_1000 o
  (* fan.py:51-54, 68-71 *)
  | FanSpeed => plain (let! d := top MFan in fan_speed_level d)
  | FanSleep => plain (let! d := top MFan in sleep_mode d)
  (* firmware.py:151-154, with hw_info, smartdevice.py:645-655; firmware.py:239-242 *)
  | FirmwareVersion => Ok (Plain (match dget "fw_ver" info with Some v => v | None => JNull end))
  | AutoUpdate => let! v := dt MFirmware in
                  let! there := jcontains "enable" v in
                  if there : bool then plain (jitem "enable" v) else Ok (Plain (JBool false))
  (* frostprotection.py:21-24, 33-41 *)
  | FrostOn => plain (frost_enabled info)
  | FrostMinimum => plain (let! d := top MFrost in frost_minimum d)
  | FrostUnit => plain (let! d := top MFrost in dindex "temp_unit" d)
  (* homekit.py:23,29-32 *)
  | HomeKitCode => plain (let! d := top MHomeKit in dindex "mfi_setup_code" d)
  (* humiditysensor.py:47-50, 52-55 *)
  | Humidity => sys "current_humidity"
  | HumidityWarning => flag (humidity_warning info)
  (* led.py:21-27, 29-32, 43-52 *)
  | LedMode => plain (let! d := top MLed in dindex "led_rule" d)
  | LedOn => flag (let! d := top MLed in led_on d)
  | LedNight => plain (let! d := top MLed in
                       let! start := dindex "start_time" d in
                       let! end_ := dindex "end_time" d in
                       let! type := dindex "night_mode_type" d in
                       let! sunrise := dindex "sunrise_offset" d in
                       let! sunset := dindex "sunset_offset" d in
                       Ok (JObj [("start", start); ("end", end_); ("type", type);
                                 ("sunrise_offset", sunrise); ("sunset_offset", sunset)]))
  (* matter.py:23,34,40-43 *)
  | MatterCode => plain (let! d := top MMatter in dindex "setup_code" d)
  | MatterPayload => plain (let! d := top MMatter in dindex "setup_payload" d)
  (* mop.py:67-70, 77-80, with _settings, 72-75 *)
  | MopAttached => plain (let! d := at_ MMop "getMopState" in dindex "mop_state" d)
  | MopLevel => text (let! d := at_ MMop "getCleanAttr" in waterlevel d)
  (* motionsensor.py:33-36, overheatprotection.py:29-37 *)
  | Motion => sys "detected"
  | Overheated => plain (overheated info)
  (* powerprotection.py:49-55, 57-60, 98-104, 88-91 *)
  | Overloaded => let! v := dindex "power_protection_status" info in Ok (Plain (JBool (is_str "overloaded" v)))
  | ProtectionOn => plain (let! d := at_ MPowerProtection "get_protection_power" in dindex "enabled" d)
  | ProtectionThreshold => plain (let! d := at_ MPowerProtection "get_protection_power" in Ok (protection_threshold d))
  | ProtectionShown => plain (let! d := at_ MPowerProtection "get_protection_power" in threshold_or_zero d)
  (* reportmode.py:34-37, speaker.py:53-56 *)
  | ReportInterval => sys "report_interval"
  | Volume => plain (let! d := top MSpeaker in speaker_volume d)
  (* temperaturecontrol.py:78-81, 118-121, 123-126, 128-131, 156-159 *)
  | ControlState => let! v := dindex "frost_protection_on" info in Ok (Plain (JBool (is_false v)))
  | ControlMin => sys "min_control_temp"
  | ControlMax => sys "max_control_temp"
  | ControlTarget => sys "target_temp"
  | ControlOffset => sys "temp_offset"
  (* temperaturesensor.py:62-65, 67-70, 72-75 *)
  | Temperature => sys "current_temp"
  | TemperatureWarning => Ok (Plain (JBool (temperature_warning info)))
  | TemperatureUnit => sys "temp_unit"
  (* triggerlogs.py:34-37 *)
  | Logs => let! d := top MTriggerLogs in
            let! l := dindex "logs" d in
            let! l := jiter l in
            let! r := log_entries l in
            Ok (Plain (JArr r))
  (* waterleaksensor.py:69-72, 74-77 *)
  | LeakStatus => text (let! l := leak_status info in Ok (leak_text l))
  | LeakAlert => sys "in_alarm"
  end.
End Device.

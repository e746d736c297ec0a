(** The features each module adds and what they read: _initialize_features of
    kasa/smart/modules/*.py, kasa/interfaces/*.py and kasa/smartcam/modules/*.py.  Names, icons,
    units, ranges and categories of features are left out, and so are the static checks of
    Feature.__post_init__, which no module here fails.  No proofs. *)
From Verif Require Import Base Py Smod_Model Feats_Model Gadget_Model CamMod_Model Read_Model CamRead_Model.
Open Scope string_scope.
Open Scope list_scope.
Open Scope Z_scope.

(** attribute_getter: a property of [Read_Model.read], a field of the device info, whether such a
    field is truthy, the text of the alarm's volume, or something else (no getter, or a property
    of another model). *)
Inductive getter := Reads (r : reading) | Info (k : string) | Truth (k : string) | VolumeText | Other.

(** CONSUMABLE_METAS, consumables.py:48-80: id and data_key *)
Definition metas : list (string * string) :=
  [("main_brush", "roll_brush_time"); ("side_brush", "edge_brush_time"); ("filter", "filter_time");
   ("sensor", "sensor_time"); ("charging_contacts", "charge_contact_time")].

Section Smart.
(** As for [Read_Model.read]; [transition]: supported_version of LightTransition; [unpair]: there
    is a parent that has the child setup module. *)
Variables (f : facts) (transition : Z) (own : dict reply) (parent : option (dict reply)) (info : dict json) (unpair : bool).

(** supports(VOLTAGE_CURRENT) as _post_update_hook leaves it, smart/modules/energy.py:21-35 *)
Definition volts : bool :=
  match (let! v := dt f own parent info MEnergy in
         let! e := sub "get_emeter_data" v in
         jcontains "voltage_mv" e) with
  | Ok b => b
  | Err _ => false
  end.
(** self.data of Consumables, consumables.py:84-87; a dictionary *)
Definition wear : res (dict json) :=
  let! v := data (mkMod "" ["getConsumablesInfo"] 0 [] false None) own parent (JObj info) in
  Read_Model.as_dict (Read_Model.whole v).

(** A call of _add_feature: the module, the condition it stands under, the id and the getter. *)
Record row := mkRow { r_module : string; r_when : bool; r_id : string; r_getter : getter }.
Definition has (k : string) : bool := dmem k info.
Definition rows_to_color : list row :=
  [ (* alarm.py:40-136 *)
    mkRow "Alarm" true "alarm" (Reads AlarmActive);
    mkRow "Alarm" true "alarm_source" (Reads AlarmSource);
    mkRow "Alarm" true "alarm_sound" (Reads AlarmSound);
    mkRow "Alarm" true "alarm_volume" VolumeText;
    mkRow "Alarm" true "alarm_volume_level" (Reads AlarmVolume);
    mkRow "Alarm" true "alarm_duration" (Reads AlarmDuration);
    mkRow "Alarm" true "test_alarm" Other;
    mkRow "Alarm" true "stop_alarm" Other;
    (* autooff.py:20-55 *)
    mkRow "AutoOff" true "auto_off_enabled" (Reads AutoOffEnabled);
    mkRow "AutoOff" true "auto_off_minutes" (Reads AutoOffDelay);
    mkRow "AutoOff" true "auto_off_at" Other;
    (* batterysensor.py:19-52 *)
    mkRow "BatterySensor" (has "at_low_battery" || has "is_low") "battery_low" (Reads BatteryLow);
    mkRow "BatterySensor" (has "battery_percentage") "battery_level" (Reads Battery);
    (* brightness.py:17-34, childlock.py:15-28, childprotection.py:15-28, smart/modules/childsetup.py:28-40 *)
    mkRow "Brightness" true "brightness" Other;
    mkRow "ChildLock" true "child_lock" (Reads ChildLockOn);
    mkRow "ChildProtection" true "child_lock" (Reads ChildProtectionOn);
    mkRow "ChildSetup" true "pair" Other;
    (* clean.py:80-224 *)
    mkRow "Clean" true "vacuum_return_home" Other;
    mkRow "Clean" true "vacuum_start" Other;
    mkRow "Clean" true "vacuum_pause" Other;
    mkRow "Clean" true "vacuum_status" Other;
    mkRow "Clean" true "vacuum_error" Other;
    mkRow "Clean" true "battery_level" (Reads CleanBattery);
    mkRow "Clean" true "vacuum_fan_speed" (Reads CleanSpeed);
    mkRow "Clean" true "clean_count" (Reads CleanCount);
    mkRow "Clean" true "carpet_boost" (Reads CleanBoost);
    mkRow "Clean" true "clean_area" (Reads CleanArea);
    mkRow "Clean" true "clean_time" (Reads CleanTime);
    mkRow "Clean" true "clean_progress" (Reads CleanProgress);
    (* cleanrecords.py:111-158 *)
    mkRow "CleanRecords" true "total_clean_area" Other;
    mkRow "CleanRecords" true "total_clean_time" Other;
    mkRow "CleanRecords" true "last_clean_area" Other;
    mkRow "CleanRecords" true "last_clean_time" Other;
    mkRow "CleanRecords" true "total_clean_count" Other;
    mkRow "CleanRecords" true "last_clean_timestamp" Other;
    (* cloud.py:16-29, color.py:15-28, colortemperature.py:21-35 *)
    mkRow "Cloud" true "cloud_connection" (Reads CloudConnected);
    mkRow "Color" true "hsv" Other;
    mkRow "ColorTemperature" true "color_temperature" (Reads ColorTemp) ].
(** consumables.py:91-135; [worn] is what [wear] gave *)
Definition rows_of_wear (worn : dict json) : list row :=
  flat_map (fun m : string * string =>
       let here := dmem (snd m) worn in
       [ mkRow "Consumables" here (fst m ++ "_used")%string Other;
         mkRow "Consumables" here (fst m ++ "_remaining")%string Other;
         mkRow "Consumables" here (fst m ++ "_reset")%string Other ]) metas.
Definition rows_from_contact : list row :=
  [ (* contactsensor.py:15-28, dustbin.py:30-70 *)
    mkRow "ContactSensor" true "is_open" (Reads ContactOpen);
    mkRow "Dustbin" true "dustbin_empty" Other;
    mkRow "Dustbin" true "dustbin_autocollection_enabled" (Reads DustAuto);
    mkRow "Dustbin" true "dustbin_mode" (Reads DustMode);
    (* interfaces/energy.py:35-117; CONSUMPTION_TOTAL is never supported here *)
    mkRow "Energy" true "current_consumption" (Reads EnergyNow);
    mkRow "Energy" true "consumption_today" (Reads EnergyToday);
    mkRow "Energy" true "consumption_this_month" (Reads EnergyMonth);
    mkRow "Energy" volts "voltage" (Reads EnergyVoltage);
    mkRow "Energy" volts "current" (Reads EnergyCurrent);
    (* fan.py:18-45, firmware.py:74-132 *)
    mkRow "Fan" true "fan_speed_level" (Reads FanSpeed);
    mkRow "Fan" true "fan_sleep_mode" (Reads FanSleep);
    mkRow "Firmware" (1 <? v_firmware f) "auto_update_enabled" (Reads AutoUpdate);
    mkRow "Firmware" true "update_available" Other;
    mkRow "Firmware" true "current_firmware_version" (Reads FirmwareVersion);
    mkRow "Firmware" true "available_firmware_version" Other;
    mkRow "Firmware" true "check_latest_firmware" Other;
    (* homekit.py:15-27, humiditysensor.py:15-41, interfaces/led.py:14-29 *)
    mkRow "HomeKit" true "homekit_setup_code" (Reads HomeKitCode);
    mkRow "HumiditySensor" true "humidity" (Reads Humidity);
    mkRow "HumiditySensor" true "humidity_warning" (Reads HumidityWarning);
    mkRow "Led" true "led" (Reads LedOn);
    (* interfaces/lighteffect.py:56-71, interfaces/lightpreset.py:86-101 *)
    mkRow "LightEffect" true "light_effect" Other;
    mkRow "LightPreset" true "light_preset" Other;
    (* lighttransition.py:50-92 *)
    mkRow "LightTransition" (negb (1 <? transition)) "smooth_transitions" Other;
    mkRow "LightTransition" (1 <? transition) "smooth_transition_on" Other;
    mkRow "LightTransition" (1 <? transition) "smooth_transition_off" Other;
    (* smart/modules/matter.py:15-38, mop.py:30-58, motionsensor.py:14-27, overheatprotection.py:14-27 *)
    mkRow "Matter" true "matter_setup_code" (Reads MatterCode);
    mkRow "Matter" true "matter_setup_payload" (Reads MatterPayload);
    mkRow "Mop" true "mop_attached" (Reads MopAttached);
    mkRow "Mop" true "mop_waterlevel" (Reads MopLevel);
    mkRow "MotionSensor" true "motion_detected" (Reads Motion);
    mkRow "OverheatProtection" true "overheated" (Reads Overheated);
    (* powerprotection.py:17-43, reportmode.py:15-28, speaker.py:20-45 *)
    mkRow "PowerProtection" true "overloaded" (Reads Overloaded);
    mkRow "PowerProtection" true "power_protection_threshold" (Reads ProtectionShown);
    mkRow "ReportMode" true "report_interval" (Reads ReportInterval);
    mkRow "Speaker" true "locate" Other;
    mkRow "Speaker" true "volume" (Reads Volume);
    (* temperaturecontrol.py:19-71, temperaturesensor.py:17-56 *)
    mkRow "TemperatureControl" true "target_temperature" (Reads ControlTarget);
    mkRow "TemperatureControl" true "temperature_offset" (Reads ControlOffset);
    mkRow "TemperatureControl" true "state" (Reads ControlState);
    mkRow "TemperatureControl" true "thermostat_mode" Other;
    mkRow "TemperatureSensor" true "temperature" (Reads Temperature);
    mkRow "TemperatureSensor" (has "current_temp_exception") "temperature_warning" (Reads TemperatureWarning);
    mkRow "TemperatureSensor" true "temperature_unit" (Reads TemperatureUnit);
    (* smart/modules/time.py:23-35, waterleaksensor.py:25-62 *)
    mkRow "Time" true "device_time" Other;
    mkRow "WaterleakSensor" true "water_leak" (Reads LeakStatus);
    mkRow "WaterleakSensor" true "water_alert" (Reads LeakAlert);
    mkRow "WaterleakSensor" true "water_alert_timestamp" Other ].
Definition rows (worn : dict json) : list row := rows_to_color ++ rows_of_wear worn ++ rows_from_contact.

(** The features of a module, in order; the others have none: module.py:217-226.  Only the one of
    the consumables looks at its data: consumables.py:94. *)
Definition feats (worn : dict json) (n : string) : list (string * getter) :=
  map (fun r => (r_id r, r_getter r)) (filter (fun r => String.eqb (r_module r) n && r_when r) (rows worn)).
Definition module_features (n : string) : res (list (string * getter)) :=
  let! worn := (if String.eqb n "Consumables" then wear else Ok []) in
  Ok (feats worn n).
(** The device's own, smartdevice.py:457-558 *)
Definition own_features : list (string * getter) :=
  [("device_id", Other)]
  ++ (if has "device_on" then [("state", Truth "device_on")] else [])
  ++ (if has "signal_level" then [("signal_level", Info "signal_level")] else [])
  ++ (if has "rssi" then [("rssi", Info "rssi")] else [])
  ++ (if has "ssid" then [("ssid", Other)] else [])
  ++ (if has "on_time" then [("on_since", Other)] else [])
  ++ [("reboot", Other)]
  ++ (if unpair then [("unpair", Other)] else []).

(** device.features after the first update, smartdevice.py:560-566, device.py:453-458.
    [Feats_Model.update_features] on the ids. *)
Fixpoint gathered (ms : list string) : res (list (string * getter)) :=
  match ms with
  | [] => Ok []
  | n :: ms => let! l := module_features n in let! r := gathered ms in Ok (l ++ r)
  end.
Definition first_features (ms : list string) : res (dict getter) :=
  let! _ := snd (update_features (map fst own_features)
                   (map (fun n => let! l := module_features n in Ok (map fst l)) ms) []) in
  let! l := gathered ms in
  Ok (own_features ++ l).

(** The value of a feature, for those with a getter known here: Feature.value, feature.py:231-242;
    smartdevice.py:487,500 and 709-712, smart/modules/alarm.py:163-168 *)
Definition value_of_feature (g : getter) : option (res value) :=
  match g with
  | Reads r => Some (read f own parent info r)
  | Info k => Some (sys info k)
  | Truth k => Some (Ok (Plain (JBool (match dget k info with Some v => truthy v | None => false end))))
  | VolumeText => Some (plain (let! d := at_ f own parent info MAlarm "get_alarm_configure" in dindex "volume" d))
  | Other => None
  end.
End Smart.

(** ** Cameras *)

(** A property of [CamRead_Model.cread], the opposite of whether the lens is masked
    (camera.py:51-56), or something else *)
Inductive cgetter := CReads (r : creading) | NotMasked | COther.
Section Camera.
(** [hub]: a child of a hub; [ms]: the modules there are *)
Variables (hub : bool) (own : dict reply) (info : dict json) (ms : list string).
(** A call of _add_feature: the module, the id and the getter *)
Definition cam_rows : list (string * (string * cgetter)) :=
  [ (* smartcam/modules/alarm.py:35-108 *)
    ("Alarm", ("alarm", CReads SirenActive));
    ("Alarm", ("alarm_sound", CReads SirenSound));
    ("Alarm", ("alarm_volume", CReads SirenVolume));
    ("Alarm", ("alarm_duration", CReads SirenDuration));
    ("Alarm", ("test_alarm", COther));
    ("Alarm", ("stop_alarm", COther));
    (* babycrydetection.py:23-36 *)
    ("BabyCryDetection", ("baby_cry_detection", CReads (SwitchOn babycry)));
    (* battery.py:18-84 *)
    ("Battery", ("battery_low", CReads Low));
    ("Battery", ("battery_level", CReads Percent));
    ("Battery", ("battery_temperature", CReads BatteryTemperature));
    ("Battery", ("battery_voltage", CReads Voltage));
    ("Battery", ("battery_charging", CReads Charging)) ]
  (* camera.py:35-49 *)
  ++ (if smem "LensMask" ms then [("Camera", ("state", NotMasked))] else [])
  ++ [ (* smartcam/modules/childsetup.py:29-41 *)
    ("ChildSetup", ("pair", COther));
    (* smartcam/modules/device.py:29-66; the rest under [self.rssi is not None], see [cam_features] *)
    ("devicemodule", ("device_id", COther));
    ("devicemodule", ("rssi", CReads Rssi));
    ("devicemodule", ("signal_level", CReads SignalLevel));
    (* interfaces/led.py:14-29, smartcam/modules/matter.py:16-39 *)
    ("Led", ("led", CReads (SwitchOn CamMod_Model.led)));
    ("Matter", ("matter_setup_code", CReads SetupCode));
    ("Matter", ("matter_setup_payload", CReads SetupPayload));
    (* motiondetection.py:23-36 *)
    ("MotionDetection", ("motion_detection", CReads (SwitchOn motion)));
    (* pantilt.py:19-89 *)
    ("PanTilt", ("pan_right", COther));
    ("PanTilt", ("pan_left", COther));
    ("PanTilt", ("pan_step", COther));
    ("PanTilt", ("tilt_up", COther));
    ("PanTilt", ("tilt_down", COther));
    ("PanTilt", ("tilt_step", COther));
    (* persondetection.py:23-36, petdetection.py:23-36, tamperdetection.py:23-36, smartcam/modules/time.py:26-38 *)
    ("PersonDetection", ("person_detection", CReads (SwitchOn person)));
    ("PetDetection", ("pet_detection", CReads (SwitchOn pet)));
    ("TamperDetection", ("tamper_detection", CReads (SwitchOn tamper)));
    ("Time", ("device_time", COther)) ].
Definition cam_feats (signal : bool) (n : string) : list (string * cgetter) :=
  map snd (filter (fun r => String.eqb (fst r) n
                            && (signal || negb (String.eqb (fst (snd r)) "rssi" || String.eqb (fst (snd r)) "signal_level")))
                  cam_rows).
(** self.rssi is looked up after device_id was added: smartcam/modules/device.py:41 *)
Definition cam_module_features (n : string) : res (list (string * cgetter)) :=
  let! signal := (if String.eqb n "devicemodule"
                  then let! v := cread hub own info Rssi in
                       Ok (match v with Plain JNull => false | _ => true end)
                  else Ok true) in
  Ok (cam_feats signal n).
Fixpoint cam_gathered (l : list string) : res (list (string * cgetter)) :=
  match l with
  | [] => Ok []
  | n :: l => let! x := cam_module_features n in let! r := cam_gathered l in Ok (x ++ r)
  end.
(** device.features after the first update, smartcamdevice.py:180-185, device.py:453-458 *)
Definition cam_first_features : res (dict cgetter) :=
  let! _ := snd (update_features [] (map (fun n => let! l := cam_module_features n in Ok (map fst l)) ms) []) in
  cam_gathered ms.
Definition cam_value (g : cgetter) : option (res value) :=
  match g with
  | CReads r => Some (cread hub own info r)
  | NotMasked =>
      Some (let! v := cread hub own info (SwitchOn lensmask) in
            Ok (match v with Plain j => Plain (JBool (negb (truthy j))) | v => v end))
  | COther => None
  end.
End Camera.

(** The features a device is to have and what each is to show: README.md and docs/source name them by
    their ids.  Independent of the model's functions. *)
From Verif Require Import Base Py Smod_Model CamMod_Model WholeCam_Spec Feats_Model Feats_Spec Read_Model Read_Spec CamRead_Model CamRead_Spec.
Open Scope string_scope.
Open Scope list_scope.
Open Scope Z_scope.

(** ** SMART devices *)

(** Features every device with the module has *)
Definition always : list (string * list string) :=
  [ ("Alarm", ["alarm"; "alarm_source"; "alarm_sound"; "alarm_volume"; "alarm_volume_level"; "alarm_duration"; "test_alarm"; "stop_alarm"]);
    ("AutoOff", ["auto_off_enabled"; "auto_off_minutes"; "auto_off_at"]);
    ("Brightness", ["brightness"]);
    ("ChildLock", ["child_lock"]);
    ("ChildProtection", ["child_lock"]);
    ("ChildSetup", ["pair"]);
    ("Clean", ["vacuum_return_home"; "vacuum_start"; "vacuum_pause"; "vacuum_status"; "vacuum_error"; "battery_level";
               "vacuum_fan_speed"; "clean_count"; "carpet_boost"; "clean_area"; "clean_time"; "clean_progress"]);
    ("CleanRecords", ["total_clean_area"; "total_clean_time"; "last_clean_area"; "last_clean_time"; "total_clean_count"; "last_clean_timestamp"]);
    ("Cloud", ["cloud_connection"]);
    ("Color", ["hsv"]);
    ("ColorTemperature", ["color_temperature"]);
    ("ContactSensor", ["is_open"]);
    ("Dustbin", ["dustbin_empty"; "dustbin_autocollection_enabled"; "dustbin_mode"]);
    ("Energy", ["current_consumption"; "consumption_today"; "consumption_this_month"]);
    ("Fan", ["fan_speed_level"; "fan_sleep_mode"]);
    ("Firmware", ["update_available"; "current_firmware_version"; "available_firmware_version"; "check_latest_firmware"]);
    ("HomeKit", ["homekit_setup_code"]);
    ("HumiditySensor", ["humidity"; "humidity_warning"]);
    ("Led", ["led"]);
    ("LightEffect", ["light_effect"]);
    ("LightPreset", ["light_preset"]);
    ("Matter", ["matter_setup_code"; "matter_setup_payload"]);
    ("Mop", ["mop_attached"; "mop_waterlevel"]);
    ("MotionSensor", ["motion_detected"]);
    ("OverheatProtection", ["overheated"]);
    ("PowerProtection", ["overloaded"; "power_protection_threshold"]);
    ("ReportMode", ["report_interval"]);
    ("Speaker", ["locate"; "volume"]);
    ("TemperatureControl", ["target_temperature"; "temperature_offset"; "state"; "thermostat_mode"]);
    ("TemperatureSensor", ["temperature"; "temperature_unit"]);
    ("Time", ["device_time"]);
    ("WaterleakSensor", ["water_leak"; "water_alert"; "water_alert_timestamp"]) ].
(** The parts of a vacuum that wear and the field that counts the hours of each *)
Definition parts : list (string * string) :=
  [("main_brush", "roll_brush_time"); ("side_brush", "edge_brush_time"); ("filter", "filter_time");
   ("sensor", "sensor_time"); ("charging_contacts", "charge_contact_time")].

(** A device that answers [w] is to have the feature [id] for its module [n]: [smooth] is the
    version of the gradual on and off, [f] the versions of the energy meter and the firmware. *)
Definition gives (f : facts) (smooth : Z) (w : answers) (n id : string) : Prop :=
  let told k := fld w "get_device_info" [k] <> None in
  (exists l, In (n, l) always /\ In id l)
  \/ (n = "BatterySensor" /\ (id = "battery_low" /\ (told "at_low_battery" \/ told "is_low")
                              \/ id = "battery_level" /\ told "battery_percentage"))
  \/ (n = "Consumables" /\ exists part hours, In (part, hours) parts /\ fld w "getConsumablesInfo" [hours] <> None
                           /\ In id [(part ++ "_used")%string; (part ++ "_remaining")%string; (part ++ "_reset")%string])
  \/ (n = "Energy" /\ 1 < v_energy f /\ fld w "get_emeter_data" ["voltage_mv"] <> None /\ In id ["voltage"; "current"])
  \/ (n = "Firmware" /\ 1 < v_firmware f /\ id = "auto_update_enabled")
  \/ (n = "LightTransition" /\ (smooth <= 1 /\ id = "smooth_transitions"
                                \/ 1 < smooth /\ In id ["smooth_transition_on"; "smooth_transition_off"]))
  \/ (n = "TemperatureSensor" /\ told "current_temp_exception" /\ id = "temperature_warning").
(** And without any module; [unpair]: it belongs to a hub that can let it go. *)
Definition gives_itself (unpair : bool) (w : answers) (id : string) : Prop :=
  In id ["device_id"; "reboot"] \/ (unpair = true /\ id = "unpair")
  \/ exists k, In (k, id) [("device_on", "state"); ("signal_level", "signal_level"); ("rssi", "rssi"); ("ssid", "ssid"); ("on_time", "on_since")]
               /\ fld w "get_device_info" [k] <> None.
(** The three pairs of things that are both named like one feature: the lock of the buttons as the
    component button_and_led and as child_protection, the battery of a sensor and of a vacuum, the
    switch of the device and of its heating. *)
Definition named_twice (e : env) : Prop :=
  In "button_and_led" (e_components e) /\ In "child_protection" (e_components e)
  \/ In "battery_detect" (e_components e) /\ dget "battery_percentage" (e_info e) <> None /\ In "clean" (e_components e)
  \/ In "temp_control" (e_components e) /\ dget "device_on" (e_info e) <> None.

(** What a feature shows: the module, the id, and the meaning for a device that answers [w] *)
Definition meanings (f : facts) (w : answers) : list (string * string * option value) :=
  let info k := fld w "get_device_info" [k] in
  let usage k := fld w "get_energy_usage" [k] in
  let newer k m := if 1 <? v_energy f then fld w m [k] else None in
  [ ("Alarm", "alarm", as_is (info "in_alarm"));
    ("Alarm", "alarm_source", mapped (fun v => Some (Plain (if truthy v then v else JNull))) (info "in_alarm_source"));
    ("Alarm", "alarm_sound", as_is (fld w "get_alarm_configure" ["type"]));
    ("Alarm", "alarm_volume", as_is (fld w "get_alarm_configure" ["volume"]));
    ("Alarm", "alarm_volume_level", mapped loudness (fld w "get_alarm_configure" ["volume"]));
    ("Alarm", "alarm_duration", as_is (fld w "get_alarm_configure" ["duration"]));
    ("AutoOff", "auto_off_enabled", as_is (fld w "get_auto_off_config" ["enable"]));
    ("AutoOff", "auto_off_minutes", as_is (fld w "get_auto_off_config" ["delay_min"]));
    ("BatterySensor", "battery_low", as_is (given (match info "at_low_battery" with Some v => Some v | None => info "is_low" end)));
    ("BatterySensor", "battery_level", as_is (info "battery_percentage"));
    ("ChildLock", "child_lock", as_is (fld w "getChildLockInfo" ["child_lock_status"]));
    ("ChildProtection", "child_lock", as_is (info "child_protection"));
    ("Clean", "battery_level", as_is (fld w "getBatteryInfo" ["battery_percentage"]));
    ("Clean", "vacuum_fan_speed", named speed_name (opt_bind (fld w "getCleanAttr" ["suction"]) whole_number));
    ("Clean", "clean_count", as_is (fld w "getCleanAttr" ["clean_number"]));
    ("Clean", "carpet_boost", yes_if (says "boost") (fld w "getCarpetClean" ["carpet_clean_prefer"]));
    ("Clean", "clean_area", as_is (fld w "getCleanInfo" ["clean_area"]));
    ("Clean", "clean_time", mapped (fun v => if number v then Some (Minutes v) else None) (fld w "getCleanInfo" ["clean_time"]));
    ("Clean", "clean_progress", as_is (fld w "getCleanInfo" ["clean_percent"]));
    ("Cloud", "cloud_connection", yes_if is_0 (fld w "get_connect_cloud_state" ["status"]));
    ("ColorTemperature", "color_temperature", as_is (info "color_temp"));
    ("ContactSensor", "is_open", as_is (info "open"));
    ("Dustbin", "dustbin_autocollection_enabled", as_is (fld w "getDustCollectionInfo" ["auto_dust_collection"]));
    ("Dustbin", "dustbin_mode", match fld w "getDustCollectionInfo" ["auto_dust_collection"] with
                                | None => None
                                | Some v => if no v then Some (Plain (JStr "Off"))
                                            else named dust_name (opt_bind (fld w "getDustCollectionInfo" ["dust_collection_mode"]) whole_number)
                                end);
    ("Energy", "current_consumption", match given (usage "current_power"), given (newer "power_mw" "get_emeter_data") with
                                      | Some v, _ => milli_of v
                                      | None, Some v => milli_of v
                                      | None, None => or_else JNull (newer "current_power" "get_current_power")
                                      end);
    ("Energy", "consumption_today", milli_or_none (usage "today_energy"));
    ("Energy", "consumption_this_month", milli_or_none (usage "month_energy"));
    ("Energy", "voltage", milli_or_none (newer "voltage_mv" "get_emeter_data"));
    ("Energy", "current", milli_or_none (newer "current_ma" "get_emeter_data"));
    ("Fan", "fan_speed_level", match info "device_on" with
                               | None => None
                               | Some v => if no v then Some (Plain (JInt 0)) else as_is (info "fan_speed_level")
                               end);
    ("Fan", "fan_sleep_mode", as_is (info "fan_sleep_mode_on"));
    ("Firmware", "auto_update_enabled", if 1 <? v_firmware f then or_else (JBool false) (fld w "get_auto_update_info" ["enable"])
                                        else Some (Plain (JBool false)));
    ("Firmware", "current_firmware_version", or_else JNull (info "fw_ver"));
    ("HomeKit", "homekit_setup_code", as_is (fld w "get_homekit_info" ["mfi_setup_code"]));
    ("HumiditySensor", "humidity", as_is (info "current_humidity"));
    ("HumiditySensor", "humidity_warning", yes_if (fun v => negb (is_0 v)) (info "current_humidity_exception"));
    ("Led", "led", yes_if (fun v => negb (says "never" v)) (fld w "get_led_info" ["led_rule"]));
    ("Matter", "matter_setup_code", as_is (fld w "get_matter_setup_info" ["setup_code"]));
    ("Matter", "matter_setup_payload", as_is (fld w "get_matter_setup_info" ["setup_payload"]));
    ("Mop", "mop_attached", as_is (fld w "getMopState" ["mop_state"]));
    ("Mop", "mop_waterlevel", named water_name (opt_bind (fld w "getCleanAttr" ["cistern"]) spelled_number));
    ("MotionSensor", "motion_detected", as_is (info "detected"));
    ("OverheatProtection", "overheated", match given (info "overheat_status") with
                                         | Some v => Some (Plain (JBool (negb (says "normal" v))))
                                         | None => as_is (info "overheated")
                                         end);
    ("PowerProtection", "overloaded", yes_if (says "overloaded") (info "power_protection_status"));
    ("PowerProtection", "power_protection_threshold",
       match fld w "get_protection_power" ["enabled"] with
       | None => None
       | Some v => if truthy v then or_else (JInt 0) (fld w "get_protection_power" ["protection_power"]) else Some (Plain (JInt 0))
       end);
    ("ReportMode", "report_interval", as_is (info "report_interval"));
    ("Speaker", "volume", as_is (fld w "getVolume" ["volume"]));
    ("TemperatureControl", "target_temperature", as_is (info "target_temp"));
    ("TemperatureControl", "temperature_offset", as_is (info "temp_offset"));
    ("TemperatureControl", "state", yes_if no (info "frost_protection_on"));
    ("TemperatureSensor", "temperature", as_is (info "current_temp"));
    ("TemperatureSensor", "temperature_warning",
       Some (Plain (JBool (match info "current_temp_exception" with Some v => negb (is_0 v) | None => false end))));
    ("TemperatureSensor", "temperature_unit", as_is (info "temp_unit"));
    ("WaterleakSensor", "water_leak",
       mapped (fun v => if says "normal" v || says "water_leak" v || says "water_dry" v then Some (Plain v) else None) (info "water_leak_status"));
    ("WaterleakSensor", "water_alert", as_is (info "in_alarm")) ].
Definition own_meanings (w : answers) : list (string * option value) :=
  let info k := fld w "get_device_info" [k] in
  [ ("state", yes_if truthy (info "device_on")); ("signal_level", as_is (info "signal_level")); ("rssi", as_is (info "rssi")) ].
(** The requests a module makes *)
Definition class_of : list (string * mname) :=
  [("Alarm", MAlarm); ("AutoOff", MAutoOff); ("BatterySensor", MBattery); ("ChildLock", MChildLock); ("ChildProtection", MChildProtection);
   ("Clean", MClean); ("Cloud", MCloud); ("ColorTemperature", MColorTemp); ("ContactSensor", MContact); ("Dustbin", MDustbin);
   ("Energy", MEnergy); ("Fan", MFan); ("Firmware", MFirmware); ("HomeKit", MHomeKit); ("HumiditySensor", MHumidity); ("Led", MLed);
   ("Matter", MMatter); ("Mop", MMop); ("MotionSensor", MMotion); ("OverheatProtection", MOverheat); ("PowerProtection", MPowerProtection);
   ("ReportMode", MReport); ("Speaker", MSpeaker); ("TemperatureControl", MThermostat); ("TemperatureSensor", MTempSensor);
   ("WaterleakSensor", MLeak)].
(** All of a module's requests were sent, and answered. *)
Definition complete (f : facts) (w : answers) (own : dict reply) (parent : option (dict reply)) (n : string) : Prop :=
  forall c, In (n, c) class_of -> updated w (query f c) own parent /\ answered w (query f c) (optional f c).

(** ** Cameras *)

Definition cam_always : list (string * list string) :=
  [ ("Alarm", ["alarm"; "alarm_sound"; "alarm_volume"; "alarm_duration"; "test_alarm"; "stop_alarm"]);
    ("BabyCryDetection", ["baby_cry_detection"]);
    ("Battery", ["battery_low"; "battery_level"; "battery_temperature"; "battery_voltage"; "battery_charging"]);
    ("ChildSetup", ["pair"]);
    ("devicemodule", ["device_id"]);
    ("Led", ["led"]);
    ("Matter", ["matter_setup_code"; "matter_setup_payload"]);
    ("MotionDetection", ["motion_detection"]);
    ("PanTilt", ["pan_right"; "pan_left"; "pan_step"; "tilt_up"; "tilt_down"; "tilt_step"]);
    ("PersonDetection", ["person_detection"]);
    ("PetDetection", ["pet_detection"]);
    ("TamperDetection", ["tamper_detection"]);
    ("Time", ["device_time"]) ].
(** [signal]: the camera tells the strength of its signal *)
Definition cam_gives (components : list string) (signal : Prop) (n id : string) : Prop :=
  (exists l, In (n, l) cam_always /\ In id l)
  \/ (n = "devicemodule" /\ signal /\ In id ["rssi"; "signal_level"])
  \/ (n = "Camera" /\ In "lensMask" components /\ id = "state").
(** What a feature shows, for a camera that answers [w] and whose basic information is [b] *)
Definition on_in (w : answers) (method part section : string) : option value :=
  yes_if (says "on") (within w method part [section; "enabled"]).
Definition cam_meanings (w : answers) (b : dict json) : list (string * string * option value) :=
  [ ("Alarm", "alarm", yes_if (fun v => negb (says "off" v)) (fld w "getSirenStatus" ["status"]));
    ("Alarm", "alarm_sound", as_is (fld w "getSirenConfig" ["siren_type"]));
    ("Alarm", "alarm_volume", mapped (fun v => option_map (fun z => Plain (JInt z)) (spelled_number v)) (fld w "getSirenConfig" ["volume"]));
    ("Alarm", "alarm_duration", as_is (fld w "getSirenConfig" ["duration"]));
    ("BabyCryDetection", "baby_cry_detection", on_in w "getBCDConfig" "sound_detection" "bcd");
    ("Battery", "battery_low", as_is (dget "low_battery" b));
    ("Battery", "battery_level", as_is (dget "battery_percent" b));
    ("Battery", "battery_temperature", as_is (dget "battery_temperature" b));
    ("Battery", "battery_voltage", mapped milli_of (dget "battery_voltage" b));
    ("Camera", "state", yes_if (fun v => negb (says "on" v)) (within w "getLensMaskConfig" "lens_mask" ["lens_mask_info"; "enabled"]));
    ("devicemodule", "rssi", or_else JNull (fld w "getConnectionType" ["rssiValue"]));
    ("devicemodule", "signal_level", or_else JNull (fld w "getConnectionType" ["rssi"]));
    ("Led", "led", on_in w "getLedStatus" "led" "config");
    ("Matter", "matter_setup_code", as_is (within w "getMatterSetupInfo" "matter" ["setup_code"]));
    ("Matter", "matter_setup_payload", as_is (within w "getMatterSetupInfo" "matter" ["setup_payload"]));
    ("MotionDetection", "motion_detection", on_in w "getDetectionConfig" "motion_detection" "motion_det");
    ("PersonDetection", "person_detection", on_in w "getPersonDetectionConfig" "people_detection" "detection");
    ("PetDetection", "pet_detection", on_in w "getPetDetectionConfig" "pet_detection" "detection");
    ("TamperDetection", "tamper_detection", on_in w "getTamperDetectionConfig" "tamper_detection" "tamper_det") ].
(** The requests of a module of a camera *)
Definition cam_class_of : list (string * cmodule) :=
  [("Alarm", GAlarm); ("BabyCryDetection", GSwitch babycry); ("Battery", GBattery); ("Camera", GSwitch lensmask); ("devicemodule", GDevice);
   ("Led", GSwitch CamMod_Model.led); ("Matter", GMatter); ("MotionDetection", GSwitch motion); ("PersonDetection", GSwitch person);
   ("PetDetection", GSwitch pet); ("TamperDetection", GSwitch tamper)].
Definition cam_complete (hub : bool) (w : answers) (own : dict reply) (n : string) : Prop :=
  forall c, In (n, c) cam_class_of -> holds w (cquery hub c) own /\ answered w (cquery hub c) [].

(** ** The first update *)

(** The device answers [w], and what its energy meter and its wearing parts tell has arrived. *)
Record settled (f : facts) (w : answers) (own : dict reply) (parent : option (dict reply)) (e : env) (r : option (Z * Z)) : Prop := {
  s_range : range_is (e_info e) r;
  s_proper : proper w;
  s_info : w "get_device_info" = RVal (JObj (e_info e));
  s_energy : offers e r "Energy" -> complete f w own parent "Energy";
  s_wear : offers e r "Consumables" -> updated w ["getConsumablesInfo"] own parent /\ answered w ["getConsumablesInfo"] [] }.

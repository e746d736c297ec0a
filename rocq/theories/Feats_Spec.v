(** What modules and features a device should have.  Independent of the
    model's functions. *)
From Verif Require Import Base Feats_Model.
Open Scope string_scope. Open Scope list_scope. Open Scope Z_scope.

(** The component a device advertises for a module *)
Definition component_for : list (string * string) :=
  [ ("Alarm", "alarm"); ("AutoOff", "auto_off"); ("BatterySensor", "battery_detect");
    ("Brightness", "brightness"); ("ChildDevice", "child_device");
    ("ChildLock", "button_and_led"); ("ChildProtection", "child_protection");
    ("ChildSetup", "child_quick_setup"); ("Clean", "clean");
    ("CleanRecords", "clean_percent"); ("Cloud", "cloud_connect"); ("Color", "color");
    ("ColorTemperature", "color_temperature"); ("Consumables", "consumables");
    ("DeviceModule", "device"); ("Dustbin", "dust_bucket");
    ("Energy", "energy_monitoring"); ("Fan", "fan_control"); ("Firmware", "firmware");
    ("FrostProtection", "frost_protection"); ("HomeKit", "homekit");
    ("HumiditySensor", "humidity"); ("Led", "led"); ("LightEffect", "light_effect");
    ("LightPreset", "preset"); ("LightEffect", "light_strip_lighting_effect");
    ("LightTransition", "on_off_gradually"); ("Matter", "matter"); ("Mop", "mop");
    ("MotionSensor", "sensitivity"); ("PowerProtection", "power_protection");
    ("ReportMode", "report_mode"); ("Speaker", "speaker");
    ("TemperatureControl", "temp_control"); ("TemperatureSensor", "temperature");
    ("Time", "time"); ("TriggerLogs", "trigger_log"); ("WaterleakSensor", "sensor_alarm") ].

(** A field of the device info that stands for a module by itself *)
Definition field_for : list (string * string) :=
  [ ("ContactSensor", "open"); ("OverheatProtection", "overheated");
    ("OverheatProtection", "overheat_status") ].

(** A field of the device info without which the module is not there *)
Definition also_needs : list (string * string) :=
  [ ("AutoOff", "auto_off_status"); ("Brightness", "brightness"); ("Energy", "device_on");
    ("Fan", "fan_speed_level"); ("LightPreset", "brightness");
    ("LightTransition", "brightness"); ("PowerProtection", "power_protection_status") ].

(** Modules a socket of a strip leaves to the strip *)
Definition parent_only : list string := ["DeviceModule"; "Time"; "Firmware"; "Cloud"].

(** The device info gives no range of colour temperatures, or a pair of numbers. *)
Definition range_is (info : dict json) (r : option (Z * Z)) : Prop :=
  match r with
  | None => dget "color_temp_range" info = None \/ dget "color_temp_range" info = Some JNull
  | Some (lo, hi) => dget "color_temp_range" info = Some (JArr [JInt lo; JInt hi])
  end.

(** A device described by [e], with that range, offers the elementary module [n]. *)
Definition offers_one (e : env) (r : option (Z * Z)) (n : string) : Prop :=
  ((exists c, In (n, c) component_for /\ In c (e_components e))
   \/ (exists k v, In (n, k) field_for /\ dget k (e_info e) = Some v /\ v <> JNull))
  /\ (forall k, In (n, k) also_needs -> dget k (e_info e) <> None)
  /\ (In n parent_only -> e_parent e <> Some false)
  /\ (n = "Time" -> e_parent e = None)
  /\ (n = "ColorTemperature" -> forall lo hi, r = Some (lo, hi) -> lo <> hi).

(** It offers the module [n], elementary or combined. *)
Definition offers (e : env) (r : option (Z * Z)) (n : string) : Prop :=
  offers_one e r n
  \/ n = "Light" /\ (offers_one e r "Brightness" \/ offers_one e r "Color"
                     \/ offers_one e r "ColorTemperature")
  \/ n = "Thermostat" /\ offers_one e r "TemperatureControl"
     /\ offers_one e r "TemperatureSensor".

(** Camera modules and the component each needs *)
Definition cam_component_for : list (string * string) :=
  [ ("Alarm", "siren"); ("BabyCryDetection", "babyCryDetection"); ("Battery", "battery");
    ("Camera", "video"); ("childdevice", "childControl"); ("ChildSetup", "childQuickSetup");
    ("HomeKit", "homekit"); ("Led", "led"); ("LensMask", "lensMask"); ("Matter", "matter");
    ("MotionDetection", "detection"); ("PanTilt", "ptz");
    ("PersonDetection", "personDetection"); ("PetDetection", "petDetection");
    ("TamperDetection", "tamperDetection") ].

Definition cam_offers (components : list string) (hub : bool) (n : string) : Prop :=
  n = "devicemodule" \/ n = "Time"
  \/ exists c, In (n, c) cam_component_for /\ In c components
               /\ (n = "childdevice" -> hub = true).

(** All the features one attempt would give: the device's own, then each
    module's, if none of the modules fails. *)
Inductive all_features (own : list string) : list (res (list string)) -> list string -> Prop :=
| all_none : all_features own [] own
| all_more mods ids fs : all_features own mods fs ->
    all_features own (mods ++ [Ok ids]) (fs ++ ids).

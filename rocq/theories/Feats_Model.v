(** Model of how a device decides which modules and which features it has:
    kasa/smart/smartdevice.py, kasa/smartcam/smartcamdevice.py,
    kasa/module.py and kasa/device.py.  No proofs. *)
From Verif Require Import Base Py.
Open Scope string_scope. Open Scope list_scope. Open Scope Z_scope.

(** ** Which modules exist *)

(** What the decision looks at: the names of the negotiated components
    (_parse_components, smartdevice.py:201-205), the device info, and the
    parent: [None] without a parent, [Some h] with one, [h] telling whether
    its device type is Hub. *)
Record env := mkEnv {
  e_components : list string;
  e_info : dict json;
  e_parent : option bool
}.

(** The kinds of _check_supported found in kasa/smart/modules:
    the default (smartmodule.py, returns True), a key of the device info
    (autooff.py:99-105, brightness.py:78-80, energy.py:164-167, fan.py:77-79,
    lightpreset.py:168-176, lighttransition.py:256-260,
    powerprotection.py:119-124), the colour temperature range
    (colortemperature.py:73-75) and not being the child of a hub
    (time.py:86-93). *)
Inductive check :=
| CTrue
| CKey (k : string)
| CRange
| CNoHub.

(** A registered module class: the key it is stored under, REQUIRED_COMPONENT,
    SYSINFO_LOOKUP_KEYS, membership in NON_HUB_PARENT_ONLY_MODULES
    (smartdevice.py:42) and the support check. *)
Record mclass := mkClass {
  c_name : string;
  c_component : option string;
  c_keys : list string;
  c_parent_only : bool;
  c_check : check
}.

Definition plain (n c : string) : mclass := mkClass n (Some c) [] false CTrue.
Definition keyed (n c k : string) : mclass := mkClass n (Some c) [] false (CKey k).

(** SmartModule.REGISTERED_MODULES, filled in import order
    (smart/modules/__init__.py:1-50, smartmodule.py:82-87).  LightStripEffect
    overrides its name with "LightEffect" (lightstripeffect.py:26-34). *)
Definition smart_registry : list mclass :=
  [ plain "Alarm" "alarm";
    keyed "AutoOff" "auto_off" "auto_off_status";
    plain "BatterySensor" "battery_detect";
    keyed "Brightness" "brightness" "brightness";
    plain "ChildDevice" "child_device";
    plain "ChildLock" "button_and_led";
    plain "ChildProtection" "child_protection";
    plain "ChildSetup" "child_quick_setup";
    plain "Clean" "clean";
    plain "CleanRecords" "clean_percent";
    mkClass "Cloud" (Some "cloud_connect") [] true CTrue;
    plain "Color" "color";
    mkClass "ColorTemperature" (Some "color_temperature") [] false CRange;
    plain "Consumables" "consumables";
    mkClass "ContactSensor" None ["open"] false CTrue;
    mkClass "DeviceModule" (Some "device") [] true CTrue;
    plain "Dustbin" "dust_bucket";
    keyed "Energy" "energy_monitoring" "device_on";
    keyed "Fan" "fan_control" "fan_speed_level";
    mkClass "Firmware" (Some "firmware") [] true CTrue;
    plain "FrostProtection" "frost_protection";
    plain "HomeKit" "homekit";
    plain "HumiditySensor" "humidity";
    plain "Led" "led";
    mkClass "Light" None [] false CTrue;
    plain "LightEffect" "light_effect";
    keyed "LightPreset" "preset" "brightness";
    plain "LightEffect" "light_strip_lighting_effect";
    keyed "LightTransition" "on_off_gradually" "brightness";
    plain "Matter" "matter";
    plain "Mop" "mop";
    plain "MotionSensor" "sensitivity";
    mkClass "OverheatProtection" None ["overheated"; "overheat_status"] false CTrue;
    keyed "PowerProtection" "power_protection" "power_protection_status";
    plain "ReportMode" "report_mode";
    plain "Speaker" "speaker";
    plain "TemperatureControl" "temp_control";
    plain "TemperatureSensor" "temperature";
    mkClass "Thermostat" None [] false CTrue;
    mkClass "Time" (Some "time") [] true CNoHub;
    plain "TriggerLogs" "trigger_log";
    plain "WaterleakSensor" "sensor_alarm" ].

(** a == b on the two ends of a range; nested lists and objects are treated as
    different. *)
Definition ends_equal (a b : json) : bool :=
  match as_int a, as_int b with
  | Some x, Some y => x =? y
  | None, None => match a, b with
                  | JStr s, JStr t | JFloat s, JFloat t => String.eqb s t
                  | JNull, JNull => true
                  | _, _ => false
                  end
  | _, _ => false
  end.

(** ColorTemperature.valid_temperature_range and _check_supported,
    colortemperature.py:43-53,73-75; DEFAULT_TEMP_RANGE is [2500, 6500]. *)
Definition range_varies (info : dict json) : res bool :=
  match dget "color_temp_range" info with
  | None | Some JNull => Ok true
  | Some v =>
      let! l := jiter v in
      match l with
      | [a; b] => Ok (negb (ends_equal a b))
      | _ => Err PyTypeError
      end
  end.

(** module._check_supported() *)
Definition check_supported (e : env) (c : check) : res bool :=
  match c with
  | CTrue => Ok true
  | CKey k => Ok (dmem k (e_info e))
  | CRange => range_varies (e_info e)
  | CNoHub => Ok (match e_parent e with Some true => false | _ => true end)
  end.

(** sys_info.get(key) is not None *)
Definition reported (e : env) (k : string) : bool :=
  match dget k (e_info e) with None | Some JNull => false | Some _ => true end.

(** The conditions of the loop body, smartdevice.py:421-439; [None in
    self._components] is false because component names are strings. *)
Definition wanted (e : env) (m : mclass) : bool :=
  negb (match e_parent e with Some false => c_parent_only m | _ => false end)
  && (match c_component m with Some c => smem c (e_components e) | None => false end
      || existsb (reported e) (c_keys m)).

(** self._modules[name] = module: a new key goes last, an old one keeps its
    place. *)
Definition put (n : string) (ms : list string) : list string :=
  if smem n ms then ms else ms ++ [n].

(** The loop over the registry, smartdevice.py:420-439. *)
Fixpoint add_modules (e : env) (cs : list mclass) : M (list string) unit :=
  match cs with
  | [] => mret tt
  | m :: rest =>
      do! _ <- (if wanted e m
                then do! ok <- mlift (check_supported e (c_check m)) ;;
                     (if ok : bool then fun ms => (put (c_name m) ms, Ok tt) else mret tt)
                else mret tt) ;;
      add_modules e rest
  end.

(** OrderedDict.move_to_end(key, last=False) *)
Definition to_front (n : string) (ms : list string) : list string :=
  if smem n ms then n :: filter (fun x => negb (String.eqb x n)) ms else ms.

(** The combined modules and the reordering, smartdevice.py:441-455. *)
Definition add_combined (ms : list string) : list string :=
  let ms := if smem "Brightness" ms || smem "Color" ms || smem "ColorTemperature" ms
            then put "Light" ms else ms in
  let ms := if smem "TemperatureControl" ms && smem "TemperatureSensor" ms
            then put "Thermostat" ms else ms in
  to_front "Time" ms.

(** SmartDevice._initialize_modules, smartdevice.py:404-455 *)
Definition init_modules (e : env) : M (list string) unit :=
  do! _ <- add_modules e smart_registry ;;
  fun ms => (add_combined ms, Ok tt).

(** SmartCamModule.REGISTERED_MODULES: key and REQUIRED_COMPONENT
    (smartcam/modules/__init__.py:1-20). *)
Definition cam_registry : list (string * option string) :=
  [ ("Alarm", Some "siren"); ("BabyCryDetection", Some "babyCryDetection");
    ("Battery", Some "battery"); ("Camera", Some "video");
    ("childdevice", Some "childControl"); ("ChildSetup", Some "childQuickSetup");
    ("devicemodule", None); ("HomeKit", Some "homekit"); ("Led", Some "led");
    ("LensMask", Some "lensMask"); ("Matter", Some "matter");
    ("MotionDetection", Some "detection"); ("PanTilt", Some "ptz");
    ("PersonDetection", Some "personDetection"); ("PetDetection", Some "petDetection");
    ("TamperDetection", Some "tamperDetection"); ("Time", None) ].

(** SmartCamDevice._initialize_modules, smartcamdevice.py:168-178; the only
    check is ChildDevice's (childdevice.py:27-29): the device is a hub. *)
Definition cam_modules (components : list string) (hub : bool) : list string :=
  map fst
    (filter (fun m => match snd m with Some c => smem c components | None => true end
                      && (negb (String.eqb (fst m) "childdevice") || hub))
            cam_registry).

(** ** Which features exist *)

(** Device._add_feature, device.py:453-458 *)
Definition add_feature (id : string) : M (list string) unit :=
  fun fs => if smem id fs then (fs, Err KKasa) else (fs ++ [id], Ok tt).

Fixpoint add_all (ids : list string) : M (list string) unit :=
  match ids with
  | [] => mret tt
  | i :: rest => do! _ <- add_feature i ;; add_all rest
  end.

(** for module in self.modules.values(): module._initialize_features(); add
    each of its features (smartdevice.py:563-566, smartcamdevice.py:180-185,
    iotdevice.py:390-393).  What a module's own _initialize_features does is
    given: the identifiers it defines, or the exception it raises. *)
Fixpoint add_module_features (mods : list (res (list string))) : M (list string) unit :=
  match mods with
  | [] => mret tt
  | r :: rest =>
      do! ids <- mlift r ;;
      do! _ <- add_all ids ;;
      add_module_features rest
  end.

(** The device's own features, then those of its modules *)
Definition init_features (own : list string) (mods : list (res (list string)))
  : M (list string) unit :=
  do! _ <- add_all own ;; add_module_features mods.

(** if not self._features: await self._initialize_features()
    (smartdevice.py:293-294, smartchilddevice.py:114-115, iotdevice.py:328-329) *)
Definition update_features (own : list string) (mods : list (res (list string)))
  : M (list string) unit :=
  fun fs => match fs with [] => init_features own mods [] | _ => (fs, Ok tt) end.

(** SmartDevice._initialize_features up to the module loop,
    smartdevice.py:457-558; [unpair] tells that there is a parent which has
    the child setup module. *)
Definition smart_own (info : dict json) (unpair : bool) : list string :=
  let opt (k id : string) := if dmem k info then [id] else [] in
  ["device_id"] ++ opt "device_on" "state" ++ opt "signal_level" "signal_level"
  ++ opt "rssi" "rssi" ++ opt "ssid" "ssid" ++ opt "on_time" "on_since"
  ++ ["reboot"] ++ (if unpair then ["unpair"] else []).

(** Repeated updates; what the modules would define may differ each time. *)
Fixpoint updates (tries : list (list string * list (res (list string)))) (fs : list string)
  : list string * list (res unit) :=
  match tries with
  | [] => (fs, [])
  | (own, mods) :: rest =>
      let (fs', r) := update_features own mods fs in
      let (fs'', rs) := updates rest fs' in
      (fs'', r :: rs)
  end.

(** ** Finding the feature behind an attribute *)

(** A feature: its identifier and the names its getter and setter go by (a
    lambda goes by no name). *)
Record feat := mkFeat {
  f_id : string;
  f_getter : option string;
  f_setter : option string
}.

(** What the class says about an attribute: no such attribute, not bound to a
    feature, or bound with FeatureAttribute(feature_name). *)
Inductive attr :=
| ANone
| AFree
| ABound (feature_name : option string).

Definition goes_by (a : string) (o : option string) : bool :=
  match o with Some n => String.eqb n a | None => false end.

(** _get_bound_feature without the cache, module.py:266-308 *)
Definition bound_feature (cls : string -> attr) (fs : list feat) (a : string)
  : res (option feat) :=
  match cls a with
  | ANone | AFree => Err KKasa
  | ABound (Some n) => Ok (find (fun f => String.eqb (f_id f) n) fs)
  | ABound None => Ok (find (fun f => goes_by a (f_getter f) || goes_by a (f_setter f)) fs)
  end.

(** The functools.cache around it, module.py:268: a result, not an exception,
    is kept for ever.  The cache of one module, by attribute name. *)
Definition get_feature (cls : string -> attr) (fs : list feat) (a : string)
  : M (dict (option feat)) (option feat) :=
  fun cache =>
    match dget a cache with
    | Some r => (cache, Ok r)
    | None => match bound_feature cls fs a with
              | Ok r => (dset a r cache, Ok r)
              | Err e => (cache, Err e)
              end
    end.

(** Lookups over the life of a module: each with the features there are then. *)
Fixpoint lookups (cls : string -> attr) (qs : list (list feat * string))
    (cache : dict (option feat)) : dict (option feat) :=
  match qs with
  | [] => cache
  | (fs, a) :: rest => lookups cls rest (fst (get_feature cls fs a cache))
  end.

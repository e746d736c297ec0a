(** The deprecated names: attributes of a device that moved to its modules (kasa/device.py:512-638), of
    the light and energy modules (interfaces/light.py:175-213, interfaces/energy.py:177-194), and
    names of the package (kasa/__init__.py:80-128).  No proofs. *)
From Verif Require Import Base Py.
Open Scope string_scope.
Open Scope list_scope.

(** ** The module classes that take over old names *)
Inductive mclass := IotLight | SmartLight | IotEffect | BulbEffect | StripEffect | IotPreset | SmartPreset
                  | Emeter | StripEmeter | SmartEnergy | IotLed | SmartLed | CamLed.
(** dir(module) as far as the old and new names go: the names the class or its bases define.
    iot/modules/light.py:95-232, smart/modules/light.py:37-115, iot/modules/lighteffect.py:13-126,
    smart/modules/lighteffect.py:63-183 with smart/effects.py:15-31,
    smart/modules/lightstripeffect.py:38-181, iot/modules/lightpreset.py:68-169,
    smart/modules/lightpreset.py:76-157, iot/modules/emeter.py:32-107 on usage.py:56-102,
    iot/iotstrip.py:195-307, smart/modules/energy.py:69-162, and the three led.py *)
Definition own (c : mclass) : list string :=
  match c with
  | IotLight => ["brightness"; "set_brightness"; "hsv"; "set_hsv"; "color_temp"; "set_color_temp";
                 "has_feature"; "set_state"; "state"; "_deprecated_set_light_state"]
  | SmartLight => ["brightness"; "set_brightness"; "hsv"; "set_hsv"; "color_temp"; "set_color_temp";
                   "has_feature"; "set_state"; "state"]
  | IotEffect => ["effect"; "effect_list"; "brightness"; "set_effect"; "set_custom_effect";
                  "has_custom_effects"; "_deprecated_effect"; "_deprecated_effect_list"]
  | BulbEffect => ["effect"; "effect_list"; "brightness"; "set_brightness"; "is_active"; "set_effect";
                   "set_custom_effect"; "has_custom_effects"]
  | StripEffect => ["effect"; "effect_list"; "brightness"; "set_brightness"; "is_active"; "set_effect";
                    "set_custom_effect"; "has_custom_effects"; "_deprecated_effect"; "_deprecated_effect_list"]
  | IotPreset => ["preset_list"; "preset_states_list"; "preset"; "set_preset"; "has_save_preset";
                  "save_preset"; "_deprecated_presets"; "_deprecated_save_preset"]
  | SmartPreset => ["preset_list"; "preset_states_list"; "preset"; "set_preset"; "has_save_preset"; "save_preset"]
  | Emeter => ["status"; "get_status"; "consumption_today"; "consumption_this_month"; "current_consumption";
               "consumption_total"; "current"; "voltage"; "erase_stats"; "get_daily_stats"; "get_monthly_stats";
               "get_daystat"; "get_monthstat"; "usage_today"; "usage_this_month"]
  | StripEmeter => ["status"; "get_status"; "consumption_today"; "consumption_this_month"; "current_consumption";
                    "consumption_total"; "current"; "voltage"; "erase_stats"; "get_daily_stats"; "get_monthly_stats"]
  | SmartEnergy => ["status"; "get_status"; "consumption_today"; "consumption_this_month"; "current_consumption";
                    "consumption_total"; "current"; "voltage"; "erase_stats"; "get_daily_stats"; "get_monthly_stats";
                    "energy"; "_deprecated_get_realtime"]
  | IotLed | SmartLed | CamLed => ["led"; "set_led"; "mode"]
  end.
Definition is_light (c : mclass) : bool := match c with IotLight | SmartLight => true | _ => false end.
Definition is_energy (c : mclass) : bool := match c with Emeter | StripEmeter | SmartEnergy => true | _ => false end.

(** DeviceType, device_type.py:8-28 *)
Inductive dtype := Plug | Bulb | Strip | Camera | WallSwitch | StripSocket | Dimmer | LightStrip | Sensor
                 | Hub | Fan | ThermostatType | Vacuum | Chime | Doorbell | Unknown.
(** The keys of Device.modules, by their Module names *)
Inductive mname := MLight | MLed | MEffect | MPreset | MEnergy.

Section Reading.
  Variable V : Type.
  (** What is got: a value of an attribute, or one made here *)
  Inductive got := GVal (v : V) | GBool (b : bool) | GRange (lo hi : Z) | GModules.
  (** A device: its type, the names its class defines, its modules; reading an attribute that is
      defined (of the device, of a module) gives a value or raises; the features of its light, by the
      attribute asked for, with their bounds *)
  Record dev := mkDev {
    d_type : dtype;
    d_own : list string;
    d_mods : mname -> option mclass;
    d_read : string -> res got;
    m_read : mname -> string -> res got;
    l_feature : string -> option (Z * Z) }.
  (** What a read gives and the names warned about on the way *)
  Definition answer := (res got * list string)%type.
  Definition no_attribute : answer := (Err PyAttributeError, []).
  (** Looking up an attribute: what is defined is read; if it is not defined, or reading it raises
      AttributeError, __getattr__ is asked *)
  Definition lookup (names : list string) (rd : string -> res got) (getattr : string -> answer) (a : string) : answer :=
    if smem a names
    then match rd a with Err PyAttributeError => getattr a | r => (r, []) end
    else getattr a.

  (** has_feature of the light, as answered by its features *)
  Definition light_has (d : dev) (a : string) : bool := match l_feature d a with Some _ => true | None => false end.
  Definition has_module (d : dev) (m : mname) : bool := match d_mods d m with Some _ => true | None => false end.
  (** Light._deprecated_valid_temperature_range, interfaces/light.py:175-178 *)
  Definition temperature_range (d : dev) : res got :=
    match l_feature d "color_temp" with Some (lo, hi) => Ok (GRange lo hi) | None => Err KKasa end.
  (** Light._deprecated_attributes, interfaces/light.py:180-186 *)
  Definition light_old : dict string :=
    [("is_color", "hsv"); ("is_dimmable", "brightness"); ("is_variable_color_temp", "color_temp")].
  (** Light.__getattr__, interfaces/light.py:190-213 *)
  Definition light_getattr (d : dev) (a : string) : answer :=
    if String.eqb a "valid_temperature_range" then (temperature_range d, [a])
    else if String.eqb a "has_effects" then (Ok (GBool (has_module d MEffect)), [a])
    else match dget a light_old with
         | Some f => (Ok (GBool (light_has d f)), [a])
         | None => no_attribute
         end.
  (** Energy._deprecated_attributes, interfaces/energy.py:177-185 *)
  Definition energy_old : dict string :=
    [("emeter_today", "consumption_today"); ("emeter_this_month", "consumption_this_month");
     ("realtime", "status"); ("get_realtime", "get_status"); ("erase_emeter_stats", "erase_stats");
     ("get_daystat", "get_daily_stats"); ("get_monthstat", "get_monthly_stats")].
  (** Energy.__getattr__, interfaces/energy.py:189-194.  getattr(self, attr): the new names are defined
      by every energy class, and none of them is an old name, so the second lookup ends *)
  Definition energy_getattr (d : dev) (c : mclass) (a : string) : answer :=
    match dget a energy_old with
    | Some n => let '(r, w) := lookup (own c) (m_read d MEnergy) (fun _ => no_attribute) n in (r, a :: w)
    | None => no_attribute
    end.
  (** getattr(module, a) *)
  Definition module_get (d : dev) (m : mname) (c : mclass) (a : string) : answer :=
    lookup (own c) (m_read d m)
      (fun a => if is_light c then light_getattr d a
                else if is_energy c then energy_getattr d c a else no_attribute) a.

  (** ** The device, device.py:512-638 *)
  Definition type_names : dict dtype :=
    [("is_bulb", Bulb); ("is_dimmer", Dimmer); ("is_light_strip", LightStrip); ("is_plug", Plug);
     ("is_wallswitch", WallSwitch); ("is_strip", Strip); ("is_strip_socket", StripSocket)].
  Definition dtype_eqb (a b : dtype) : bool :=
    match a, b with
    | Plug, Plug | Bulb, Bulb | Strip, Strip | Camera, Camera | WallSwitch, WallSwitch
    | StripSocket, StripSocket | Dimmer, Dimmer | LightStrip, LightStrip | Sensor, Sensor | Hub, Hub
    | Fan, Fan | ThermostatType, ThermostatType | Vacuum, Vacuum | Chime, Chime | Doorbell, Doorbell
    | Unknown, Unknown => true
    | _, _ => false
    end.
  (** _get_replacing_attr, device.py:523-538, for a module: the first name in dir of it *)
  Fixpoint first_in (names attrs : list string) : option string :=
    match attrs with
    | [] => None
    | a :: r => if smem a names then Some a else first_in names r
    end.
  Definition replacing_attr (d : dev) (m : mname) (attrs : list string) : option string :=
    match d_mods d m with None => None | Some c => first_in (own c) attrs end.
  (** _get_deprecated_callable_attribute, device.py:540-576: None when the name is not one of these *)
  Definition callable_attribute (d : dev) (a : string) : option answer :=
    let via (v : dev -> res got) :=
      Some (match d_mods d MLight with None => Err PyAttributeError | Some _ => v d end, [a]) in
    if String.eqb a "is_dimmable" then via (fun d => Ok (GBool (light_has d "brightness")))
    else if String.eqb a "is_color" then via (fun d => Ok (GBool (light_has d "hsv")))
    else if String.eqb a "is_variable_color_temp" then via (fun d => Ok (GBool (light_has d "color_temp")))
    else if String.eqb a "valid_temperature_range" then via temperature_range
    else if String.eqb a "has_effects" then via (fun d => Ok (GBool (has_module d MEffect)))
    else None.
  (** _deprecated_other_attributes, device.py:582-612; no module: the device itself *)
  Definition other_names : dict (option mname * list string) :=
    [("brightness", (Some MLight, ["brightness"]));
     ("set_brightness", (Some MLight, ["set_brightness"]));
     ("hsv", (Some MLight, ["hsv"]));
     ("set_hsv", (Some MLight, ["set_hsv"]));
     ("color_temp", (Some MLight, ["color_temp"]));
     ("set_color_temp", (Some MLight, ["set_color_temp"]));
     ("_deprecated_set_light_state", (Some MLight, ["has_effects"]));
     ("led", (Some MLed, ["led"]));
     ("set_led", (Some MLed, ["set_led"]));
     ("effect", (Some MEffect, ["_deprecated_effect"; "effect"]));
     ("effect_list", (Some MEffect, ["_deprecated_effect_list"; "effect_list"]));
     ("set_effect", (Some MEffect, ["set_effect"]));
     ("set_custom_effect", (Some MEffect, ["set_custom_effect"]));
     ("presets", (Some MPreset, ["_deprecated_presets"; "preset_states_list"]));
     ("save_preset", (Some MPreset, ["_deprecated_save_preset"]));
     ("get_emeter_realtime", (Some MEnergy, ["get_status"]));
     ("emeter_realtime", (Some MEnergy, ["status"]));
     ("emeter_today", (Some MEnergy, ["consumption_today"]));
     ("emeter_this_month", (Some MEnergy, ["consumption_this_month"]));
     ("current_consumption", (Some MEnergy, ["current_consumption"]));
     ("get_emeter_daily", (Some MEnergy, ["get_daily_stats"]));
     ("get_emeter_monthly", (Some MEnergy, ["get_monthly_stats"]));
     ("supported_modules", (None, ["modules"]))].
  (** Device.__getattr__, device.py:616-638.  The device's own modules attribute is always there *)
  Definition device_getattr (d : dev) (a : string) : answer :=
    match dget a type_names with
    | Some t => (Ok (GBool (dtype_eqb (d_type d) t)), [a])
    | None =>
        match callable_attribute d a with
        | Some r => r
        | None =>
            match dget a other_names with
            | Some (None, _) => (Ok GModules, [a])
            | Some (Some m, attrs) =>
                match replacing_attr d m attrs, d_mods d m with
                | Some n, Some c => let '(r, w) := module_get d m c n in (r, a :: w)
                | _, _ => no_attribute
                end
            | None => no_attribute
            end
        end
    end.
  (** getattr(device, a) *)
  Definition device_get (d : dev) (a : string) : answer := lookup (d_own d) (d_read d) (device_getattr d) a.
  (** hasattr(device, a): AttributeError is the answer no, any other exception comes through *)
  Definition device_has (d : dev) (a : string) : res bool :=
    match fst (device_get d a) with
    | Ok _ => Ok true
    | Err PyAttributeError => Ok false
    | Err e => Err e
    end.
End Reading.
Arguments GVal {V}. Arguments GBool {V}. Arguments GRange {V}. Arguments GModules {V}.
Arguments mkDev {V}. Arguments d_type {V}. Arguments d_own {V}. Arguments d_mods {V}. Arguments d_read {V}.
Arguments m_read {V}. Arguments l_feature {V}.
Arguments lookup {V}. Arguments module_get {V}. Arguments device_get {V}. Arguments device_has {V}.
Arguments light_has {V}. Arguments has_module {V}. Arguments temperature_range {V}.
Arguments light_getattr {V}. Arguments energy_getattr {V}. Arguments device_getattr {V}.
Arguments callable_attribute {V}. Arguments replacing_attr {V}. Arguments no_attribute {V}.

(** ** Calling the statistics under their old names *)
(** The parameters of the methods, all keyword only: usage.py:80-98, emeter.py:84-103,
    iotstrip.py:221-246, smart/modules/energy.py:149-162, interfaces/energy.py:162-175 *)
Definition parameters (c : mclass) (a : string) : list string :=
  if String.eqb a "get_daystat" then ["year"; "month"]
  else if String.eqb a "get_monthstat" then ["year"]
  else if String.eqb a "get_daily_stats" then ["year"; "month"; "kwh"]
  else if String.eqb a "get_monthly_stats" then ["year"; "kwh"]
  else [].
(** The method an energy module runs for a name: its own, else the one the old name stands for *)
Definition method_for (c : mclass) (a : string) : option string :=
  if smem a (own c) then Some a
  else match dget a energy_old with
       | Some n => if smem n (own c) then Some n else None
       | None => None
       end.
(** A call with keyword arguments: the method that runs, or the error of Python for an argument the
    method does not take *)
Definition call_stats (c : mclass) (a : string) (kw : list string) : res string :=
  match method_for c a with
  | None => Err PyAttributeError
  | Some m => if forallb (fun k => smem k (parameters c m)) kw then Ok m else Err PyTypeError
  end.

(** ** Names of the package, __init__.py:80-128 *)
Inductive class := IotDevice | IotPlug | IotBulb | IotLightStrip | IotStrip | IotDimmer | IotLightPreset
                 | KasaException | UnsupportedDeviceError | AuthenticationError | TimeoutError
                 | DeviceConnectionParameters | DeviceEncryptionType | DeviceFamily | OldProtocol.
Definition deprecated_names : list string := ["TPLinkSmartHomeProtocol"].
Definition deprecated_smart_devices : dict class :=
  [("SmartDevice", IotDevice); ("SmartPlug", IotPlug); ("SmartBulb", IotBulb); ("SmartLightStrip", IotLightStrip);
   ("SmartStrip", IotStrip); ("SmartDimmer", IotDimmer); ("SmartBulbPreset", IotLightPreset)].
Definition deprecated_classes : dict class :=
  [("SmartDeviceException", KasaException); ("UnsupportedDeviceException", UnsupportedDeviceError);
   ("AuthenticationException", AuthenticationError); ("TimeoutException", TimeoutError);
   ("ConnectionType", DeviceConnectionParameters); ("EncryptType", DeviceEncryptionType);
   ("DeviceFamilyType", DeviceFamily)].
(** kasa.__getattr__, __init__.py:108-128 *)
Definition package_getattr (a : string) : res class * list string :=
  if smem a deprecated_names then (Ok OldProtocol, [a])
  else match dget a deprecated_smart_devices with
       | Some k => (Ok k, [a])
       | None => match dget a deprecated_classes with
                 | Some k => (Ok k, [a])
                 | None => (Err PyAttributeError, [])
                 end
       end.

(** What the old names should mean.  docs/source/deprecated.md:9-12: apart from the listed breaking
    changes "all changes are backwards compatible, and you will get a deprecation warning". *)
From Verif Require Import Base Py Old_Model.
Open Scope string_scope.
Open Scope list_scope.

(** The classes found under each key of Device.modules *)
Definition belongs (m : mname) (c : mclass) : Prop :=
  match m with
  | MLight => In c [IotLight; SmartLight]
  | MEffect => In c [IotEffect; BulbEffect; StripEffect]
  | MPreset => In c [IotPreset; SmartPreset]
  | MEnergy => In c [Emeter; StripEmeter; SmartEnergy]
  | MLed => In c [IotLed; SmartLed; CamLed]
  end.
Definition well_formed {V} (d : dev V) : Prop := forall m c, d_mods d m = Some c -> belongs m c.

(** Attributes of the device that moved to a module: old name, module, new name *)
Definition moved : list (string * (mname * string)) :=
  [("brightness", (MLight, "brightness")); ("set_brightness", (MLight, "set_brightness"));
   ("hsv", (MLight, "hsv")); ("set_hsv", (MLight, "set_hsv"));
   ("color_temp", (MLight, "color_temp")); ("set_color_temp", (MLight, "set_color_temp"));
   ("led", (MLed, "led")); ("set_led", (MLed, "set_led"));
   ("set_effect", (MEffect, "set_effect")); ("set_custom_effect", (MEffect, "set_custom_effect"));
   ("get_emeter_realtime", (MEnergy, "get_status")); ("emeter_realtime", (MEnergy, "status"));
   ("emeter_today", (MEnergy, "consumption_today")); ("emeter_this_month", (MEnergy, "consumption_this_month"));
   ("current_consumption", (MEnergy, "current_consumption"));
   ("get_emeter_daily", (MEnergy, "get_daily_stats")); ("get_emeter_monthly", (MEnergy, "get_monthly_stats"))].
(** Attributes whose value changed its shape: classes that keep the old shape for old names, and what
    the others answer with.  The comments at device.py:594-603 *)
Definition reshaped (c : mclass) (old : string) : option (mname * string) :=
  match c with
  | IotEffect | StripEffect =>
      if String.eqb old "effect" then Some (MEffect, "_deprecated_effect")
      else if String.eqb old "effect_list" then Some (MEffect, "_deprecated_effect_list") else None
  | BulbEffect =>
      if String.eqb old "effect" then Some (MEffect, "effect")
      else if String.eqb old "effect_list" then Some (MEffect, "effect_list") else None
  | IotPreset => if String.eqb old "presets" then Some (MPreset, "_deprecated_presets")
                 else if String.eqb old "save_preset" then Some (MPreset, "_deprecated_save_preset") else None
  | SmartPreset => if String.eqb old "presets" then Some (MPreset, "preset_states_list") else None
  | _ => None
  end.
(** Questions about the light: CHANGELOG.md:67, each with the attribute that needs the ability *)
Definition questions : list (string * string) :=
  [("is_color", "hsv"); ("is_dimmable", "brightness"); ("is_variable_color_temp", "color_temp")].
(** Questions about the type *)
Definition type_question (a : string) (t : dtype) : Prop :=
  In (a, t) [("is_bulb", Bulb); ("is_dimmer", Dimmer); ("is_light_strip", LightStrip); ("is_plug", Plug);
             ("is_wallswitch", WallSwitch); ("is_strip", Strip); ("is_strip_socket", StripSocket)].
(** Old names of the energy module *)
Definition energy_moved : list (string * string) :=
  [("emeter_today", "consumption_today"); ("emeter_this_month", "consumption_this_month");
   ("realtime", "status"); ("get_realtime", "get_status"); ("erase_emeter_stats", "erase_stats");
   ("get_daystat", "get_daily_stats"); ("get_monthstat", "get_monthly_stats")].
(** Every old name of a device *)
Definition old_names : list string :=
  List.map fst moved ++ ["effect"; "effect_list"; "presets"; "save_preset"; "_deprecated_set_light_state";
    "supported_modules"; "is_color"; "is_dimmable"; "is_variable_color_temp"; "valid_temperature_range"; "has_effects";
    "is_bulb"; "is_dimmer"; "is_light_strip"; "is_plug"; "is_wallswitch"; "is_strip"; "is_strip_socket"].
(** The module an old name needs *)
Definition needs (a : string) (m : mname) : Prop :=
  (exists n, In (a, (m, n)) moved) \/
  (m = MEffect /\ In a ["effect"; "effect_list"]) \/
  (m = MPreset /\ In a ["presets"; "save_preset"]) \/
  (m = MLight /\ In a ["is_color"; "is_dimmable"; "is_variable_color_temp"; "valid_temperature_range"; "has_effects"]).
(** The old names of the package and the classes they were renamed to *)
Definition package_renamed : list (string * class) :=
  [("TPLinkSmartHomeProtocol", OldProtocol);
   ("SmartDevice", IotDevice); ("SmartPlug", IotPlug); ("SmartBulb", IotBulb); ("SmartLightStrip", IotLightStrip);
   ("SmartStrip", IotStrip); ("SmartDimmer", IotDimmer); ("SmartBulbPreset", IotLightPreset);
   ("SmartDeviceException", KasaException); ("UnsupportedDeviceException", UnsupportedDeviceError);
   ("AuthenticationException", AuthenticationError); ("TimeoutException", TimeoutError);
   ("ConnectionType", DeviceConnectionParameters); ("EncryptType", DeviceEncryptionType);
   ("DeviceFamilyType", DeviceFamily)].

(** Asking a module whether an attribute of it can be used: has_feature and get_feature of
    kasa/module.py, the attributes marked for it in the module classes, and the features these
    declare.  No proofs. *)
From Verif Require Import Base Py.
Open Scope string_scope.
Open Scope list_scope.

(** attribute_getter and attribute_setter of a feature: none, a name, or a function *)
Inductive accessor := Nothing | Named (s : string) | Code.
Record feat := mkFeat { f_get : accessor; f_set : accessor }.
(** What marks a return type, module.py:81-88: an instance without a name, with the id of a feature,
    or the bare class, which is no instance *)
Inductive note := Plain | Of (id : string) | Bare.
(** What is asked: by name, or with the property or method itself (its name and its mark) *)
Inductive query := ByName (s : string) | ByObject (s : string) (n : option note).

(** _get_feature_attribute, module.py:249-262: only instances count *)
Definition feature_attribute (n : option note) : option note :=
  match n with Some Bare | None => None | Some n => Some n end.
(** getter in check, for a getter that is set; a function given by hand is never one of a feature *)
Definition uses (a : accessor) (name : string) : bool :=
  match a with Named s => String.eqb s name | _ => false end.
(** _get_bound_feature, module.py:266-308, without the cache.  [attrs]: the attributes of the module's
    class and their marks; [feats]: _all_features, in order *)
Definition bound_feature (attrs : dict (option note)) (feats : dict feat) (q : query) : res (option (string * feat)) :=
  let! who := match q with
              | ByObject s n => Ok (s, n)
              | ByName s => match dget s attrs with Some n => Ok (s, n) | None => Err KKasa end
              end in
  match feature_attribute (snd who) with
  | None => Err KKasa
  | Some (Of id) => Ok (option_map (fun f => (id, f)) (dget id feats))
  | Some _ => Ok (find (fun kf => uses (f_get (snd kf)) (fst who) || uses (f_set (snd kf)) (fst who)) feats)
  end.

(** ** The module classes with marked attributes *)
Inductive kind := SmartLight | IotLight | Thermostat | Fan | Alarm | CamAlarm | Clean | Mop | Speaker
                | Battery | Records | Protection | Camera.
(** The device: the names of its modules, the keys of its information, and for a legacy light whether
    it is dimmable, has a variable colour temperature and colours *)
Record facts := mkFacts { x_has : string -> bool; x_says : string -> bool;
                          x_dim : bool; x_temp : bool; x_color : bool }.
Definition both (g s : string) : feat := mkFeat (Named g) (Named s).
Definition getter (g : string) : feat := mkFeat (Named g) Nothing.
Definition action (s : string) : feat := mkFeat Nothing (Named s).
Definition given (b : bool) (d : dict feat) : dict feat := if b then d else [].
(** _add_feature, module.py:235-240, for ids that differ; _all_features, module.py:191-194; of the
    composed modules smart/modules/light.py:21-31 and thermostat.py:17-25, whose parts declare
    brightness.py:17-34, color.py:15-28, colortemperature.py:21-35, temperaturecontrol.py:19-71 and
    temperaturesensor.py:17-56.  iot/modules/light.py:32-76, fan.py:18-45, alarm.py:40-137,
    smartcam/modules/alarm.py:33-108, clean.py:80-224, mop.py:30-58, speaker.py:20-45,
    batterysensor.py:19-52, cleanrecords.py:111-158, powerprotection.py:17-43,
    smartcam/modules/camera.py:35-49 *)
Definition features_of (k : kind) (x : facts) : dict feat :=
  match k with
  | SmartLight =>
      given (x_has x "Brightness") [("brightness", both "brightness" "set_brightness")] ++
      given (x_has x "Color") [("hsv", both "hsv" "set_hsv")] ++
      given (x_has x "ColorTemperature") [("color_temperature", both "color_temp" "set_color_temp")]
  | IotLight =>
      given (x_dim x) [("brightness", both "brightness" "set_brightness")] ++
      given (x_temp x) [("color_temperature", both "color_temp" "set_color_temp")] ++
      given (x_color x) [("hsv", both "hsv" "set_hsv")]
  | Thermostat =>
      given (x_has x "TemperatureControl")
        [("target_temperature", both "target_temperature" "set_target_temperature");
         ("temperature_offset", both "temperature_offset" "set_temperature_offset");
         ("state", both "state" "set_state"); ("thermostat_mode", getter "mode")] ++
      given (x_has x "TemperatureSensor")
        ([("temperature", getter "temperature")] ++
         given (x_says x "current_temp_exception") [("temperature_warning", getter "temperature_warning")] ++
         [("temperature_unit", both "temperature_unit" "set_temperature_unit")])
  | Fan => [("fan_speed_level", both "fan_speed_level" "set_fan_speed_level"); ("fan_sleep_mode", both "sleep_mode" "set_sleep_mode")]
  | Alarm => [("alarm", getter "active"); ("alarm_source", getter "source"); ("alarm_sound", both "alarm_sound" "set_alarm_sound");
              ("alarm_volume", both "_alarm_volume_str" "set_alarm_volume");
              ("alarm_volume_level", both "alarm_volume" "set_alarm_volume");
              ("alarm_duration", both "alarm_duration" "set_alarm_duration");
              ("test_alarm", action "play"); ("stop_alarm", action "stop")]
  | CamAlarm => [("alarm", getter "active"); ("alarm_sound", both "alarm_sound" "set_alarm_sound");
                 ("alarm_volume", both "alarm_volume" "set_alarm_volume");
                 ("alarm_duration", both "alarm_duration" "set_alarm_duration");
                 ("test_alarm", action "play"); ("stop_alarm", action "stop")]
  | Clean => [("vacuum_return_home", action "return_home"); ("vacuum_start", action "start"); ("vacuum_pause", action "pause");
              ("vacuum_status", getter "status"); ("vacuum_error", getter "error"); ("battery_level", getter "battery");
              ("vacuum_fan_speed", both "fan_speed_preset" "set_fan_speed_preset"); ("clean_count", both "clean_count" "set_clean_count");
              ("carpet_boost", both "carpet_boost" "set_carpet_boost"); ("clean_area", getter "clean_area");
              ("clean_time", getter "clean_time"); ("clean_progress", getter "clean_progress")]
  | Mop => [("mop_attached", getter "mop_attached"); ("mop_waterlevel", both "waterlevel" "set_waterlevel")]
  | Speaker => [("locate", action "locate"); ("volume", both "volume" "set_volume")]
  | Battery =>
      given (x_says x "at_low_battery" || x_says x "is_low") [("battery_low", getter "battery_low")] ++
      given (x_says x "battery_percentage") [("battery_level", getter "battery")]
  | Records => [("total_clean_area", getter "total_clean_area"); ("total_clean_time", getter "total_clean_time");
                ("last_clean_area", getter "last_clean_area"); ("last_clean_time", getter "last_clean_time");
                ("total_clean_count", getter "total_clean_count"); ("last_clean_timestamp", getter "last_clean_timestamp")]
  | Protection => [("overloaded", getter "overloaded");
                   ("power_protection_threshold", both "_threshold_or_zero" "_set_threshold_auto_enable")]
  | Camera => given (x_has x "LensMask") [("state", both "is_on" "set_state")]
  end.
(** The attributes of the classes and their marks: smart/modules/light.py:37-115 and 117-150,
    iot/modules/light.py:95-225, thermostat.py:31-74, fan.py:51-75, alarm.py:138-236,
    smartcam/modules/alarm.py:110-185, clean.py:268-411 (the mark of set_fan_speed_preset, 318-320, is
    the class), mop.py:67-90, speaker.py:53-67, batterysensor.py:58-72, cleanrecords.py:166-205,
    powerprotection.py:49-117, smartcam/modules/camera.py:51-124.  Only those without a mark that are
    public are listed. *)
Definition attrs_of (k : kind) : dict (option note) :=
  let plain := map (fun s => (s, Some Plain)) in
  let unmarked := map (fun s : string => (s, @None note)) in
  match k with
  | SmartLight => plain ["hsv"; "color_temp"; "brightness"; "set_hsv"; "set_color_temp"; "set_brightness"] ++ unmarked ["set_state"; "state"]
  | IotLight => plain ["brightness"; "set_brightness"; "hsv"; "set_hsv"; "color_temp"; "set_color_temp"] ++ unmarked ["set_state"; "state"]
  | Thermostat => plain ["target_temperature"; "set_target_temperature"; "temperature"] ++
                  unmarked ["state"; "set_state"; "mode"; "temperature_unit"; "set_temperature_unit"]
  | Fan => plain ["fan_speed_level"; "set_fan_speed_level"; "sleep_mode"; "set_sleep_mode"]
  | Alarm => plain ["alarm_sound"; "set_alarm_sound"] ++
             [("alarm_volume", Some (Of "alarm_volume_level")); ("_alarm_volume_str", Some (Of "alarm_volume"))] ++
             plain ["set_alarm_volume"; "alarm_duration"; "set_alarm_duration"] ++
             unmarked ["alarm_sounds"; "active"; "source"; "play"; "stop"]
  | CamAlarm => plain ["alarm_sound"; "set_alarm_sound"; "alarm_volume"; "set_alarm_volume"; "alarm_duration"; "set_alarm_duration"] ++
                unmarked ["alarm_sounds"; "active"; "play"; "stop"]
  | Clean => plain ["fan_speed_preset"; "clean_area"; "clean_count"; "set_clean_count"] ++ [("set_fan_speed_preset", Some Bare)] ++
             unmarked ["start"; "pause"; "resume"; "set_pause"; "return_home"; "set_return_home"; "error"; "battery"; "status";
                       "carpet_boost"; "set_carpet_boost"; "area_unit"; "clean_time"; "clean_progress"]
  | Mop => plain ["waterlevel"; "set_waterlevel"] ++ unmarked ["mop_attached"]
  | Speaker => plain ["volume"; "set_volume"] ++ unmarked ["locate"]
  | Battery => plain ["battery"; "battery_low"]
  | Records => plain ["total_clean_area"; "last_clean_area"] ++
               unmarked ["total_clean_time"; "total_clean_count"; "last_clean_time"; "last_clean_timestamp"; "area_unit"; "parsed_data"]
  | Protection => [("protection_threshold", Some (Of "power_protection_threshold"))] ++
                  unmarked ["overloaded"; "enabled"; "set_enabled"; "set_protection_threshold"]
  | Camera => plain ["set_state"] ++ unmarked ["is_on"; "stream_rtsp_url"; "onvif_url"]
  end.

(** ** The cache, module.py:264: results, not failures, are kept for ever by module and question.
    Objects are told apart by their name and mark. *)
Definition note_eqb (a b : option note) : bool :=
  match a, b with
  | None, None | Some Plain, Some Plain | Some Bare, Some Bare => true
  | Some (Of i), Some (Of j) => String.eqb i j
  | _, _ => false
  end.
Definition query_eqb (a b : query) : bool :=
  match a, b with
  | ByName s, ByName t => String.eqb s t
  | ByObject s n, ByObject t o => String.eqb s t && note_eqb n o
  | _, _ => false
  end.
Record state := mkState { s_ready : bool; s_cache : list (nat * query * option (string * feat)) }.
Definition cached (c : list (nat * query * option (string * feat))) (m : nat) (q : query) : option (option (string * feat)) :=
  match find (fun e => Nat.eqb (fst (fst e)) m && query_eqb (snd (fst e)) q) c with
  | Some e => Some (snd e) | None => None
  end.
Section Modules.
(** The modules of the device, numbered *)
Variable modules : nat -> kind * facts.
(** The modules are made before the first request for their data, their features at the end of the
    first update that succeeds: smartdevice.py:271-294, iotdevice.py:296-314 *)
Definition present (ready : bool) (m : nat) : dict feat :=
  if ready then features_of (fst (modules m)) (snd (modules m)) else [].
(** get_feature, module.py:200-202 *)
Definition get_feature (m : nat) (q : query) (s : state) : state * res (option (string * feat)) :=
  match cached (s_cache s) m q with
  | Some r => (s, Ok r)
  | None =>
      match bound_feature (attrs_of (fst (modules m))) (present (s_ready s) m) q with
      | Ok r => (mkState (s_ready s) ((m, q, r) :: s_cache s), Ok r)
      | Err e => (s, Err e)
      end
  end.
(** has_feature, module.py:196-198 *)
Definition has_feature (m : nat) (q : query) (s : state) : res bool :=
  let! r := snd (get_feature m q s) in Ok (match r with Some _ => true | None => false end).
(** An event: a question, or an update; [true]: the update got as far as making the features *)
Inductive event := Ask (m : nat) (q : query) | Updated (done : bool).
Definition step (s : state) (e : event) : state :=
  match e with
  | Ask m q => fst (get_feature m q s)
  | Updated done => mkState (s_ready s || done) (s_cache s)
  end.
Definition run (h : list event) : state := fold_left step h (mkState false []).
End Modules.

(** Device.is_color, is_dimmable, is_variable_color_temp, device.py:540-588: the light module is asked;
    without one, AttributeError *)
Definition old_names : dict string :=
  [("is_dimmable", "brightness"); ("is_color", "hsv"); ("is_variable_color_temp", "color_temp")].
Definition old_light_fact (modules : nat -> kind * facts) (light : option nat) (name : string) (s : state) : res bool :=
  match dget name old_names with
  | None => Err PyAttributeError
  | Some a => match light with None => Err PyAttributeError | Some m => has_feature modules m (ByName a) s end
  end.

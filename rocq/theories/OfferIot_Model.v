(** The modules each kind of legacy device has and the features they add in the first update:
    _initialize_modules and _initialize_features of kasa/iot/*.py and kasa/iot/modules/*.py,
    kasa/interfaces/*.py.  Names, icons, units, ranges and categories of features are left out.
    The list of features a device names ("feature" in its system information) is a text.
    No proofs. *)
From Coq Require Import QArith.
From Verif Require Import Base Py Factory_Model DevType_Model Emeter_Model Feats_Model Read_Model IotUpd_Model WholeIot_Model IotRead_Model.
Open Scope string_scope.
Open Scope list_scope.
Open Scope Z_scope.

(** IotPlug, IotWallSwitch, IotDimmer, IotBulb, IotLightStrip, IotStrip with its sockets, IotStripPlug *)
Inductive lkind := PlugK | WallK | DimmerK | BulbK | LightStripK | StripK | SocketK.
Definition is_bulb (k : lkind) : bool := match k with BulbK | LightStripK => true | _ => false end.
Definition is_strip (k : lkind) : bool := match k with StripK => true | _ => false end.

(** A module: its name (module.py:101-147), the key of its replies, and whether it asks anything *)
Record lmod := mkLM { lm_name : string; lm_key : string; lm_asks : bool }.
(** has_emeter, iotdevice.py:291-295, with _parse_features, iotdevice.py:68-70 and 459-463 *)
Definition has_meter (sys : dict json) : bool :=
  match dget "feature" sys with Some (JStr s) => smem "ENE" (split ":"%char s) | _ => false end.
(** emeter_type, iotdevice.py:183, iotbulb.py:202, iotstrip.py:99; StripEmeter asks nothing, iotstrip.py:195-197 *)
Definition meter_key (k : lkind) : string := if is_bulb k then "smartlife.iot.common.emeter" else "emeter".
Definition meter (k : lkind) : lmod := mkLM "Energy" (meter_key k) (negb (is_strip k)).
(** iotdevice.py:331-337 *)
Definition base_mods (k : lkind) (sys : dict json) : list lmod := if has_meter sys then [meter k] else [].
(** iotplug.py:58-66 *)
Definition plug_mods (k : lkind) (sys : dict json) : list lmod :=
  base_mods k sys ++
  [mkLM "schedule" "schedule" true; mkLM "usage" "schedule" true; mkLM "anti_theft" "anti_theft" true; mkLM "Time" "time" true;
   mkLM "cloud" "cnCloud" true; mkLM "Led" "system" false].
Definition sensors : list lmod := [mkLM "motion" "smartlife.iot.PIR" true; mkLM "ambient" "smartlife.iot.LAS" true].
(** LIGHT_SERVICE, iotbulb.py:200, iotlightstrip.py:46 *)
Definition light_key (k : lkind) : string :=
  match k with LightStripK => "smartlife.iot.lightStrip" | _ => "smartlife.iot.smartbulb.lightingservice" end.
(** iotbulb.py:214-229 *)
Definition bulb_mods (k : lkind) (sys : dict json) : list lmod :=
  base_mods k sys ++
  [mkLM "schedule" "smartlife.iot.common.schedule" true; mkLM "usage" "smartlife.iot.common.schedule" true;
   mkLM "anti_theft" "smartlife.iot.common.anti_theft" true; mkLM "Time" "smartlife.iot.common.timesetting" true;
   meter k; mkLM "countdown" "countdown" true; mkLM "cloud" "smartlife.iot.common.cloud" true;
   mkLM "Light" (light_key k) false; mkLM "LightPreset" (light_key k) false].
(** The calls of add_module: iotplug.py:98-104, iotdimmer.py:83-91, iotlightstrip.py:60-66, iotstrip.py:102-116, 333-340 *)
Definition adds (k : lkind) (sys : dict json) : res (list lmod) :=
  match k with
  | PlugK => Ok (plug_mods k sys)
  | WallK =>
      let! n := dindex "dev_name" sys in
      let! pir := (if truthy n then jcontains "PIR" n else Ok false) in
      Ok (plug_mods k sys ++ if pir : bool then sensors else [])
  | DimmerK => Ok (plug_mods k sys ++ sensors ++ [mkLM "dimmer" "smartlife.iot.dimmer" true; mkLM "Light" "light" false])
  | BulbK => Ok (bulb_mods k sys)
  | LightStripK => Ok (bulb_mods k sys ++ [mkLM "LightEffect" "smartlife.iot.lighting_effect" false])
  | StripK =>
      Ok ([mkLM "anti_theft" "anti_theft" true; mkLM "schedule" "schedule" true; mkLM "usage" "schedule" true; mkLM "Time" "time" true;
           mkLM "countdown" "countdown" true; mkLM "Led" "system" false; mkLM "cloud" "cnCloud" true] ++ base_mods k sys)
  | SocketK =>
      Ok (base_mods k sys ++ [mkLM "usage" "schedule" true; mkLM "anti_theft" "anti_theft" true; mkLM "schedule" "schedule" true;
                              mkLM "countdown" "countdown" true])
  end.
(** add_module, iotdevice.py:215-222: a name that is there is ignored *)
Fixpoint add_mods (l ms : list lmod) : list lmod :=
  match l with
  | [] => ms
  | m :: l => add_mods l (if existsb (fun x => String.eqb (lm_name x) (lm_name m)) ms then ms else ms ++ [m])
  end.
Definition legacy_mods (k : lkind) (sys : dict json) : res (list lmod) := let! l := adds k sys in Ok (add_mods l []).

Section Update.
(** After the queries of the first update: _last_update and the system information; [rest] is what the
    hooks of the modules Time, Light and LightPreset give (time.py:25-30, light.py:209-224, lightpreset.py:54-66) *)
Variables (k : lkind) (lu : dict (dict json)) (sys : dict json) (rest : res unit).
(** is_supported, iotmodule.py:69-76, led.py:34-37, iotdevice.py:427-434 *)
Definition is_there (m : lmod) : bool :=
  if String.eqb (lm_name m) "Led" then dmem "led_off" sys
  else match dget (lm_key m) lu with
       | None => true
       | Some d => negb (dmem "err_code" (if lm_asks m then d else sys))
       end.
(** _post_update_hook of Emeter, emeter.py:15-31: whether it reports a voltage, whether a total *)
Definition meter_hook : res (bool * bool) :=
  match dget (meter_key k) lu with
  | None => Err KKasa
  | Some d =>
      let! r := dindex "get_realtime" d in
      let! mv := jcontains "voltage_mv" r in
      let! v := jcontains "voltage" r in
      let! wh := jcontains "total_wh" r in
      let! t := jcontains "total" r in
      Ok (mv || v, wh || t)
  end.
(** iotdevice.py:325-326, iotstrip.py:386-387: the hooks of all modules, also of those that are not
    supported; a strip supports all, iotstrip.py:184-188 *)
Definition hooks (ms : list lmod) : res (bool * bool) :=
  let! f := (if is_strip k then Ok (true, true)
             else if existsb (fun m => String.eqb (lm_name m) "Energy") ms then meter_hook
             else Ok (false, false)) in
  let! _ := rest in
  Ok f.

(** What a feature reads: a reading of [IotRead_Model], the relay (iotplug.py:68-72), the signal
    (iotdevice.py:560-565), a quantity of the meter, or something else *)
Inductive lgetter := LReads (r : lreading) | Relay | Signal | Meter (item : string) | LOther.
(** The conditions the features stand under *)
Record conds := mkC { c_volt : bool; c_total : bool; c_pir : bool; c_dim : bool; c_temp : bool; c_color : bool }.
Record lrow := mkR { lr_module : string; lr_when : bool; lr_id : string; lr_getter : lgetter }.
Definition lrows (c : conds) : list lrow :=
  [ (* interfaces/energy.py:35-117 *)
    mkR "Energy" true "current_consumption" (Meter "power");
    mkR "Energy" true "consumption_today" LOther;
    mkR "Energy" true "consumption_this_month" LOther;
    mkR "Energy" (c_total c) "consumption_total" (Meter "total");
    mkR "Energy" (c_volt c) "voltage" (Meter "voltage");
    mkR "Energy" (c_volt c) "current" (Meter "current");
    (* cloud.py:32-45, interfaces/led.py:14-29, ambientlight.py:14-41 *)
    mkR "cloud" true "cloud_connection" (LReads CloudOnline);
    mkR "Led" true "led" (LReads LedLit);
    mkR "ambient" true "ambient_light_enabled" (LReads AmbientOn);
    mkR "ambient" true "ambient_light" (LReads AmbientBrightness);
    (* dimmer.py:42-147 *)
    mkR "dimmer" true "dimmer_threshold_min" (LReads DimThreshold);
    mkR "dimmer" true "dimmer_fade_off_time" (LReads DimFadeOff);
    mkR "dimmer" true "dimmer_fade_on_time" (LReads DimFadeOn);
    mkR "dimmer" true "dimmer_gentle_off_time" (LReads DimGentleOff);
    mkR "dimmer" true "dimmer_gentle_on_time" (LReads DimGentleOn);
    mkR "dimmer" true "dimmer_ramp_rate" (LReads DimRamp);
    (* motion.py:94-249 *)
    mkR "motion" (c_pir c) "pir_enabled" (LReads MotionOn);
    mkR "motion" (c_pir c) "pir_range" (LReads MotionRange);
    mkR "motion" (c_pir c) "pir_threshold" (LReads MotionThreshold);
    mkR "motion" (c_pir c) "pir_triggered" LOther;
    mkR "motion" (c_pir c) "pir_value" (LReads MotionValue);
    mkR "motion" (c_pir c) "pir_adc_value" (LReads MotionAdc);
    mkR "motion" (c_pir c) "pir_adc_min" (LReads MotionMin);
    mkR "motion" (c_pir c) "pir_adc_mid" (LReads MotionMid);
    mkR "motion" (c_pir c) "pir_adc_max" (LReads MotionMax);
    mkR "motion" (c_pir c) "pir_percent" LOther;
    (* light.py:31-78, interfaces/lightpreset.py:86-101, interfaces/lighteffect.py:56-71 *)
    mkR "Light" (c_dim c) "brightness" LOther;
    mkR "Light" (c_temp c) "color_temperature" LOther;
    mkR "Light" (c_color c) "hsv" LOther;
    mkR "LightPreset" true "light_preset" LOther;
    mkR "LightEffect" true "light_effect" LOther ].
(** motion.py:96-107 *)
Definition motion_there : res bool :=
  match dget "smartlife.iot.PIR" lu with
  | None => Err KKasa
  | Some d =>
      if negb (dmem "get_config" d) then Ok false
      else if negb (dmem "get_adc_value" d) then Ok false
      else let! c := dindex "get_config" d in jcontains "enable" c
  end.
(** _is_dimmable, _is_variable_color_temp, _is_color: iotbulb.py:231-250, iotdimmer.py:222-238 *)
Definition light_there : res (bool * (bool * bool)) :=
  if is_bulb k then
    let! d := dindex "is_dimmable" sys in
    let! t := dindex "is_variable_color_temp" sys in
    let! c := dindex "is_color" sys in
    Ok (truthy d, (truthy t, truthy c))
  else Ok (dmem "brightness" sys, (false, false)).
Definition lfeats (c : conds) (n : string) : list (string * lgetter) :=
  map (fun r => (lr_id r, lr_getter r)) (filter (fun r => String.eqb (lr_module r) n && lr_when r) (lrows c)).
(** _initialize_features of the module [n]; [f] is what the hook of the meter left *)
Definition lmodule_features (f : bool * bool) (n : string) : res (list (string * lgetter)) :=
  let! pir := (if String.eqb n "motion" then motion_there else Ok false) in
  let! l := (if String.eqb n "Light" then light_there else Ok (false, (false, false))) in
  Ok (lfeats (mkC (fst f) (snd f) pir (fst l) (fst (snd l)) (snd (snd l))) n).
(** iotdevice.py:339-388, iotstrip.py:342-366 *)
Definition lown : list (string * lgetter) :=
  let state := ("state", match k with PlugK | WallK | DimmerK => Relay | _ => LOther end) in
  match k with
  | SocketK => [state; ("on_since", LOther)]
  | _ => [state; ("rssi", Signal)] ++ (if dmem "on_time" sys || is_strip k then [("on_since", LOther)] else []) ++ [("reboot", LOther)]
  end.
Fixpoint lgathered (f : bool * bool) (ns : list string) : res (list (string * lgetter)) :=
  match ns with
  | [] => Ok []
  | n :: ns => let! l := lmodule_features f n in let! r := lgathered f ns in Ok (l ++ r)
  end.
(** device.features after the first update, iotdevice.py:319-329, 390-393, device.py:453-458;
    [ms] are the modules there are.  [Feats_Model.update_features] on the ids. *)
Definition legacy_features (ms : list lmod) : res (dict lgetter) :=
  let! f := hooks ms in
  let ns := map lm_name (filter is_there ms) in
  let! _ := snd (update_features (map fst lown) (map (fun n => let! l := lmodule_features f n in Ok (map fst l)) ns) []) in
  let! l := lgathered f ns in
  Ok (lown ++ l).
End Update.

(** Feature.value, feature.py:231-242, for those with a value known here *)
Definition lvalue (k : lkind) (o : lobj) (sys : dict json) (g : lgetter) : option (res value) :=
  match g with
  | LReads r => Some (lread (is_bulb k) o r)
  | Relay => Some (let! v := dindex "relay_state" sys in Ok (Plain (JBool (truthy v))))
  | Signal => Some (match dget "rssi" sys with
                    | None | Some JNull => Ok (Plain JNull)
                    | Some v => let! z := to_int v in Ok (Plain (JInt z))
                    end)
  | _ => None
  end.
(** EmeterStatus(self.data["get_realtime"]), emeter.py:33-36: whole numbers and null only *)
Fixpoint reading_of (d : dict json) : res Emeter_Model.reading :=
  match d with
  | [] => Ok []
  | (n, v) :: d =>
      let! x := match v with JInt z => Ok (Some (inject_Z z)) | JNull => Ok None | _ => Err PyOther end in
      let! r := reading_of d in
      Ok ((n, x) :: r)
  end.
(** The value of a quantity of the meter of a device that is no strip, emeter.py:51-70, emeterstatus.py:19-49 *)
Definition meter_value (k : lkind) (lu : dict (dict json)) (item : string) : res (option Q) :=
  match dget (meter_key k) lu with
  | None => Err KKasa
  | Some d =>
      let! r := dindex "get_realtime" d in
      match r with
      | JObj d => let! s := reading_of d in getitem item s
      | _ => Err PyTypeError
      end
  end.

(** What one expects of a setting that a user interface offers: it takes what it advertises, shows
    what was set, and what it showed can be put back later. *)
From Coq Require Import QArith.
From Verif Require Import Base Py Setting_Model.
Open Scope string_scope.
Open Scope list_scope.
Open Scope Z_scope.

(** A number, and its value *)
Inductive number : pv -> Q -> Prop :=
| NInt z : number (Int z) (inject_Z z)
| NFlt q : number (Flt q) q
| NTrue : number (Bool true) 1
| NFalse : number (Bool false) 0.
Definition within (lo hi : Z) (v : pv) : Prop := exists q, number v q /\ (inject_Z lo <= q <= inject_Z hi)%Q.
Definition among (l : list string) (v : pv) : Prop := exists x, v = Str x /\ In x l.
Definition field (st : state) (g : sec) (k : string) (v : pv) : Prop := dget k (at_ st g) = Some v.
(** The sensitivity classes of a motion sensor, by the position of their threshold *)
Definition range_at (n k : string) : Prop := In (n, k) [("Far", "0"); ("Mid", "1"); ("Near", "2"); ("Custom", "3")].

(** What each setting advertises *)
Definition advertised (st : state) (s : setting) (v : pv) : Prop :=
  match s with
  | ThresholdMin => within 0 51 v
  | FadeOff | FadeOn => within 0 10000 v
  | GentleOff | GentleOn => within 0 120000 v
  | RampRate => within 10 50 v
  | PirRange => exists n k t, v = Str n /\ range_at n k /\ field st PirArray k t
  | PirThreshold | Volume => within 0 100 v
  | AlarmSound => among (sounds st) v
  | AlarmVolume => among ["mute"; "low"; "normal"; "high"] v
  | AlarmLevel => within 0 3 v
  | AlarmDuration => within 1 600 v
  | AutoOffMinutes | PanStep | TiltStep => within 0 65536 v
  | CleanCount => within 1 3 v
  | FanPreset => among ["Quiet"; "Standard"; "Turbo"; "Max"; "Ultra"] v
  | DustMode => among ["Smart"; "Light"; "Balanced"; "Max"; "Off"] v
  | MopLevel => among ["Disable"; "Low"; "Medium"; "High"] v
  | FanLevel => within 0 4 v
  | SmoothOn => exists m, field st OnHalf "max_duration" (Int m) /\ within 0 m v
  | SmoothOff => exists m, field st OffHalf "max_duration" (Int m) /\ within 0 m v
  | Protection => exists m, field st MaxPower "max_power" (Int m) /\ within 0 m v
  | Target => exists lo hi, field st Info "min_control_temp" (Int lo) /\ field st Info "max_control_temp" (Int hi) /\ within lo hi v
  | Offset => within (-10) 10 v
  | Unit => among ["celsius"; "fahrenheit"] v
  | CamSound => among (cam_sounds st) v
  | CamVolume => within 0 10 v
  | CamDuration => within 0 6000 v
  end.

(** A device in order: it reports the fields its modules read, with values of the documented kind *)
Definition int_field (st : state) (g : sec) (k : string) (lo hi : Z) : Prop := exists z, field st g k (Int z) /\ lo <= z <= hi.
Definition str_field (st : state) (g : sec) (k : string) (l : list string) : Prop := exists x, field st g k (Str x) /\ In x l.
Definition bool_field (st : state) (g : sec) (k : string) : Prop := exists b, field st g k (Bool b).
Definition pir_sound (st : state) : Prop :=
  (forall k, In k ["0"; "1"; "2"; "3"] -> int_field st PirArray k 0 100) /\ int_field st Pir "trigger_index" 0 3.
Definition half_sound (st : state) (g : sec) : Prop :=
  exists m, field st g "max_duration" (Int m) /\ 0 <= m /\ int_field st g "duration" 0 m /\ bool_field st g "enable".
Definition in_order (st : state) (s : setting) : Prop :=
  match s with
  | ThresholdMin => int_field st DimmerConf "minThreshold" 0 51
  | FadeOff => int_field st DimmerConf "fadeOffTime" 0 10000
  | FadeOn => int_field st DimmerConf "fadeOnTime" 0 10000
  | GentleOff => int_field st DimmerConf "gentleOffTime" 0 120000
  | GentleOn => int_field st DimmerConf "gentleOnTime" 0 120000
  | RampRate => int_field st DimmerConf "rampRate" 10 50
  | PirRange | PirThreshold => pir_sound st
  | AlarmSound => str_field st AlarmConf "type" (sounds st)
  | AlarmVolume | AlarmLevel => str_field st AlarmConf "volume" ["mute"; "low"; "normal"; "high"]
  | AlarmDuration => int_field st AlarmConf "duration" 1 600
  | AutoOffMinutes => int_field st AutoOff "delay_min" 0 65536 /\ bool_field st AutoOff "enable"
  | CleanCount => int_field st CleanAttr "clean_number" 1 3
  | FanPreset => int_field st CleanAttr "suction" 1 5
  | DustMode => bool_field st DustInfo "auto_dust_collection" /\ int_field st DustInfo "dust_collection_mode" 0 3
  | MopLevel => int_field st CleanAttr "cistern" 0 3
  | Volume => int_field st Speaker "volume" 0 100
  | FanLevel => bool_field st Info "device_on" /\ int_field st Info "fan_speed_level" 1 4
  | SmoothOn => half_sound st OnHalf
  | SmoothOff => half_sound st OffHalf
  | Protection => exists m, field st MaxPower "max_power" (Int m) /\ 0 <= m /\ bool_field st Protect "enabled" /\
      (int_field st Protect "protection_power" 0 m \/ dget "protection_power" (at_ st Protect) = None)
  | Target => exists lo hi v, field st Info "min_control_temp" (Int lo) /\ field st Info "max_control_temp" (Int hi) /\
      field st Info "target_temp" v /\ within lo hi v
  | Offset => int_field st Info "temp_offset" (-10) 10
  | Unit => str_field st Info "temp_unit" ["celsius"; "fahrenheit"]
  | CamSound => str_field st Siren "siren_type" (cam_sounds st) /\ ~ In "" (cam_sounds st)
  | CamVolume => exists z, field st Siren "volume" (Digits (Int z)) /\ 0 <= z <= 10
  | CamDuration => int_field st Siren "duration" 0 6000
  | PanStep => int_field st Own "_pan_step" 0 65536
  | TiltStep => int_field st Own "_tilt_step" 0 65536
  end.
(** Replies are JSON objects: no field twice *)
Definition objects (st : state) : Prop := forall g, dwf (at_ st g).

(** The device does what it is told: each command changes the fields it names in the section it is
    about.  The times and the sensitivity go by other names there; the scope of setCleanAttr is no
    setting; assignments change the object itself. *)
Definition put (g : sec) (ps : dict pv) (st : state) : state :=
  mkState (fun g' => if sec_eqb g g' then dupdate (at_ st g') ps else at_ st g') (sounds st) (cam_sounds st).
Definition renamed (from to : string) (ps : dict pv) : dict pv :=
  match dget from ps with Some v => [(to, v)] | None => [] end.
Definition obey (a : act) (st : state) : state :=
  match a with
  | Assign k v => put Own [(k, v)] st
  | Send m part ps =>
      if String.eqb m "set_on_off_gradually_info" then
        if String.eqb part "on_state" then put OnHalf ps st else if String.eqb part "off_state" then put OffHalf ps st else st
      else if String.eqb m "setSirenConfig" then if String.eqb part "siren" then put Siren ps st else st
      else if negb (String.eqb part "") then st
      else if String.eqb m "calibrate_brightness" then put DimmerConf (renamed "minThreshold" "minThreshold" ps) st
      else if String.eqb m "set_fade_off_time" then put DimmerConf (renamed "fadeTime" "fadeOffTime" ps) st
      else if String.eqb m "set_fade_on_time" then put DimmerConf (renamed "fadeTime" "fadeOnTime" ps) st
      else if String.eqb m "set_gentle_off_time" then put DimmerConf (renamed "duration" "gentleOffTime" ps) st
      else if String.eqb m "set_gentle_on_time" then put DimmerConf (renamed "duration" "gentleOnTime" ps) st
      else if String.eqb m "set_button_ramp_rate" then put DimmerConf (renamed "rampRate" "rampRate" ps) st
      else if String.eqb m "set_trigger_sens" then
        match dget "index" ps with
        | Some (Int i) =>
            let st := put Pir [("trigger_index", Int i)] st in
            match dget "value" ps with
            | Some v => if i =? 3 then put PirArray [("3", v)] st else st
            | None => st
            end
        | _ => st
        end
      else if String.eqb m "set_alarm_configure" then put AlarmConf ps st
      else if String.eqb m "set_auto_off_config" then put AutoOff ps st
      else if String.eqb m "setCleanAttr" then put CleanAttr (ddel "type" ps) st
      else if String.eqb m "setDustCollectionInfo" then put DustInfo ps st
      else if String.eqb m "setVolume" then put Speaker ps st
      else if String.eqb m "set_device_info" then put Info ps st
      else if String.eqb m "set_temperature_unit" then put Info ps st
      else if String.eqb m "set_protection_power" then put Protect ps st
      else st
  end.
Definition after (acts : list act) (st : state) : state := fold_left (fun st a => obey a st) acts st.

(** Settings that are views of the same thing: the volume of the alarm by name and by number; the
    threshold of a motion sensor is that of its current range *)
Definition related (s s' : setting) : Prop :=
  s = s' \/ match s, s' with
            | AlarmVolume, AlarmLevel | AlarmLevel, AlarmVolume | PirRange, PirThreshold | PirThreshold, PirRange => True
            | _, _ => False
            end.
(** Settings that are shown in another form than they are set: times as durations, ranges as
    members of an enum *)
Definition reshaped (s : setting) : bool :=
  match s with FadeOff | FadeOn | GentleOff | GentleOn | PirRange => true | _ => false end.
Definition shown (s : setting) (v : pv) : pv :=
  if reshaped s then match v with Int ms => Dur ms | Str n => Enum n | _ => v end else v.
(** Python's == *)
Definition same (v w : pv) : Prop := v = w \/ exists p q, number v p /\ number w q /\ (p == q)%Q.
(** Settings that may be given fractions *)
Definition fractions (s : setting) : bool :=
  match s with CamVolume | PirThreshold => false | _ => negb (reshaped s) end.
(** Whole numbers and names *)
Definition plain (v : pv) : Prop := match v with Int _ | Str _ => True | _ => False end.

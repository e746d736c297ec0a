(** Where a SMART device keeps what the modules show, method by method and field by field
    (tests/fixtures/smart), and what a user is to see for it.  The minimum temperature of the
    frost protection: the request frostprotection.py:15 names and the field it reads, 36. *)
From Coq Require Import DecimalString Decimal.
From Verif Require Import Base Py Smod_Model Read_Model.
Open Scope string_scope.
Open Scope list_scope.
Open Scope Z_scope.

(** What the device answers to each method: a result, or an error. *)
Definition answers := string -> reply.

(** The field at the end of [path] in the answer to [method] *)
Fixpoint follow (path : list string) (v : json) : option json :=
  match path with
  | [] => Some v
  | k :: path => match v with
                 | JObj d => match dget k d with Some x => follow path x | None => None end
                 | _ => None
                 end
  end.
Definition fld (w : answers) (method : string) (path : list string) : option json :=
  match w method with RVal v => follow path v | RErr _ => None end.

Definition as_is (o : option json) : option value := match o with Some v => Some (Plain v) | None => None end.
Definition mapped (t : json -> option value) (o : option json) : option value := match o with Some v => t v | None => None end.
Definition yes_if (test : json -> bool) (o : option json) : option value :=
  match o with Some v => Some (Plain (JBool (test v))) | None => None end.
Definition or_else (dflt : json) (o : option json) : option value :=
  Some (Plain (match o with Some v => v | None => dflt end)).
Definition named (t : Z -> option string) (o : option Z) : option value :=
  match o with Some z => match t z with Some s => Some (Plain (JStr s)) | None => None end | None => None end.

(** Python's view of a number: zero or not, a whole number, any number *)
Definition is_0 (v : json) : bool :=
  match v with JInt z => z =? 0 | JBool b => negb b | JFloat s => String.eqb s "0.0" || String.eqb s "-0.0" | _ => false end.
Definition whole_number (v : json) : option Z :=
  match v with JInt z => Some z | JBool b => Some (if b then 1 else 0) | _ => None end.
Definition spelled_number (v : json) : option Z :=
  match v with JStr s => option_map Z.of_int (NilZero.int_of_string s) | _ => whole_number v end.
Definition number (v : json) : bool := match v with JInt _ | JBool _ | JFloat _ => true | _ => false end.
Definition says (s : string) (v : json) : bool := match v with JStr t => String.eqb t s | _ => false end.
Definition no (v : json) : bool := match v with JBool b => negb b | _ => false end.
Definition opt_bind {A B} (o : option A) (t : A -> option B) : option B := match o with Some a => t a | None => None end.

(** A quantity the device counts in thousandths, when it gives one *)
Definition milli_of (v : json) : option value := if number v then Some (Thousandths v) else None.
Definition given (o : option json) : option json := match o with Some JNull => None | _ => o end.
Definition milli_or_none (o : option json) : option value :=
  match given o with Some v => milli_of v | None => Some (Plain JNull) end.

(** The texts and numbers devices use *)
Definition loudness (v : json) : option value :=
  if says "mute" v then Some (Plain (JInt 0)) else if says "low" v then Some (Plain (JInt 1))
  else if says "normal" v then Some (Plain (JInt 2)) else if says "high" v then Some (Plain (JInt 3)) else None.
Definition speed_name (z : Z) : option string :=
  match z with 1 => Some "Quiet" | 2 => Some "Standard" | 3 => Some "Turbo" | 4 => Some "Max" | 5 => Some "Ultra" | _ => None end.
Definition unit_name (z : Z) : option string :=
  match z with 0 => Some "Sqm" | 1 => Some "Sqft" | 2 => Some "Ping" | _ => None end.
Definition water_name (z : Z) : option string :=
  match z with 0 => Some "Disable" | 1 => Some "Low" | 2 => Some "Medium" | 3 => Some "High" | _ => None end.
Definition dust_name (z : Z) : option string :=
  match z with 0 => Some "Smart" | 1 => Some "Light" | 2 => Some "Balanced" | 3 => Some "Max" | -1000 => Some "Off" | _ => None end.

(** One entry of the trigger log *)
Definition entry (v : json) : option json :=
  match follow ["id"] v, follow ["eventId"] v, follow ["timestamp"] v, follow ["event"] v with
  | Some i, Some e, Some t, Some n => Some (JObj [("id", i); ("event_id", e); ("timestamp", t); ("event", n)])
  | _, _, _, _ => None
  end.
Fixpoint every {A B} (t : A -> option B) (l : list A) : option (list B) :=
  match l with
  | [] => Some []
  | a :: l => match t a, every t l with Some b, Some r => Some (b :: r) | _, _ => None end
  end.

(** The meaning of a reading for a device that answers [w]; [None]: the device does not
    report it.  [f] says which requests the device's versions know. *)
Definition means (f : facts) (w : answers) (r : reading) : option value :=
  let info k := fld w "get_device_info" [k] in
  let usage k := fld w "get_energy_usage" [k] in
  let newer k m := if 1 <? v_energy f then fld w m [k] else None in
  match r with
  | AlarmSound => as_is (fld w "get_alarm_configure" ["type"])
  | AlarmSounds => as_is (fld w "get_support_alarm_type_list" ["alarm_type_list"])
  | AlarmVolume => mapped loudness (fld w "get_alarm_configure" ["volume"])
  | AlarmDuration => as_is (fld w "get_alarm_configure" ["duration"])
  | AlarmActive => as_is (info "in_alarm")
  | AlarmSource => mapped (fun v => Some (Plain (if truthy v then v else JNull))) (info "in_alarm_source")
  | AutoOffEnabled => as_is (fld w "get_auto_off_config" ["enable"])
  | AutoOffDelay => as_is (fld w "get_auto_off_config" ["delay_min"])
  | AutoOffActive => yes_if (says "on") (info "auto_off_status")
  | Battery => as_is (info "battery_percentage")
  | BatteryLow => as_is (given (match info "at_low_battery" with Some v => Some v | None => info "is_low" end))
  | ChildLockOn => as_is (fld w "getChildLockInfo" ["child_lock_status"])
  | ChildProtectionOn => as_is (info "child_protection")
  | CleanSpeed => named speed_name (opt_bind (fld w "getCleanAttr" ["suction"]) whole_number)
  | CleanBattery => as_is (fld w "getBatteryInfo" ["battery_percentage"])
  | CleanBoost => yes_if (says "boost") (fld w "getCarpetClean" ["carpet_clean_prefer"])
  | CleanUnit => named unit_name (opt_bind (fld w "getAreaUnit" ["area_unit"]) whole_number)
  | CleanArea => as_is (fld w "getCleanInfo" ["clean_area"])
  | CleanTime => mapped (fun v => if number v then Some (Minutes v) else None) (fld w "getCleanInfo" ["clean_time"])
  | CleanProgress => as_is (fld w "getCleanInfo" ["clean_percent"])
  | CleanCount => as_is (fld w "getCleanAttr" ["clean_number"])
  | CloudConnected => yes_if is_0 (fld w "get_connect_cloud_state" ["status"])
  | ColorTemp => as_is (info "color_temp")
  | ContactOpen => as_is (info "open")
  | DustMode => match fld w "getDustCollectionInfo" ["auto_dust_collection"] with
                | None => None
                | Some v => if no v then Some (Plain (JStr "Off"))
                            else named dust_name (opt_bind (fld w "getDustCollectionInfo" ["dust_collection_mode"]) whole_number)
                end
  | DustAuto => as_is (fld w "getDustCollectionInfo" ["auto_dust_collection"])
  | EnergyNow => match given (usage "current_power"), given (newer "power_mw" "get_emeter_data") with
                 | Some v, _ => milli_of v
                 | None, Some v => milli_of v
                 | None, None => or_else JNull (newer "current_power" "get_current_power")
                 end
  | EnergyMonth => milli_or_none (usage "month_energy")
  | EnergyToday => milli_or_none (usage "today_energy")
  | EnergyCurrent => milli_or_none (newer "current_ma" "get_emeter_data")
  | EnergyVoltage => milli_or_none (newer "voltage_mv" "get_emeter_data")
  | FanSpeed => match info "device_on" with
                | None => None
                | Some v => if no v then Some (Plain (JInt 0)) else as_is (info "fan_speed_level")
                end
  | FanSleep => as_is (info "fan_sleep_mode_on")
  | FirmwareVersion => or_else JNull (info "fw_ver")
  | AutoUpdate => if 1 <? v_firmware f then or_else (JBool false) (fld w "get_auto_update_info" ["enable"])
                  else Some (Plain (JBool false))
  | FrostOn => as_is (info "frost_protection_on")
  | FrostMinimum => as_is (fld w "get_frost_protection" ["min_temp"])
  | FrostUnit => as_is (info "temp_unit")
  | HomeKitCode => as_is (fld w "get_homekit_info" ["mfi_setup_code"])
  | Humidity => as_is (info "current_humidity")
  | HumidityWarning => yes_if (fun v => negb (is_0 v)) (info "current_humidity_exception")
  | LedMode => as_is (fld w "get_led_info" ["led_rule"])
  | LedOn => yes_if (fun v => negb (says "never" v)) (fld w "get_led_info" ["led_rule"])
  | LedNight =>
      let night k := fld w "get_led_info" ["night_mode"; k] in
      match night "start_time", night "end_time", night "night_mode_type", night "sunrise_offset", night "sunset_offset" with
      | Some a, Some b, Some t, Some r, Some s =>
          Some (Plain (JObj [("start", a); ("end", b); ("type", t); ("sunrise_offset", r); ("sunset_offset", s)]))
      | _, _, _, _, _ => None
      end
  | MatterCode => as_is (fld w "get_matter_setup_info" ["setup_code"])
  | MatterPayload => as_is (fld w "get_matter_setup_info" ["setup_payload"])
  | MopAttached => as_is (fld w "getMopState" ["mop_state"])
  | MopLevel => named water_name (opt_bind (fld w "getCleanAttr" ["cistern"]) spelled_number)
  | Motion => as_is (info "detected")
  | Overheated => match given (info "overheat_status") with
                  | Some v => Some (Plain (JBool (negb (says "normal" v))))
                  | None => as_is (info "overheated")
                  end
  | Overloaded => yes_if (says "overloaded") (info "power_protection_status")
  | ProtectionOn => as_is (fld w "get_protection_power" ["enabled"])
  | ProtectionThreshold => or_else (JInt 0) (fld w "get_protection_power" ["protection_power"])
  | ProtectionShown => match fld w "get_protection_power" ["enabled"] with
                       | None => None
                       | Some v => if truthy v then or_else (JInt 0) (fld w "get_protection_power" ["protection_power"])
                                   else Some (Plain (JInt 0))
                       end
  | ReportInterval => as_is (info "report_interval")
  | Volume => as_is (fld w "getVolume" ["volume"])
  | ControlState => yes_if no (info "frost_protection_on")
  | ControlMin => as_is (info "min_control_temp")
  | ControlMax => as_is (info "max_control_temp")
  | ControlTarget => as_is (info "target_temp")
  | ControlOffset => as_is (info "temp_offset")
  | Temperature => as_is (info "current_temp")
  | TemperatureWarning => Some (Plain (JBool (match info "current_temp_exception" with Some v => negb (is_0 v) | None => false end)))
  | TemperatureUnit => as_is (info "temp_unit")
  | Logs => match fld w "get_trigger_logs" ["logs"] with
            | Some (JArr l) => match every entry l with Some r => Some (Plain (JArr r)) | None => None end
            | _ => None
            end
  | LeakStatus => mapped (fun v => if says "normal" v || says "water_leak" v || says "water_dry" v then Some (Plain v) else None)
                     (info "water_leak_status")
  | LeakAlert => as_is (info "in_alarm")
  end.

(** What every device keeps to: results are objects; no field of the energy usage or of the
    device info is named like a request or the update switch; a log is a list. *)
Record proper (w : answers) : Prop := {
  p_objects : forall k v, w k = RVal v -> exists d, v = JObj d;
  p_usage : forall k, In k ["get_energy_usage"; "get_emeter_data"; "get_current_power"] -> fld w "get_energy_usage" [k] = None;
  p_switch : fld w "get_device_info" ["enable"] = None;
  p_logs : forall v, fld w "get_trigger_logs" ["logs"] = Some v -> exists l, v = JArr l }.

(** The device, or else its parent, holds the answers to all of the module's requests. *)
Definition holds (w : answers) (req : list string) (d : dict reply) : Prop :=
  dwf d /\ forall k, In k req -> dget k d = Some (w k).
Definition updated (w : answers) (req : list string) (own : dict reply) (parent : option (dict reply)) : Prop :=
  holds w req own
  \/ exists p, parent = Some p /\ holds w req p /\ (forall k, In k req -> dget k own = None).
(** No request that has to be answered is refused. *)
Definition answered (w : answers) (req opt : list string) : Prop :=
  forall k, In k req -> ~ In k opt -> exists v, w k = RVal v.
(** The readings that come with the device info. *)
Definition from_info (r : reading) : bool :=
  match r with
  | AlarmActive | AlarmSource | AutoOffActive | Battery | BatteryLow | ChildProtectionOn | ColorTemp | ContactOpen
  | FanSpeed | FanSleep | FirmwareVersion | FrostOn | FrostUnit | Humidity | HumidityWarning | Motion | Overheated
  | Overloaded | ReportInterval | ControlState | ControlMin | ControlMax | ControlTarget | ControlOffset
  | Temperature | TemperatureWarning | TemperatureUnit | LeakStatus | LeakAlert => true
  | _ => false
  end.

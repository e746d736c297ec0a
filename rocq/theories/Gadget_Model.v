(** SMART thermostats, energy monitoring, power protection, alarms and firmware updates:
    kasa/smart/modules/temperaturecontrol.py, energy.py, powerprotection.py, alarm.py,
    firmware.py.  No proofs. *)
From Coq Require Import QArith.
From Verif Require Import Base Py IotLight_Model SmartLight_Model.
Open Scope string_scope.
Open Scope list_scope.
Open Scope Z_scope.

(** ** Thermostat *)
(** ThermostatState, interfaces/thermostat.py:12-20, with its values, in order *)
Inductive tstate := Heating | Calibrating | Idle | Off | Unknown.
Definition tstates : list (tstate * string) :=
  [(Heating, "heating"); (Calibrating, "progress_calibration"); (Idle, "idle"); (Off, "off"); (Unknown, "unknown")].
(** states.discard(x) on the set of reported states, kept as a list *)
Definition discard (x : string) (l : list string) : list string := filter (fun y => negb (String.eqb x y)) l.
(** TemperatureControl.mode, temperaturecontrol.py:86-110.  [frost]: frost_protection_on, when
    reported; [states]: trv_states, which must be strings.  Warnings are left out. *)
Definition first_known (states : list string) : tstate :=
  match find (fun s : tstate * string => smem (snd s) states) tstates with Some (s, _) => s | None => Unknown end.
Definition thermostat_mode (frost : option bool) (states : list string) : tstate :=
  match frost with
  | Some true => Off
  | _ => match states with [] => Idle | _ => first_known (discard "low_battery" states) end
  end.
(** state, temperaturecontrol.py:78-81 *)
Definition thermostat_state (frost : option bool) : res bool :=
  match frost with Some b => Ok (negb b) | None => Err PyKeyError end.

Section Device.
Variable reply : call -> res json.
(** set_state, temperaturecontrol.py:83-85 *)
Definition set_thermostat_state (enabled : bool) : M (list call) json :=
  do_call reply (mkCall "set_device_info" [("frost_protection_on", PBool (negb enabled))]).
(** set_target_temperature, temperaturecontrol.py:137-153; [lo], [hi]: min_control_temp,
    max_control_temp; [frost]: frost_protection_on is reported *)
Definition set_target_temperature (lo hi : arg) (frost : bool) (target : arg) : M (list call) json :=
  if ltb_arg target lo || ltb_arg hi target then mfail PyValueError
  else
    let payload := [("target_temp", PNum target)] in
    let payload := if frost then dset "frost_protection_on" (PBool false) payload else payload in
    do_call reply (mkCall "set_device_info" payload).
(** set_temperature_offset, temperaturecontrol.py:160-165 *)
Definition set_temperature_offset (offset : arg) : M (list call) json :=
  if ltb_arg offset (AInt (-10)) || ltb_arg (AInt 10) offset then mfail PyValueError
  else do_call reply (mkCall "set_device_info" [("temp_offset", PNum offset)]).
End Device.

(** ** Energy *)
(** The module's data: version 1 devices answer one request, so it is that reply; newer ones
    give a mapping from request to reply.  A missing optional reply is left out.  Numbers are
    rationals; [None] is null. *)
Inductive edata := Flat (d : dict (option Q)) | Nested (d : dict (dict (option Q))).
(** data.get(k, {}), for a reply *)
Definition part (k : string) (x : edata) : dict (option Q) :=
  match x with Flat _ => [] | Nested d => match dget k d with Some r => r | None => [] end end.
(** d.get(k) *)
Definition qget (k : string) (d : dict (option Q)) : option Q :=
  match dget k d with Some v => v | None => None end.
(** The module's own fields: _energy, _current_consumption, and VOLTAGE_CURRENT in _supported *)
Record estate := mkEnergy { e_energy : dict (option Q); e_current : option Q; e_volt : bool }.
(** data.get("get_energy_usage", data).  The mapping itself has no numbers, so looking one up
    in it finds nothing. *)
Definition usage_of (x : edata) : dict (option Q) :=
  match x with Flat d => d | Nested _ => part "get_energy_usage" x end.
(** Energy._post_update_hook, energy.py:21-49 *)
Definition energy_hook (x : res edata) (st : estate) : estate * res unit :=
  match x with
  | Err e => if is_device_error e then (mkEnergy [] None (e_volt st), Err e) else (st, Err e)
  | Ok x =>
      let energy := usage_of x in
      let volt := e_volt st || dmem "voltage_mv" (part "get_emeter_data" x) in
      let current :=
        match qget "current_power" energy with
        | Some p => Some (p / 1000)%Q
        | None =>
            match qget "power_mw" (part "get_emeter_data" x) with
            | Some p => Some (p / 1000)%Q
            | None => qget "current_power" (part "get_current_power" x)
            end
        end in
      (mkEnergy energy current volt, Ok tt)
  end.
(** current_consumption, consumption_this_month, consumption_today, energy.py:69-72, 105-117 *)
Definition current_consumption (st : estate) : option Q := e_current st.
Definition milli (o : option Q) : option Q := match o with Some x => Some (x / 1000)%Q | None => None end.
Definition consumption_this_month (st : estate) : option Q := milli (qget "month_energy" (e_energy st)).
Definition consumption_today (st : estate) : option Q := milli (qget "today_energy" (e_energy st)).
(** current, voltage, energy.py:125-139 *)
Definition current (x : edata) : option Q := milli (qget "current_ma" (part "get_emeter_data" x)).
Definition voltage (x : edata) : option Q := milli (qget "voltage_mv" (part "get_emeter_data" x)).

(** ** Power protection *)
(** A command with JSON parameters. *)
Record cmd := mkCmd { k_method : string; k_params : dict json }.
Section Commands.
Variable reply : cmd -> res json.
Definition send (c : cmd) : M (list cmd) json := fun log => (log ++ [c], reply c).

(** protection_threshold, powerprotection.py:98-104, and _max_power, 93-96, for replies [prot]
    (get_protection_power) and [max] *)
Definition protection_threshold (prot : dict json) : json :=
  match dget "protection_power" prot with Some v => v | None => JInt 0 end.
(** _threshold_or_zero, powerprotection.py:88-91 *)
Definition threshold_or_zero (prot : dict json) : res json :=
  let! e := dindex "enabled" prot in
  Ok (if truthy e then protection_threshold prot else JInt 0).
(** v == 0 *)
Definition is_zero (v : json) : bool := match as_int v with Some z => z =? 0 | None => false end.
(** set_enabled, powerprotection.py:62-79.  int(max / 2) is exact division rounded towards
    zero: the rounding of floats above 2^53 is not modelled. *)
Definition set_protection_enabled (prot : dict json) (max : Z) (enabled : bool) (threshold : option Z) : M (list cmd) json :=
  let threshold := match threshold with
                   | None => if enabled && is_zero (protection_threshold prot) then Some (Z.quot max 2) else None
                   | Some t => Some t
                   end in
  if match threshold with
     | Some t => negb (t =? 0) && ((t <? 0) || (max <? t))
     | None => false
     end then mfail PyValueError
  else
    let params := dset "enabled" (JBool enabled) prot in
    let params := match threshold with Some t => dset "protection_power" (JInt t) params | None => params end in
    send (mkCmd "set_protection_power" params).
(** _set_threshold_auto_enable, powerprotection.py:81-86 *)
Definition set_threshold_auto_enable (prot : dict json) (max : Z) (threshold : Z) : M (list cmd) json :=
  if threshold =? 0 then set_protection_enabled prot max false None
  else set_protection_enabled prot max true (Some threshold).
(** set_protection_threshold, powerprotection.py:106-117 *)
Definition set_protection_threshold (prot : dict json) (max : Z) (threshold : Z) : M (list cmd) json :=
  if (threshold <? 0) || (max <? threshold) then mfail PyValueError
  else send (mkCmd "set_protection_power" (dset "protection_power" (JInt threshold) prot)).

(** ** Alarm *)
(** VOLUME_INT_TO_STR, alarm.py:14-19 *)
Definition volume_names : list (Z * string) := [(0, "mute"); (1, "low"); (2, "normal"); (3, "high")].
(** A volume as given: a number (or a bool) or a name *)
Inductive volume := VInt (z : Z) | VStr (s : string).
(** _check_and_convert_volume, alarm.py:238-252 *)
Definition convert_volume (v : volume) : res string :=
  let s := match v with
           | VInt z => match find (fun p : Z * string => fst p =? z) volume_names with Some (_, s) => s | None => "invalid" end
           | VStr s => s
           end in
  if smem s (map snd volume_names) then Ok s else Err PyValueError.
(** _check_duration, alarm.py:254-257, DURATION_MAX 11; _check_sound, 259-262 *)
Definition check_duration (d : Z) : res unit := if (d <? 1) || (10 * 60 <? d) then Err PyValueError else Ok tt.
Definition check_sound (sounds : list string) (s : string) : res unit := if smem s sounds then Ok tt else Err PyValueError.
Definition volume_json (v : volume) : json := match v with VInt z => JInt z | VStr s => JStr s end.
(** set_alarm_volume, alarm.py:170-177; [conf]: get_alarm_configure *)
Definition set_alarm_volume (conf : dict json) (v : volume) : M (list cmd) json :=
  do! _ <- mlift (convert_volume v) ;;
  send (mkCmd "set_alarm_configure" (dset "volume" (volume_json v) conf)).
(** set_alarm_duration, alarm.py:184-191 *)
Definition set_alarm_duration (conf : dict json) (d : Z) : M (list cmd) json :=
  do! _ <- mlift (check_duration d) ;;
  send (mkCmd "set_alarm_configure" (dset "duration" (JInt d) conf)).
(** set_alarm_sound, alarm.py:143-151 *)
Definition set_alarm_sound (conf : dict json) (sounds : list string) (s : string) : M (list cmd) json :=
  do! _ <- mlift (check_sound sounds s) ;;
  send (mkCmd "set_alarm_configure" (dset "type" (JStr s) conf)).
(** play, alarm.py:204-232 *)
Definition play_alarm (sounds : list string) (d : option Z) (v : option volume) (s : option string) : M (list cmd) json :=
  do! params <- mlift (match d with
                       | Some d => let! _ := check_duration d in Ok [("alarm_duration", JInt d)]
                       | None => Ok []
                       end) ;;
  do! params <- mlift (match v with
                       | Some v => let! t := convert_volume v in Ok (dset "alarm_volume" (JStr t) params)
                       | None => Ok params
                       end) ;;
  do! params <- mlift (match s with
                       | Some s => let! _ := check_sound sounds s in Ok (dset "alarm_type" (JStr s) params)
                       | None => Ok params
                       end) ;;
  send (mkCmd "play_alarm" params).
(** alarm_volume, alarm.py:158-161 *)
Definition alarm_volume (conf : dict json) : res Z :=
  let! v := dindex "volume" conf in
  match v with
  | JStr s => match find (fun p : Z * string => String.eqb (snd p) s) volume_names with Some (z, _) => Ok z | None => Err PyKeyError end
  | JArr _ | JObj _ => Err PyTypeError
  | _ => Err PyKeyError
  end.

(** ** Firmware *)
(** One poll of the download state: how long it took (in milliseconds), and the state or the
    failure.  Only [Exception]s are possible failures. *)
Record dstate := mkD { d_status : Z; d_progress : Z; d_upgrade_time : Z }.
Record poll := mkPoll { p_ms : Z; p_state : option dstate }.
Inductive outcome := Returned (s : dstate) | TimedOut | Running.
(** The polling loop, firmware.py:201-237.  [left]: milliseconds until the five-minute limit;
    it interrupts a sleep or a poll that lasts to it.  An exhausted list of polls stands for a
    loop still running. *)
Fixpoint poll_loop (left : Z) (ps : list poll) : outcome :=
  match ps with
  | [] => Running
  | p :: ps =>
      let left := left - 500 - p_ms p in
      if left <=? 0 then TimedOut
      else match p_state p with
           | None => poll_loop left ps
           | Some s =>
               if d_status s =? 0 then Returned s
               else if d_status s =? 2 then poll_loop left ps
               else if d_status s =? 3 then
                 let left := left - Z.max 0 (1000 * d_upgrade_time s) in
                 if left <=? 0 then TimedOut else poll_loop left ps
               else if d_status s <? 0 then Returned s
               else poll_loop left ps
           end
  end.
(** update, firmware.py:181-237, with update_available, 168-173, and
    UpdateInfo.update_available, 58-61.  [info]: the status in the update info, if any;
    the log holds the commands sent, without the polls. *)
Definition firmware_update (info : option Z) (cloud : bool) (ps : list poll) : M (list cmd) outcome :=
  match info with
  | None => mfail KKasa
  | Some status =>
      if negb (cloud && negb (status =? 0)) then mfail KKasa
      else
        do! _ <- send (mkCmd "fw_download" []) ;;
        mret (poll_loop (60 * 5 * 1000) ps)
  end.
End Commands.

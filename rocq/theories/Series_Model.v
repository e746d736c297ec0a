(** Several settings made one after another: the setters of kasa/smart/modules/ with what the last
    update brought, and a device that keeps what it is sent.  No proofs. *)
From Verif Require Import Base Py IotLight_Model Gadget_Model Small_Model Vacuum_Model.
From Verif Require SmartLight_Model.
Open Scope string_scope.
Open Scope list_scope.
Open Scope Z_scope.

(** The records of settings, each the reply to one getter; [OnState] and [OffState] are the two
    halves of the reply to get_on_off_gradually_info. *)
Inductive group :=
| AutoOff        (* get_auto_off_config, autooff.py:18 *)
| LedInfo        (* get_led_info, led.py:13 *)
| Protection     (* get_protection_power, powerprotection.py:46-48 *)
| AlarmConf      (* get_alarm_configure, alarm.py:33-38 *)
| CleanAttr      (* getCleanAttr, clean.py:266, mop.py:60-65 *)
| DustInfo       (* getDustCollectionInfo, dustbin.py:72-77 *)
| SpeakerVol     (* getVolume, speaker.py:47-51 *)
| CarpetInfo     (* getCarpetClean, clean.py:262 *)
| AutoUpdate     (* get_auto_update_info, firmware.py:134-138 *)
| LockInfo       (* getChildLockInfo, childlock.py:13 *)
| DevInfo        (* get_device_info *)
| OnState | OffState.
Definition group_eqb (a b : group) : bool :=
  match a, b with
  | AutoOff, AutoOff | LedInfo, LedInfo | Protection, Protection | AlarmConf, AlarmConf | CleanAttr, CleanAttr
  | DustInfo, DustInfo | SpeakerVol, SpeakerVol | CarpetInfo, CarpetInfo | AutoUpdate, AutoUpdate
  | LockInfo, LockInfo | DevInfo, DevInfo | OnState, OnState | OffState, OffState => true
  | _, _ => false
  end.
Definition store := group -> dict json.

(** What a device says once and for all: get_max_power, the list of alarm sounds, and max_duration
    of the two transitions *)
Record facts := mkFacts { f_max_power : Z; f_sounds : list string; f_max_on : Z; f_max_off : Z }.

(** The setters *)
Inductive call :=
| AutoOffSwitch (b : bool) | AutoOffDelay (n : Z)
| LedSwitch (b : bool)
| ProtectSwitch (b : bool) (t : option Z) | ProtectThreshold (t : Z) | ProtectFeature (t : Z)
| AlarmVolume (name : string) | AlarmDuration (n : Z) | AlarmSound (s : string)
| MopLevel (name : string) | FanPreset (name : string) | CleanCount (n : Z)
| DustAuto (b : bool) | DustMode (name : string)
| Volume (n : Z) | CarpetBoost (b : bool) | AutoUpdates (b : bool) | ChildLock (b : bool)
| Frost (b : bool) | FanLevel (n : Z) | FanSleep (b : bool) | TempUnit (u : string)
| SmoothOn (n : Z) | SmoothOff (n : Z) | Smooth (b : bool).

(** set_carpet_boost, clean.py:379-382 *)
Definition set_carpet_boost (reply : cmd -> res json) (on : bool) : M (list cmd) json :=
  send reply (mkCmd "setCarpetClean" [("carpet_clean_prefer", JStr (if on then "boost" else "normal"))]).
(** set_clean_count, clean.py:409-411 *)
Definition set_clean_count (reply : cmd -> res json) (n : Z) : M (list cmd) json := change_setting reply "clean_number" n.
(** set_auto_update_enabled, firmware.py:244-248 *)
Definition set_auto_update (reply : cmd -> res json) (d : dict json) (b : bool) : M (list cmd) json :=
  send reply (mkCmd "set_auto_update_info" (dset "enable" (JBool b) d)).
(** set_temperature_unit, temperaturesensor.py:77-81 *)
Definition set_temperature_unit (reply : cmd -> res json) (u : string) : M (list cmd) json :=
  send reply (mkCmd "set_temperature_unit" [("temp_unit", JStr u)]).

(** A parameter as it is sent; of numbers only the whole ones occur here *)
Fixpoint json_of_pv (p : SmartLight_Model.pv) : json :=
  match p with
  | SmartLight_Model.PNum (AInt z) => JInt z
  | SmartLight_Model.PNum _ => JNull
  | SmartLight_Model.PBool b => JBool b
  | SmartLight_Model.PObj d => JObj (map (fun kv => (fst kv, json_of_pv (snd kv))) d)
  | SmartLight_Model.PList _ => JNull
  end.
(** The calls of the transition module as commands *)
Definition as_cmds (m : M (list SmartLight_Model.call) json) : M (list cmd) json := fun log =>
  let (cs, r) := m [] in
  (log ++ map (fun c => mkCmd (SmartLight_Model.c_method c)
                              (map (fun kv => (fst kv, json_of_pv (snd kv))) (SmartLight_Model.c_params c))) cs, r).
(** _on_state or _off_state after _post_update_hook, lighttransition.py:110-139 *)
Definition tstate_of (d : dict json) (max : Z) : res SmartLight_Model.tstate :=
  match dget "duration" d, dget "enable" d with
  | Some (JInt n), Some (JBool b) => Ok (SmartLight_Model.mkT n b max)
  | _, _ => Err PyKeyError
  end.
(** set_enabled for version 2 and up, lighttransition.py:141-165 *)
Definition set_smooth (reply : cmd -> res json) (on off : SmartLight_Model.tstate) (b : bool) : M (list cmd) json :=
  do! _ <- send reply (mkCmd "set_on_off_gradually_info"
      [("on_state", JObj [("enable", JBool b); ("duration", JInt (SmartLight_Model.t_duration on))])]) ;;
  send reply (mkCmd "set_on_off_gradually_info"
      [("off_state", JObj [("enable", JBool b); ("duration", JInt (SmartLight_Model.t_duration off))])]).

(** What a setter sends, by what the last update showed.  The device answers every command. *)
Definition fine : cmd -> res json := fun _ => Ok JNull.
Definition setter (f : facts) (s : store) (c : call) : M (list cmd) json :=
  match c with
  | AutoOffSwitch b => set_auto_off_enabled fine (s AutoOff) b
  | AutoOffDelay n => set_auto_off_delay fine (s AutoOff) n
  | LedSwitch b => set_led fine (s LedInfo) b
  | ProtectSwitch b t => set_protection_enabled fine (s Protection) (f_max_power f) b t
  | ProtectThreshold t => set_protection_threshold fine (s Protection) (f_max_power f) t
  | ProtectFeature t => set_threshold_auto_enable fine (s Protection) (f_max_power f) t
  | AlarmVolume v => set_alarm_volume fine (s AlarmConf) (VStr v)
  | AlarmDuration n => set_alarm_duration fine (s AlarmConf) n
  | AlarmSound x => set_alarm_sound fine (s AlarmConf) (f_sounds f) x
  | MopLevel m => set_waterlevel fine (s CleanAttr) m
  | FanPreset m => set_fan_speed fine m
  | CleanCount n => set_clean_count fine n
  | DustAuto b => set_auto_collection fine (s DustInfo) b
  | DustMode m => set_dust_mode fine (s DustInfo) m
  | Volume n => set_speaker_volume fine n
  | CarpetBoost b => set_carpet_boost fine b
  | AutoUpdates b => set_auto_update fine (s AutoUpdate) b
  | ChildLock b => set_child_lock fine b
  | Frost b => set_frost fine b
  | FanLevel n => set_fan_speed_level fine n
  | FanSleep b => set_sleep_mode fine b
  | TempUnit u => set_temperature_unit fine u
  | SmoothOn n => do! t <- mlift (tstate_of (s OnState) (f_max_on f)) ;;
                  as_cmds (SmartLight_Model.set_transition (fun _ => Ok JNull) "on_state" t n)
  | SmoothOff n => do! t <- mlift (tstate_of (s OffState) (f_max_off f)) ;;
                   as_cmds (SmartLight_Model.set_transition (fun _ => Ok JNull) "off_state" t n)
  | Smooth b => do! on <- mlift (tstate_of (s OnState) (f_max_on f)) ;;
                do! off <- mlift (tstate_of (s OffState) (f_max_off f)) ;;
                set_smooth fine on off b
  end.

(** The device: each command goes into the record its getter reports, field by field.  The scope
    of setCleanAttr, "type", is not a setting (clean.py:327-335). *)
Definition plain_target (m : string) : option group :=
  dget m [("set_auto_off_config", AutoOff); ("set_led_info", LedInfo); ("set_protection_power", Protection);
          ("set_alarm_configure", AlarmConf); ("setCleanAttr", CleanAttr); ("setDustCollectionInfo", DustInfo);
          ("setVolume", SpeakerVol); ("setCarpetClean", CarpetInfo); ("set_auto_update_info", AutoUpdate);
          ("setChildLockInfo", LockInfo); ("set_device_info", DevInfo); ("set_temperature_unit", DevInfo)].
Definition put (g : group) (d : dict json) (s : store) : store := fun g' => if group_eqb g g' then dupdate (s g') d else s g'.
Definition half (k : string) (g : group) (params : dict json) (s : store) : store :=
  match dget k params with Some (JObj d) => put g d s | _ => s end.
Definition accept (c : cmd) (s : store) : store :=
  match plain_target (k_method c) with
  | Some g => put g (match g with CleanAttr => ddel "type" (k_params c) | _ => k_params c end) s
  | None => if String.eqb (k_method c) "set_on_off_gradually_info"
            then half "off_state" OffState (k_params c) (half "on_state" OnState (k_params c) s)
            else s
  end.

(** The object and its device: what the last updates showed, and what the device keeps *)
Record sys := mkSys { shown : store; kept : store }.
Inductive event :=
| Set_ (c : call)                               (* a setter of the object *)
| Update (gs : list group)                      (* an update; the records whose modules were due *)
| Other (g : group) (k : string) (v : json).    (* another client, or the device itself *)
Definition step (f : facts) (x : sys) (e : event) : sys :=
  match e with
  | Set_ c => mkSys (shown x) (fold_left (fun s c => accept c s) (fst (setter f (shown x) c [])) (kept x))
  | Update gs => mkSys (fun g => if existsb (group_eqb g) gs then kept x g else shown x g) (kept x)
  | Other g k v => mkSys (shown x) (put g [(k, v)] (kept x))
  end.
Definition run (f : facts) (x : sys) (h : list event) : sys := fold_left (step f) h x.
(** Right after an update of everything *)
Definition start (s : store) : sys := mkSys s s.

(** What the modules of cameras show: kasa/smartcam/modules/*.py.  No proofs. *)
From Verif Require Import Base Py Smod_Model Gadget_Model CamMod_Model Read_Model.
Open Scope string_scope.
Open Scope list_scope.
Open Scope Z_scope.

(** The modules; the switches are those of [CamMod_Model.switches]. *)
Inductive cmodule := GAlarm | GMatter | GDevice | GBattery | GSetup | GSwitch (w : switch).
(** QUERY_GETTER_NAME and QUERY_MODULE_NAME: alarm.py:22-23, matter.py:12-13, device.py:13-14,
    childsetup.py:22-23; the switches as there *)
Definition getter (m : cmodule) : string :=
  match m with
  | GAlarm => "getSirenStatus"
  | GMatter => "getMatterSetupInfo"
  | GDevice => "getDeviceInfo"
  | GBattery => ""
  | GSetup => "getSupportChildDeviceCategory"
  | GSwitch w => w_getter w
  end.
Definition section_of (m : cmodule) : string :=
  match m with
  | GAlarm => "siren"
  | GMatter => "matter"
  | GDevice => "device_info"
  | GBattery => ""
  | GSetup => "childControl"
  | GSwitch w => w_module w
  end.
(** The methods of query(): smartcammodule.py:54-64, alarm.py:25-31, device.py:17-27, battery.py:86-88;
    [hub] says that the camera is a child of a hub *)
Definition cquery (hub : bool) (m : cmodule) : list string :=
  match m with
  | GAlarm => ["getSirenStatus"; "getSirenConfig"; "getSirenTypeList"]
  | GDevice => if hub then [] else ["getDeviceInfo"; "getConnectionType"]
  | GBattery => []
  | m => [getter m]
  end.

(** What a user reads *)
Inductive creading :=
  | SirenSound | SirenSounds | SirenVolume | SirenDuration | SirenActive
  | SetupCode | SetupPayload
  | Rssi | SignalLevel | Id
  | Percent | Low | BatteryTemperature | Voltage | Charging
  | Categories
  | SwitchOn (w : switch).
Definition cmodule_of (r : creading) : cmodule :=
  match r with
  | SirenSound | SirenSounds | SirenVolume | SirenDuration | SirenActive => GAlarm
  | SetupCode | SetupPayload => GMatter
  | Rssi | SignalLevel | Id => GDevice
  | Percent | Low | BatteryTemperature | Voltage | Charging => GBattery
  | Categories => GSetup
  | SwitchOn w => GSwitch w
  end.

(** s.replace("ipcamera", "camera"), childsetup.py:45 *)
Fixpoint starts (p s : string) : bool :=
  match p, s with
  | EmptyString, _ => true
  | String a p, String b s => Ascii.eqb a b && starts p s
  | _, EmptyString => false
  end.
Fixpoint replace_from (skip : nat) (s : string) : string :=
  match s with
  | EmptyString => EmptyString
  | String c s' =>
      match skip with
      | S n => replace_from n s'
      | O => if starts "ipcamera" s then "camera" ++ replace_from 7 s' else String c (replace_from 0 s')
      end
  end%string.
Definition renamed (s : string) : string := replace_from 0 s.
(** The list comprehension of _post_update_hook, childsetup.py:43-47; the reading is as that left it *)
Fixpoint categories (l : list json) : res (list json) :=
  match l with
  | [] => Ok []
  | c :: l =>
      let! n := jitem "category" c in
      let! s := match n with JStr s => Ok (renamed s) | _ => Err PyAttributeError end in
      let! r := categories l in
      Ok (JStr s :: r)
  end.

Section Object.
(** [own] is _last_update, [info] is _info. *)
Variables (hub : bool) (own : dict reply) (info : dict json).
(** self.data, smartcammodule.py:73-111 *)
Definition cdt (m : cmodule) : res json :=
  let! v := cam_data (cquery hub m) (getter m) (section_of m) own (JObj info) in Ok (Read_Model.whole v).
(** self.data[k] *)
Definition ctop (m : cmodule) (k : string) : res json := let! v := cdt m in jitem k v.
Definition cat_ (m : cmodule) (k k2 : string) : res json := let! v := ctop m k in jitem k2 v.
(** self.data.get("getConnectionType", {}).get(k): None if absent, device.py:80-88 *)
Definition connection (k : string) : res value :=
  let! v := cdt GDevice in
  let! c := sub "getConnectionType" v in
  let! o := field k c in
  Ok (Plain (match o with Some j => j | None => JNull end)).
Definition cread (r : creading) : res value :=
  match r with
  | SirenSound => plain (cat_ GAlarm "getSirenConfig" "siren_type")          (* alarm.py:110-113 *)
  | SirenSounds => plain (cat_ GAlarm "getSirenTypeList" "siren_type_list")  (* alarm.py:124-127 *)
  | SirenVolume =>                                                           (* alarm.py:129-135 *)
      let! v := ctop GAlarm "getSirenConfig" in
      let! d := Read_Model.as_dict v in
      let! z := siren_volume d in Ok (Plain (JInt z))
  | SirenDuration => plain (cat_ GAlarm "getSirenConfig" "duration")         (* alarm.py:145-148 *)
  | SirenActive =>                                                           (* alarm.py:158-161 *)
      let! s := cat_ GAlarm "getSirenStatus" "status" in Ok (Plain (JBool (negb (json_is "off" s))))
  | SetupCode => plain (ctop GMatter "setup_code")                           (* matter.py:24, 41-44 *)
  | SetupPayload => plain (ctop GMatter "setup_payload")                     (* matter.py:35, 41-44 *)
  | Rssi => connection "rssiValue"                                           (* device.py:80-83 *)
  | SignalLevel => connection "rssi"                                         (* device.py:85-88 *)
  | Id => plain (dindex "device_id" info)                                    (* device.py:75-78 *)
  | Percent => plain (dindex "battery_percent" info)                         (* battery.py:90-93 *)
  | Low => plain (dindex "low_battery" info)                                 (* battery.py:95-98 *)
  | BatteryTemperature => plain (dindex "battery_temperature" info)          (* battery.py:100-103 *)
  | Voltage =>                                                               (* battery.py:105-108 *)
      let! v := dindex "battery_voltage" info in
      if is_num v then Ok (Thousandths v) else Err PyTypeError
  | Charging => flag (battery_charging info)                                 (* battery.py:110-113 *)
  | Categories =>                                                            (* childsetup.py:43-52 *)
      let! v := ctop GSetup "device_category_list" in
      let! l := jiter v in
      let! r := categories l in Ok (Plain (JArr r))
  | SwitchOn w =>                                                            (* motiondetection.py:38-41, led.py:18-21 *)
      let! e := cat_ (GSwitch w) (w_section w) "enabled" in Ok (Plain (JBool (json_is "on" e)))
  end.
End Object.

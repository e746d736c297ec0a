(** Where a camera keeps what its modules show (tests/fixtures/smartcam), and what a user is to see
    for it. *)
From Verif Require Import Base Py Smod_Model CamMod_Model WholeCam_Spec Read_Model Read_Spec CamRead_Model.
Open Scope string_scope.
Open Scope list_scope.
Open Scope Z_scope.

(** The field of the answer to [method]: cameras give it in a record named like the part of the
    camera that was asked for, or without that record. *)
Definition within (w : answers) (method part : string) (path : list string) : option json :=
  match fld w method [part] with Some _ => fld w method (part :: path) | None => fld w method path end.
(** A category of children: cameras are "ipcamera" to a hub, "camera" to a user *)
Definition category (v : json) : option json :=
  match follow ["category"] v with
  | Some (JStr s) => Some (JStr (if String.eqb s "ipcamera" then "camera" else s))
  | _ => None
  end.
(** Where each detection, the light of the camera and the mask of its lens are kept *)
Definition kept (w : switch) : option (string * string * string) :=
  find (fun x => String.eqb (fst (fst x)) (w_getter w))
       [("getDetectionConfig", "motion_detection", "motion_det"); ("getPersonDetectionConfig", "people_detection", "detection");
        ("getPetDetectionConfig", "pet_detection", "detection"); ("getTamperDetectionConfig", "tamper_detection", "tamper_det");
        ("getBCDConfig", "sound_detection", "bcd"); ("getLedStatus", "led", "config");
        ("getLensMaskConfig", "lens_mask", "lens_mask_info")].

(** The meaning of a reading for a camera that answers [w] and whose basic information is [b];
    [hub]: it is a child of a hub, and then its signal is in that information.  [None]: not
    reported. *)
Definition cmeans (hub : bool) (w : answers) (b : dict json) (r : creading) : option value :=
  match r with
  | SirenSound => as_is (fld w "getSirenConfig" ["siren_type"])
  | SirenSounds => as_is (fld w "getSirenTypeList" ["siren_type_list"])
  | SirenVolume => mapped (fun v => option_map (fun z => Plain (JInt z)) (spelled_number v)) (fld w "getSirenConfig" ["volume"])
  | SirenDuration => as_is (fld w "getSirenConfig" ["duration"])
  | SirenActive => yes_if (fun v => negb (says "off" v)) (fld w "getSirenStatus" ["status"])
  | SetupCode => as_is (within w "getMatterSetupInfo" "matter" ["setup_code"])
  | SetupPayload => as_is (within w "getMatterSetupInfo" "matter" ["setup_payload"])
  | Rssi => or_else JNull (if hub then dget "rssi" b else fld w "getConnectionType" ["rssiValue"])
  | SignalLevel => or_else JNull (if hub then None else fld w "getConnectionType" ["rssi"])
  | Id => as_is (match dget "dev_id" b with Some v => Some v | None => dget "device_id" b end)
  | Percent => as_is (dget "battery_percent" b)
  | Low => as_is (dget "low_battery" b)
  | BatteryTemperature => as_is (dget "battery_temperature" b)
  | Voltage => mapped milli_of (dget "battery_voltage" b)
  | Charging => yes_if (fun v => negb (says "NO" v)) (dget "battery_charging" b)
  | Categories =>
      match within w "getSupportChildDeviceCategory" "childControl" ["device_category_list"] with
      | Some (JArr l) => match every category l with Some r => Some (Plain (JArr r)) | None => None end
      | _ => None
      end
  | SwitchOn s =>
      match kept s with
      | Some (method, part, section) => yes_if (says "on") (within w method part [section; "enabled"])
      | None => None
      end
  end.

(** [p] occurs in [s] *)
Definition occurs (p s : string) : Prop := exists a b, s = (a ++ p ++ b)%string.
(** What every camera keeps to: results are objects, the volume is no fraction, categories are a
    list of names, none of which only contains the one that is renamed; the basic information has
    one entry for the id, and none named like a request. *)
Record cproper (w : answers) (b : dict json) : Prop := {
  cp_objects : forall k v, w k = RVal v -> exists d, v = JObj d;
  cp_volume : forall l, fld w "getSirenConfig" ["volume"] <> Some (JFloat l);
  cp_categories : forall v, within w "getSupportChildDeviceCategory" "childControl" ["device_category_list"] = Some v ->
    exists l, v = JArr l /\ forall c s, In c l -> follow ["category"] c = Some (JStr s) -> s = "ipcamera" \/ ~ occurs "ipcamera" s;
  cp_id : dget "dev_id" b = None \/ dget "device_id" b = None;
  cp_basic : dget "getConnectionType" b = None }.
(** The readings that come with the basic information. *)
Definition basic (hub : bool) (r : creading) : bool :=
  match r with
  | Id | Percent | Low | BatteryTemperature | Voltage | Charging => true
  | Rssi | SignalLevel => hub
  | _ => false
  end.

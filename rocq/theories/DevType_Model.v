(** Device types and the device info: kasa/device_type.py, kasa/smart/smartdevice.py,
    kasa/smart/smartchilddevice.py, kasa/smartcam/smartcamdevice.py, smartcamchild.py and
    kasa/iot/iotdevice.py.  No proofs. *)
From Verif Require Import Base Py Factory_Model.
Open Scope string_scope.
Open Scope list_scope.

(** DeviceType, device_type.py:8-28, with its values, in order *)
Inductive dtype := TPlug | TBulb | TStrip | TCamera | TWallSwitch | TStripSocket | TDimmer | TLightStrip | TSensor | THub | TFan
  | TThermostat | TVacuum | TChime | TDoorbell | TUnknown.
Definition dtypes : list (dtype * string) :=
  [(TPlug, "plug"); (TBulb, "bulb"); (TStrip, "strip"); (TCamera, "camera"); (TWallSwitch, "wallswitch"); (TStripSocket, "stripsocket");
   (TDimmer, "dimmer"); (TLightStrip, "lightstrip"); (TSensor, "sensor"); (THub, "hub"); (TFan, "fan"); (TThermostat, "thermostat");
   (TVacuum, "vacuum"); (TChime, "chime"); (TDoorbell, "doorbell"); (TUnknown, "unknown")].
(** DeviceType.from_value, device_type.py:29-35 *)
Definition dtype_from_value (name : string) : dtype :=
  match find (fun t : dtype * string => String.eqb (snd t) name) dtypes with Some (t, _) => t | None => TUnknown end.
(** x is DeviceType.Unknown *)
Definition is_unknown (t : dtype) : bool := match t with TUnknown => true | _ => false end.

(** SmartDevice._get_device_type_from_components, smartdevice.py:857-888 *)
Definition type_from_components (components : list string) (device_type : string) : dtype :=
  if sin "HUB" device_type then THub
  else if sin "PLUG" device_type then if smem "child_device" components then TStrip else TPlug
  else if smem "light_strip" components then TLightStrip
  else if sin "SWITCH" device_type && smem "child_device" components then TWallSwitch
  else if smem "dimmer_calibration" components then TDimmer
  else if smem "brightness" components then TBulb
  else if sin "SWITCH" device_type then TWallSwitch
  else if sin "SENSOR" device_type then TSensor
  else if sin "ENERGY" device_type then TThermostat
  else if sin "ROBOVAC" device_type then TVacuum
  else if sin "TAPOCHIME" device_type then TChime
  else TPlug.
(** SmartDevice.device_type, smartdevice.py:838-855: the type now known, from [known],
    the "type" and "device_type" of the info and the components *)
Definition smart_type (known : dtype) (info : dict string) (components : list string) : dtype :=
  if negb (is_unknown known) then known
  else
    let type_str := match dget "type" info with
                    | Some t => t
                    | None => match dget "device_type" info with Some t => t | None => "" end
                    end in
    if String.eqb type_str "" || (match components with [] => true | _ => false end) then known
    else type_from_components components type_str.

(** CHILD_DEVICE_TYPE_MAP, smartchilddevice.py:25-36 *)
Definition child_types : dict dtype :=
  [("plug.powerstrip.sub-plug", TPlug); ("subg.plugswitch.switch", TWallSwitch); ("subg.trigger.contact-sensor", TSensor);
   ("subg.trigger.temp-hmdt-sensor", TSensor); ("subg.trigger.water-leak-sensor", TSensor); ("subg.trigger.motion-sensor", TSensor);
   ("kasa.switch.outlet.sub-fan", TFan); ("kasa.switch.outlet.sub-dimmer", TDimmer); ("subg.trv", TThermostat); ("subg.trigger.button", TSensor)].
(** SmartChildDevice.device_type, smartchilddevice.py:142-160; [category] is that of the system
    info, when given *)
Definition child_type (known : dtype) (category : option string) : dtype :=
  if negb (is_unknown known) then known
  else
    match category with
    | Some c => if String.eqb c "" then known else match dget c child_types with Some t => t | None => TUnknown end
    | None => known
    end.

(** s.endswith(x) *)
Definition ends_with (x s : string) : bool :=
  Nat.leb (String.length x) (String.length s) && String.eqb (sdrop (String.length s - String.length x) s) x.
(** SmartCamDevice._get_device_type_from_sysinfo, smartcamdevice.py:26-38 *)
Definition cam_type_of (device_type : option string) : dtype :=
  match device_type with
  | None => TUnknown
  | Some t => if String.eqb t "" then TUnknown else if ends_with "HUB" t then THub else if sin "DOORBELL" t then TDoorbell else TCamera
  end.
(** SmartCamDevice.device_type, 252-257, and SmartCamChild.device_type, smartcamchild.py:88-93 *)
Definition cam_type (known : dtype) (info : dict string) : dtype :=
  if is_unknown known && (match info with [] => false | _ => true end) then cam_type_of (dget "device_type" info) else known.

(** ** Device info *)
(** s.partition(c): the part before the first [c] and the part after it; two empty strings
    follow a string without [c] *)
Fixpoint partition (c : ascii) (s : string) : string * string :=
  match s with
  | EmptyString => (EmptyString, EmptyString)
  | String d s' => if Ascii.eqb c d then (EmptyString, s') else let (a, b) := partition c s' in (String d a, b)
  end.
(** s.replace(c, "") *)
Fixpoint remove (c : ascii) (s : string) : string :=
  match s with EmptyString => EmptyString | String d s' => if Ascii.eqb c d then remove c s' else String d (remove c s') end.
(** The firmware version and build: split at the first space, iotdevice.py:762-766,
    smartdevice.py:918-922, smartcamdevice.py:49-53, smartcamchild.py:105-109 *)
Definition firmware (full : string) : string * option string :=
  if smem_char " " full then let (v, b) := partition " " full in (v, Some b) else (full, None).
(** s.split(c) *)
Fixpoint split (c : ascii) (s : string) : list string :=
  match s with
  | EmptyString => [""]
  | String d s' =>
      if Ascii.eqb c d then "" :: split c s'
      else match split c s' with p :: l => String d p :: l | [] => [String d ""] end
  end.
(** DeviceInfo, device.py:153-166 *)
Record dinfo := mkInfo { i_short : string; i_long : string; i_brand : string; i_family : option string; i_type : dtype;
                         i_hw : string; i_fw : string; i_build : option string; i_auth : bool; i_region : option string }.
(** IotDevice._get_device_info, iotdevice.py:745-780: the system info's texts, the type found by
    _get_device_type_from_sys_info, and whether mgt_encrypt_schm was discovered.  The type is
    taken as given: Factory_Model has the function. *)
Definition iot_info (sys : dict string) (type : res dtype) (encrypt_known : bool) : res dinfo :=
  let! device_model := dindex "model" sys in
  let (long_name, region) := partition "(" device_model in
  let region := if String.eqb region "" then region else remove ")" region in
  let family := match dget "type" sys with Some t => Some t | None => dget "mic_type" sys end in
  let! t := type in
  let! full := dindex "sw_ver" sys in
  let (v, b) := firmware full in
  let! hw := dindex "hw_ver" sys in
  Ok (mkInfo long_name long_name "kasa" family t hw v b encrypt_known (Some region)).
(** SmartDevice._get_device_info, smartdevice.py:889-935; [discovered] is the "device_model" of
    the discovery info, when there is any *)
Definition smart_info (di : dict string) (components : list string) (discovered : option string) : res dinfo :=
  let! short := dindex "model" di in
  let (long, region) := match discovered with
                        | Some m =>
                            let (l, r) := partition "(" m in
                            (l, Some (if String.eqb r "" then r else remove ")" r))
                        | None => (short, None)
                        end in
  let region := match region with
                | Some r => if String.eqb r "" then dget "specs" di else Some r
                | None => dget "specs" di
                end in
  let! family := dindex "type" di in
  let t := type_from_components components family in
  let! full := dindex "fw_ver" di in
  let (v, b) := firmware full in
  let! devicetype := match split "." family with [_; d] => Ok d | _ => Err PyValueError end in
  let! hw := dindex "hw_ver" di in
  Ok (mkInfo short long (lower (stake 4 devicetype)) (Some family) t hw v b true region).
(** SmartCamDevice._get_device_info, smartcamdevice.py:40-65, and SmartCamChild._get_device_info,
    smartcamchild.py:95-121: a child is described by its parent, under other keys *)
Definition cam_info (basic : dict string) (discovered : option string) : res dinfo :=
  let! short := dindex "device_model" basic in
  let t := cam_type_of (dget "device_type" basic) in
  let! full := dindex "sw_version" basic in
  let (v, b) := firmware full in
  let! family := dindex "device_type" basic in
  let! hw := dindex "hw_version" basic in
  Ok (mkInfo short (match discovered with Some m => m | None => short end) "tapo" (Some family) t hw v b true (dget "region" basic)).
Definition cam_child_info (cifp : dict string) : res dinfo :=
  let! model := dindex "device_model" cifp in
  let t := cam_type_of (dget "device_type" cifp) in
  let! full := dindex "sw_ver" cifp in
  let (v, b) := firmware full in
  let! family := dindex "device_type" cifp in
  let! hw := dindex "hw_ver" cifp in
  Ok (mkInfo model model "tapo" (Some family) t hw v b true (dget "region" cifp)).
(** {mappings.get(k, k): v for k, v in d.items()}: _map_info, smartcamdevice.py:224-235, and
    _map_child_info_from_parent, smartcamchild.py:66-73 *)
Definition renamed {A} (mappings : dict string) (d : dict A) : dict A :=
  fold_left (fun acc kv => dset (match dget (fst kv) mappings with Some k => k | None => fst kv end) (snd kv) acc) d [].
Definition cam_keys : dict string :=
  [("device_model", "model"); ("device_alias", "alias"); ("sw_version", "fw_ver"); ("hw_version", "hw_ver"); ("hw_id", "hwId"); ("dev_id", "device_id")].
Definition cam_child_keys : dict string := [("device_model", "model"); ("sw_ver", "fw_ver"); ("hw_id", "hwId")].

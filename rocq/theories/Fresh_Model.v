(** Device objects before their first update: what they show of themselves and whether
    commands reach the device.  Models requires_update and the properties of
    kasa/iot/iotdevice.py, iotplug.py, iotbulb.py, iotstrip.py, iotcamera.py,
    kasa/smart/smartdevice.py and kasa/smartcam/smartcamdevice.py.  No proofs. *)
From Verif Require Import Base Py Factory_Model DevType_Model Sensor_Model Setup_Model.
Open Scope string_scope.
Open Scope list_scope.
Open Scope Z_scope.

(** ** Legacy devices *)
(** The classes by how they answer is_on and time: plugs, switches and dimmers; bulbs and
    light strips; strips; cameras *)
Inductive kind := KPlug | KBulb | KStrip | KCamera.
(** _last_update, _sys_info, the reply of the time module once there are modules (None:
    modules is None, iotdevice.py:197), the sockets of a strip that have objects *)
Record legacy := mkLegacy { l_last : json; l_sys : option (dict json); l_time : option json; l_sockets : list string }.
(** __init__, iotdevice.py:185-201, device.py:221 *)
Definition new_legacy : legacy := mkLegacy (JObj []) None None [].
(** update_from_discover_info, iotdevice.py:445-457 *)
Definition discovered_legacy (info : json) : res legacy :=
  let! has := jcontains "system" info in
  let! sys := (if has then let! s := jitem "system" info in jget "get_sysinfo" s else Ok JNull) in
  if truthy sys then
    match sys with JObj d => Ok (mkLegacy info (Some d) None []) | _ => Err PyAttributeError end
  else
    let! m := jitem "device_model" info in
    match m, info with
    | JStr m, JObj d => Ok (mkLegacy (JObj []) (Some (dset "model" (JStr (fst (partition "(" m))) d)) None [])
    | _, _ => Err PyAttributeError
    end.
(** The ids of the sockets, iotstrip.py:134-143 *)
Definition socket_ids (d : dict json) : list string :=
  match dget "children" d with
  | Some (JArr l) => flat_map (fun c => match c with JObj c => match dget "id" c with Some (JStr i) => [i] | _ => [] end | _ => [] end) l
  | _ => []
  end.
(** After an update that was answered with [response], whose time module says [time]
    (iotdevice.py:302-329, iotstrip.py:124-150) *)
Definition updated_legacy (k : kind) (response time : json) : res legacy :=
  let! sys := extract_sys_info response in
  match sys with
  | JObj d => Ok (mkLegacy response (Some d) (Some time) (match k with KStrip => socket_ids d | _ => [] end))
  | _ => Err PyAttributeError
  end.

(** What can be read *)
Inductive prop := PModel | PAlias | PMac | PDeviceId | PRssi | PHwInfo | PSysInfo | PTime | PIsOn.
(** requires_update, iotdevice.py:39-64 *)
Definition guard (o : legacy) (name : string) : res unit := requires_update (truthy (l_last o)) (l_sys o) name.
Definition sys_of (o : legacy) : res (dict json) := match l_sys o with Some d => Ok d | None => Err PyTypeError end.
(** device_info.short_name, iotdevice.py:745-780, device.py:342-344 *)
Definition short_name (o : legacy) : res json :=
  let! s := extract_sys_info (l_last o) in
  let! m := jitem "model" s in
  match m with
  | JStr m =>
      let! _ := type_from_sys_info (l_last o) in
      let! _ := jitem "sw_ver" s in
      let! _ := jitem "hw_ver" s in
      Ok (JStr (fst (partition "(" m)))
  | _ => Err PyAttributeError
  end.
(** IotStripPlug.is_on, iotstrip.py:418-423, 482-490 *)
Definition socket_is_on (d : dict json) (id : string) : res bool :=
  let! l := dindex "children" d in
  let! l := jiter l in
  match find (fun c => match c with JObj c => match dget "id" c with Some (JStr i) => String.eqb i id | _ => false end | _ => false end) l with
  | Some c => let! s := jitem "state" c in Ok (truthy s)
  | None => Err KKasa
  end.
(** any(plug.is_on for plug in self.children), iotstrip.py:118-122 *)
Fixpoint any_on (d : dict json) (ids : list string) : res bool :=
  match ids with
  | [] => Ok false
  | i :: ids => let! b := socket_is_on d i in if b then Ok true else any_on d ids
  end.
(** light_state, iotbulb.py:270-286, and is_on, 495-500 *)
Definition bulb_on (d : dict json) : res bool :=
  let! ls := dindex "light_state" d in
  match ls with
  | JNull => Err KKasa
  | _ =>
      let! on := jitem "on_off" ls in
      if truthy on then Ok true else
      let! dft := jitem "dft_on_state" ls in
      match dft with JObj _ => Ok false | _ => Err PyTypeError end
  end.
(** The properties; a boolean is given as JSON *)
Definition legacy_read (k : kind) (o : legacy) (p : prop) : res json :=
  match p with
  | PModel =>                                                  (* iotdevice.py:476-482 *)
      let! _ := guard o "model" in
      if truthy (l_last o) then short_name o else let! d := sys_of o in dindex "model" d
  | PAlias => Ok (match iot_alias (l_sys o) with Some v => v | None => JNull end)       (* 484-488 *)
  | PMac => let! _ := guard o "mac" in let! d := sys_of o in let! m := mac d in Ok (JStr m)  (* 567-584 *)
  | PDeviceId =>                                               (* 651-659 *)
      let! _ := guard o "device_id" in let! _ := guard o "mac" in let! d := sys_of o in let! m := mac d in Ok (JStr m)
  | PRssi => let! r := iot_rssi (truthy (l_last o)) (l_sys o) in Ok (match r with Some z => JInt z | None => JNull end)
  | PHwInfo => let! r := iot_hw_info (truthy (l_last o)) (l_sys o) in Ok (JObj r)
  | PSysInfo => let! _ := guard o "sys_info" in let! d := sys_of o in Ok (JObj d)      (* 465-474 *)
  | PTime =>
      match k with
      | KCamera => let! _ := guard o "sys_info" in let! d := sys_of o in dindex "system_time" d   (* iotcamera.py:29-32, as seconds *)
      | _ =>                                                   (* iotdevice.py:494-498, 207-213 *)
          let! _ := guard o "time" in let! _ := guard o "modules" in
          match l_time o with Some t => Ok t | None => Err PyTypeError end
      end
  | PIsOn =>
      match k with
      | KCamera => Ok (JBool true)                             (* iotcamera.py:39-42 *)
      | KPlug =>                                               (* iotplug.py:68-73 *)
          let! _ := guard o "is_on" in let! _ := guard o "sys_info" in
          let! d := sys_of o in let! v := dindex "relay_state" d in Ok (JBool (truthy v))
      | KBulb =>
          let! _ := guard o "is_on" in let! _ := guard o "light_state" in let! _ := guard o "sys_info" in
          let! d := sys_of o in let! b := bulb_on d in Ok (JBool b)
      | KStrip =>
          let! _ := guard o "is_on" in
          match l_sockets o with
          | [] => Ok (JBool false)
          | ids => let! d := sys_of o in let! b := any_on d ids in Ok (JBool b)
          end
      end
  end.

(** What is sent by turn_on and turn_off: of a plug (iotplug.py:75-81) always the relay
    command; of a strip (iotstrip.py:159-171) one for every socket object in the other
    state *)
Definition relay (on : bool) : json := JObj [("system", JObj [("set_relay_state", JObj [("state", JInt (if on then 1 else 0))])])].
Definition socket_relay (id : string) (on : bool) : json :=
  JObj [("context", JObj [("child_ids", JArr [JStr id])]); ("system", JObj [("set_relay_state", JObj [("state", JInt (if on then 1 else 0))])])].
Definition plug_switch (o : legacy) (on : bool) : res (list json) := Ok [relay on].
Fixpoint sockets_switch (d : dict json) (ids : list string) (on : bool) : res (list json) :=
  match ids with
  | [] => Ok []
  | i :: ids =>
      let! b := socket_is_on d i in
      let! r := sockets_switch d ids on in
      Ok (if Bool.eqb b on then r else socket_relay i on :: r)
  end.
Definition strip_switch (o : legacy) (on : bool) : res (list json) :=
  match l_sockets o with [] => Ok [] | ids => let! d := sys_of o in sockets_switch d ids on end.

(** ** SMART devices and cameras: [info] is _info, empty for a new object, the discovery
    information for a discovered one (smartdevice.py:78, 728-735); there are no modules *)
(** str(v) of a value that is a text or missing; other values do not occur *)
Definition pstr (v : option json) : string := match v with Some (JStr s) => s | Some _ => "?" | None => "None" end.
Definition smart_model (info : dict json) : string := fst (partition "(" (pstr (dget "device_model" info))).    (* 586-594 *)
Definition smart_mac (info : dict json) : string := dash_to_colon (pstr (dget "mac" info)).                     (* 672-675 *)
Definition smart_device_id (info : dict json) : string := pstr (dget "device_id" info).                         (* 677-680 *)
Definition smart_on (info : dict json) : bool := match dget "device_on" info with Some v => truthy v | None => false end.  (* 709-712 *)
(** time, smartdevice.py:605-614: of the time module of the device or of its parent, else
    the clock of the computer *)
Definition smart_time (own parent : option Z) (local : Z) : Z :=
  match own with Some t => t | None => match parent with Some t => t | None => local end end.
(** set_state, smartdevice.py:714-719 *)
Definition smart_switch (on : bool) : list (string * json) := [("set_device_info", JObj [("device_on", JBool on)])].
(** The camera module: disabled, and whether the camera is on *)
Record lens := mkLens { ln_disabled : bool; ln_on : bool }.
(** is_on and set_state of a camera, smartcamdevice.py:238-250; what the module sends is
    modules/camera.py:51-66 via lensmask.py:22-33, for cameras with a lens mask *)
Definition camera_on (m : option lens) : bool :=
  match m with Some l => if ln_disabled l then true else ln_on l | None => true end.
Definition mask (on : bool) : string * json :=
  ("setLensMaskConfig", JObj [("lens_mask", JObj [("lens_mask_info", JObj [("enabled", JStr (if on then "off" else "on"))])])]).
Definition camera_switch (m : option lens) (on : bool) : list (string * json) :=
  match m with Some l => if ln_disabled l then [] else [mask on] | None => [] end.

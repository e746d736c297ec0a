(** The commands of the modules of legacy devices: kasa/iot/modules/rulemodule.py, usage.py, emeter.py,
    ambientlight.py and cloud.py, with the services the device classes give their modules.
    No proofs. *)
From Verif Require Import Base Py Iot_Model.
Open Scope string_scope.
Open Scope list_scope.
Open Scope Z_scope.

(** The objects: a plug or switch, one with motion sensor or a dimmer, a bulb or light strip, a power strip,
    and the socket of one with its id. *)
Inductive owner := OPlug | OSwitch | OBulb | OStrip | OSocket (id : string).
Inductive module := Schedule | Usage | Antitheft | Countdown | Energy | Ambient | Cloud.
(** The modules of each class and their services: iotplug.py:58-66 and 97-104, iotdimmer.py:83-91,
    iotbulb.py:214-229, iotstrip.py:102-116 and 333-340, Energy of a device with a meter iotdevice.py:337.
    Energy of a strip, the sum of its sockets', is Stats_Model's.
    emeter_type: iotdevice.py:183, iotbulb.py:202, iotstrip.py:99 *)
Definition emeter_type (o : owner) : string := match o with OBulb => "smartlife.iot.common.emeter" | _ => "emeter" end.
Definition service (o : owner) (m : module) : option string :=
  match o, m with
  | OBulb, (Schedule | Usage) => Some "smartlife.iot.common.schedule"
  | OBulb, Antitheft => Some "smartlife.iot.common.anti_theft"
  | OBulb, Cloud => Some "smartlife.iot.common.cloud"
  | OBulb, Ambient => None
  | OSocket _, Cloud | OSocket _, Ambient => None
  | OStrip, Energy | OStrip, Ambient | OPlug, Ambient => None
  | (OPlug | OSwitch), Countdown => None
  | _, (Schedule | Usage) => Some "schedule"
  | _, Antitheft => Some "anti_theft"
  | _, Countdown => Some "countdown"
  | _, Energy => Some (emeter_type o)
  | _, Ambient => Some "smartlife.iot.LAS"
  | _, Cloud => Some "cnCloud"
  end.
(** The socket whose id goes along, iotstrip.py:405-415 *)
Definition child_of (o : owner) : option (list string) := match o with OSocket id => Some [id] | _ => None end.

Inductive op :=
| SetEnabled (b : bool) | DeleteRule (id : string) | DeleteAll          (* rulemodule.py:77-87 *)
| EraseUsage                                                          (* usage.py:100-102 *)
| EraseEnergy                                                         (* emeter.py:73-78 *)
| AmbientEnable (b : bool) | AmbientLimit (z : Z)                     (* ambientlight.py:77-79, 88-93 *)
| CloudFirmwares | CloudServer (url : string) | CloudConnect (user password : string) | CloudDisconnect.   (* cloud.py:61-77 *)
(** The method and its arguments *)
Definition call_of (p : op) : string * option json :=
  match p with
  | SetEnabled b => ("set_overall_enable", Some (JObj [("enable", JBool b)]))
  | DeleteRule id => ("delete_rule", Some (JObj [("id", JStr id)]))
  | DeleteAll => ("delete_all_rules", None)
  | EraseUsage => ("erase_runtime_stat", None)
  | EraseEnergy => ("erase_emeter_stat", None)
  | AmbientEnable b => ("set_enable", Some (JObj [("enable", JInt (if b then 1 else 0))]))
  | AmbientLimit z => ("set_brt_level", Some (JObj [("index", JInt 0); ("value", JInt z)]))
  | CloudFirmwares => ("get_intl_fw_list", None)
  | CloudServer url => ("set_server_url", Some (JObj [("server", JStr url)]))
  | CloudConnect u p => ("bind", Some (JObj [("username", JStr u); ("password", JStr p)]))
  | CloudDisconnect => ("unbind", None)
  end.
Definition is_cloud (p : op) : bool :=
  match p with CloudFirmwares | CloudServer _ | CloudConnect _ _ | CloudDisconnect => true | _ => false end.
Section Send.
Variable reply : json -> res json.
(** IotModule.call, iotmodule.py:35-37, through _query_helper; query_for_command, 39-41, only builds the
    request.  Sockets have no cloud module. *)
Definition command (o : owner) (svc : string) (p : op) : M (list json) json :=
  let (m, a) := call_of p in
  if is_cloud p then mret (create_request svc m a (child_of o))
  else
    let req := create_request svc m a (child_of o) in
    fun log => (log ++ [req], query_helper svc m (reply req)).
End Send.

(** Switching devices with the command line tool: on, off and toggle (kasa/cli/device.py), for one of the
    children if asked (kasa/cli/common.py), over the objects of all kinds of devices.  What the tool
    prints is left out.  No proofs. *)
From Verif Require Import Base Py IotLight_Model SmartLight_Model Scene_Model Gadget_Model CamMod_Model Strip_Model.
Open Scope string_scope.
Open Scope list_scope.
Open Scope Z_scope.

(** An object after an update: its kind and what the update read.  [camera]: whether there is a camera
    module, and whether it is disabled; [lens]: whether there is a privacy mask, and whether it is on.
    A SMART child is a SMART device with its own information. *)
Inductive view :=
| VPlug (sys : dict pv)
| VBulb (b : bulb) (sys : dict pv)
| VDimmer (sys : dict pv)
| VSmart (info : dict pv)
| VCamera (camera : option bool) (lens : option (res bool))
| VStrip (infos : list child) (plugs : list string)
| VSocket (infos : list child) (id : string).
(** What is sent: a legacy request, a SMART one, one to a camera, one to a socket of a legacy strip *)
Inductive sent := SIot (r : IotLight_Model.request) | SSmart (c : SmartLight_Model.call) | SCam (c : cmd) | SSocket (c : command).

(** is_on: iotplug.py:69-73, iotbulb.py:495-500, smartdevice.py:709-712, smartcamdevice.py:237-243,
    iotstrip.py:118-122 and 418-422 *)
Definition is_on (v : view) : res bool :=
  match v with
  | VPlug sys | VDimmer sys => Scene_Model.plug_is_on sys
  | VBulb _ sys => bulb_is_on sys
  | VSmart info => Ok (smart_is_on info)
  | VCamera camera lens => device_is_on camera lens
  | VStrip infos plugs => strip_is_on infos plugs
  | VSocket infos id => Strip_Model.plug_is_on infos id
  end.
(** Part of a larger run *)
Definition relabel {A X} (f : A -> sent) (m : M (list A) X) : M (list sent) unit :=
  fun log => let (l, r) := m [] in (log ++ map f l, let! _ := r in Ok tt).
(** _brightness, iotdimmer.py:93-102, as [dimmer_turn_on] takes it *)
Definition brightness_of (sys : dict pv) : dimmer := match dimmer_brightness sys with Ok (AInt z) => Some z | _ => None end.
Section Send.
Variable reply : sent -> res json.
(** turn_on and turn_off: iotplug.py:75-81, iotbulb.py:502-514, iotdimmer.py:138-159, smartdevice.py:721-727,
    smartcamdevice.py:245-250, iotstrip.py:162-174, and a socket's through 405-415 *)
Definition turn (v : view) (on : bool) (t : option arg) : M (list sent) unit :=
  match v with
  | VPlug _ => relabel SIot (IotLight_Model.send (fun r => reply (SIot r)) (relay on))
  | VBulb b _ => relabel SIot (bulb_turn (fun r => reply (SIot r)) b on t)
  | VDimmer sys =>
      relabel SIot (if on then dimmer_turn_on (fun r => reply (SIot r)) (brightness_of sys) t else dimmer_turn_off (fun r => reply (SIot r)) t)
  | VSmart _ => relabel SSmart (smart_turn (fun c => reply (SSmart c)) on)
  | VCamera camera lens =>
      relabel SCam (device_set_state (fun c => reply (SCam c)) camera (match lens with Some _ => true | None => false end) on)
  | VStrip infos plugs => relabel SSocket (switch_all (fun c => let! _ := reply (SSocket c) in Ok tt) on infos plugs)
  | VSocket _ id =>
      let c := (id, if on then 1 else 0) in
      fun log => (log ++ [SSocket c], let! _ := reply (SSocket c) in Ok tt)
  end.
(** on, off and toggle, cli/device.py:102-130 *)
Inductive power_cmd := On | Off | Toggle.
Definition power (v : view) (c : power_cmd) (t : option arg) : M (list sent) unit :=
  match c with
  | On => turn v true t
  | Off => turn v false t
  | Toggle => do! b <- mlift (is_on v) ;; if b then turn v false t else turn v true t
  end.
(** The same with --child or --child-index: pass_dev_or_child, cli/common.py:117-164; [kids]: the children,
    [kid]: the object of a child *)
Definition tool_power (v : view) (kids : list Strip_Model.dev) (kid : string -> view) (o : child_opt) (index : option Z) (c : power_cmd) (t : option arg)
  : M (list sent) unit :=
  match cli_child o index kids with
  | Err e => mfail e
  | Ok None => power v c t
  | Ok (Some k) => power (kid (v_id k)) c t
  end.
End Send.

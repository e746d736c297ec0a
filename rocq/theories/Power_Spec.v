(** Devices that are switched (C149): how they take requests and what they report. *)
From Verif Require Import Base Py IotLight_Model SmartLight_Model Gadget_Model Strip_Model Scene_Spec Power_Model.
Open Scope string_scope.
Open Scope list_scope.
Open Scope Z_scope.

(** A camera has a privacy mask, on or not, or none.  A legacy strip has sockets with ids. *)
Inductive thing :=
| TPlug (on : bool)
| TBulb (b : bulb) (l : lamp)
| TDimmer (l : lamp)
| TSmart (on : bool)
| TCamera (mask : option bool)
| TStrip (sockets : dict bool).
(** The mask a write to a camera asks for *)
Definition asked_mask (c : cmd) : option bool :=
  if String.eqb (k_method c) "setLensMaskConfig" then
    match dget "lens_mask" (k_params c) with
    | Some (JObj m) =>
        match dget "lens_mask_info" m with
        | Some (JObj f) =>
            match dget "enabled" f with
            | Some (JStr s) => if String.eqb s "on" then Some true else if String.eqb s "off" then Some false else None
            | _ => None
            end
        | _ => None
        end
    | _ => None
    end
  else None.
Definition takes (d : thing) (s : sent) : thing :=
  match d, s with
  | TPlug on, SIot r => TPlug (shines (dimmer_takes (mkLamp on 0 0 0 0) r))
  | TBulb b l, SIot r => TBulb b (bulb_takes b l r)
  | TDimmer l, SIot r => TDimmer (dimmer_takes l r)
  | TSmart on, SSmart c => TSmart (shines (smart_takes (mkLamp on 0 0 0 0) c))
  | TCamera (Some m), SCam c => TCamera (Some (match asked_mask c with Some x => x | None => m end))
  | TStrip ss, SSocket (id, n) => TStrip (map (fun s => (fst s, if String.eqb (fst s) id then negb (n =? 0) else snd s)) ss)
  | _, _ => d
  end.
(** An update of the object has read the device as it is. *)
Definition sees (v : view) (d : thing) : Prop :=
  match v, d with
  | VPlug sys, TPlug on => says sys "relay_state" (if on then 1 else 0)
  | VBulb b sys, TBulb b' l => b = b' /\ bulb_reports sys l
  | VDimmer sys, TDimmer l => dimmer_reports sys l
  | VSmart info, TSmart on => dget "device_on" info = Some (PBool on)
  | VCamera camera lens, TCamera mask => camera = Some false /\ lens = option_map Ok mask
  | VStrip infos plugs, TStrip ss => map (fun c => (c_id c, c_state c)) infos = ss /\ plugs = dkeys ss /\ dwf ss
  | VSocket infos id, TStrip ss => map (fun c => (c_id c, c_state c)) infos = ss /\ In id (dkeys ss) /\ dwf ss
  | _, _ => False
  end.
(** Whether what the object stands for is on: the socket, or any socket of the strip *)
Definition powered (v : view) (d : thing) : bool :=
  match d with
  | TPlug on | TSmart on => on
  | TBulb _ l | TDimmer l => shines l
  | TCamera (Some m) => negb m
  | TCamera None => true
  | TStrip ss =>
      match v with
      | VSocket _ id => match dget id ss with Some b => b | None => false end
      | _ => existsb snd ss
      end
  end.
Definition wanted (c : power_cmd) (now : bool) : bool := match c with On => true | Off => false | Toggle => negb now end.
(** The device can be what is wanted: a strip has a socket to switch on, and a camera a mask to hide behind. *)
Definition able (d : thing) (on : bool) : Prop :=
  match d with
  | TCamera None => on = true
  | TStrip [] => on = false
  | _ => True
  end.
(** What switching leaves as it is *)
Definition looks_same (a b : lamp) : Prop := l_hue a = l_hue b /\ l_sat a = l_sat b /\ l_temp a = l_temp b /\ l_bright a = l_bright b.
Definition otherwise_same (v : view) (d d' : thing) (on : bool) : Prop :=
  match d, d' with
  | TPlug _, TPlug _ | TSmart _, TSmart _ => True
  | TBulb b l, TBulb b' l' => b' = b /\ looks_same l l'
  | TDimmer l, TDimmer l' => looks_same l l'
  | TCamera None, TCamera None | TCamera (Some _), TCamera (Some _) => True
  | TStrip ss, TStrip ss' =>
      dkeys ss' = dkeys ss /\
      match v with
      | VSocket _ id => forall x, x <> id -> dget x ss' = dget x ss
      | _ => forall x b, dget x ss' = Some b -> b = on
      end
  | _, _ => False
  end.
(** What was done so far when something failed: nothing moves away from what is wanted. *)
Definition steady (v : view) (d d' : thing) (on : bool) : Prop :=
  match d, d' with
  | TStrip ss, TStrip ss' => forall x b, dget x ss' = Some b -> dget x ss = Some b \/ b = on
  | _, _ => powered v d' = powered v d \/ powered v d' = on
  end.
(** A transition a dimmer takes: whole milliseconds, not negative, to a brightness that is one; others
    take any. *)
Definition timely (d : thing) (t : option arg) : Prop :=
  match d, t with
  | TDimmer l, Some t => 1 <= l_bright l <= 100 /\ exists z, t = AInt z /\ 0 <= z
  | _, _ => True
  end.

(** Lights as their owner sees them: what a command asks for, how a light takes a request and
    what it then reports. *)
From Verif Require Import Base Py IotLight_Model SmartLight_Model.
Open Scope string_scope.
Open Scope list_scope.
Open Scope Z_scope.

(** A light: whether it shines, and the looks it has, or will have when switched on. *)
Record lamp := mkLamp { shines : bool; l_hue : Z; l_sat : Z; l_temp : Z; l_bright : Z }.

(** ** What the owner can ask for.  Transition times do not matter to the outcome. *)
Inductive wish :=
  | Turn (on : bool) (t : option Z)
  | Bright (v : Z) (t : option Z)
  | Colour (h s : Z) (v : option Z) (t : option Z)
  | Warmth (k : Z) (v : option Z) (t : option Z)
  | Look (on : option bool) (v h s k : option Z) (t : option Z).
Definition given (o : option Z) (old : Z) : Z := match o with Some z => z | None => old end.
(** Brightness zero means off. *)
Definition lit (v : option Z) (old : Z) : Z := match v with Some 0 => old | Some z => z | None => old end.
Definition dark (on : option bool) (v : option Z) : bool := match on, v with Some false, _ => true | _, Some 0 => true | _, _ => false end.
(** [wakes]: setting a brightness, a colour or a warmth also switches the light on. *)
Definition granted (wakes : bool) (d : lamp) (w : wish) : lamp :=
  match w with
  | Turn on _ => mkLamp on (l_hue d) (l_sat d) (l_temp d) (l_bright d)
  | Bright v _ => if v =? 0 then mkLamp false (l_hue d) (l_sat d) (l_temp d) (l_bright d)
                  else mkLamp (wakes || shines d) (l_hue d) (l_sat d) (l_temp d) v
  | Colour h s v _ => mkLamp (wakes || shines d) h s 0 (given v (l_bright d))
  | Warmth k v _ => mkLamp (wakes || shines d) (l_hue d) (l_sat d) k (given v (l_bright d))
  | Look on v h s k _ => mkLamp (negb (dark on v)) (given h (l_hue d)) (given s (l_sat d)) (given k (l_temp d)) (lit v (l_bright d))
  end.
(** A brightness given with a colour or a warmth is not zero. *)
Definition sensible (w : wish) : Prop :=
  match w with Colour _ _ v _ | Warmth _ v _ => forall z, v = Some z -> 1 <= z <= 100 | _ => True end.
(** A state that is off asks for no brightness. *)
Definition settled (w : wish) : Prop :=
  match w with Look (Some false) (Some v) _ _ _ _ => v = 0 | _ => True end.

(** ** How lights take requests: fields that are given replace the old ones. *)
Definition field (k : string) (params : dict arg) (old : Z) : Z := match dget k params with Some (AInt z) => z | _ => old end.
Definition bulb_takes (b : bulb) (d : lamp) (r : request) : lamp :=
  if String.eqb (service r) (if is_strip b then "smartlife.iot.lightStrip" else "smartlife.iot.smartbulb.lightingservice")
     && String.eqb (method r) (if is_strip b then "set_light_state" else "transition_light_state")
  then let f k := field k (params r) in
       mkLamp (negb (f "on_off" (if shines d then 1 else 0) =? 0)) (f "hue" (l_hue d)) (f "saturation" (l_sat d))
              (f "color_temp" (l_temp d)) (f "brightness" (l_bright d))
  else d.
Definition dimmer_takes (d : lamp) (r : request) : lamp :=
  let f k := field k (params r) in
  let on x := mkLamp x (l_hue d) (l_sat d) (l_temp d) (l_bright d) in
  if String.eqb (service r) "system" && String.eqb (method r) "set_relay_state" then on (negb (f "state" 0 =? 0))
  else if String.eqb (service r) "smartlife.iot.dimmer" && String.eqb (method r) "set_brightness"
  then mkLamp (shines d) (l_hue d) (l_sat d) (l_temp d) (f "brightness" (l_bright d))
  else if String.eqb (service r) "smartlife.iot.dimmer" && String.eqb (method r) "set_dimmer_transition"
  then (if f "brightness" 0 =? 0 then on false else mkLamp true (l_hue d) (l_sat d) (l_temp d) (f "brightness" 0))
  else d.
Definition sfield (k : string) (params : dict pv) (old : Z) : Z := match dget k params with Some (PNum (AInt z)) => z | _ => old end.
Definition smart_takes (d : lamp) (c : call) : lamp :=
  if String.eqb (c_method c) "set_device_info"
  then let f k := sfield k (c_params c) in
       mkLamp (match dget "device_on" (c_params c) with Some (PBool x) => x | _ => shines d end)
              (f "hue" (l_hue d)) (f "saturation" (l_sat d)) (f "color_temp" (l_temp d)) (f "brightness" (l_bright d))
  else d.

(** ** What lights report *)
Definition says (d : dict pv) (k : string) (z : Z) : Prop := dget k d = Some (PNum (AInt z)).
Definition looks (fields : dict pv) (d : lamp) : Prop :=
  says fields "hue" (l_hue d) /\ says fields "saturation" (l_sat d) /\ says fields "color_temp" (l_temp d) /\ says fields "brightness" (l_bright d).
(** A bulb reports its looks in its light state, or while off in the state for turning on. *)
Definition bulb_reports (sys : dict pv) (d : lamp) : Prop :=
  exists ls, dget "light_state" sys = Some (PObj ls) /\
    if shines d then says ls "on_off" 1 /\ looks ls d
    else says ls "on_off" 0 /\ exists dft, dget "dft_on_state" ls = Some (PObj dft) /\ looks dft d.
Definition dimmer_reports (sys : dict pv) (d : lamp) : Prop :=
  says sys "relay_state" (if shines d then 1 else 0) /\ says sys "brightness" (l_bright d).
(** A SMART light reports what it is capable of; other fields may be there or not. *)
Definition smart_reports (dim colour temp : bool) (info : dict pv) (d : lamp) : Prop :=
  dget "device_on" info = Some (PBool (shines d)) /\
  (dim = true -> says info "brightness" (l_bright d)) /\
  (colour = true -> says info "hue" (l_hue d) /\ says info "saturation" (l_sat d) /\ says info "brightness" (l_bright d)) /\
  (temp = true -> says info "color_temp" (l_temp d)).

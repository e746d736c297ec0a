(** What lights report after an update: kasa/iot/iotbulb.py, iotdimmer.py, iotplug.py,
    iot/modules/light.py, kasa/smart/smartdevice.py, smart/modules/light.py, brightness.py, color.py and
    colortemperature.py.  The device has been updated, so the checks of [requires_update] pass.
    No proofs. *)
From Coq Require Import QArith.
From Verif Require Import Base Py IotLight_Model SmartLight_Model Preset_Model.
Open Scope string_scope.
Open Scope list_scope.
Open Scope Z_scope.

(** A reported value used as a number.  A value that is no number would be handed out as it is;
    here it is an error. *)
Definition as_num (v : pv) : res arg := match v with PNum a => Ok a | _ => Err PyTypeError end.
(** bool(v) *)
Definition truth (v : pv) : bool :=
  match v with
  | PNum a => negb (eqb_arg a (AInt 0))
  | PBool b => b
  | PObj d => match d with [] => false | _ => true end
  | PList l => match l with [] => false | _ => true end
  end.

(** ** Legacy bulbs and light strips.  [sys]: the system information. *)
(** light_state, iotbulb.py:270-287.  A null light_state is treated as a missing one. *)
Definition bulb_light_state (sys : dict pv) : res (dict pv) :=
  let! ls := dindex "light_state" sys in
  match ls with
  | PObj ls =>
      let! on := dindex "on_off" ls in
      if negb (truth on) then
        let! dft := dindex "dft_on_state" ls in
        match dft with PObj dft => Ok (dset "on_off" on dft) | _ => Err PyTypeError end
      else Ok ls
  | _ => Err PyTypeError
  end.
(** is_on, iotbulb.py:495-500 *)
Definition bulb_is_on (sys : dict pv) : res bool :=
  let! ls := bulb_light_state sys in
  let! on := dindex "on_off" ls in Ok (truth on).
(** _brightness, iotbulb.py:461-476, behind brightness, iot/modules/light.py:94-98; [effect]: the brightness of the
    effect, while one is active *)
Definition bulb_brightness (b : bulb) (effect : option arg) (sys : dict pv) : res arg :=
  if negb (is_dimmable b) then Err KKasa
  else match effect with
       | Some v => Ok v
       | None =>
           let! ls := bulb_light_state sys in
           let! v := dindex "brightness" ls in
           let! v := as_num v in Ok (int_arg v)
       end.
(** _hsv, iotbulb.py:356-374, behind hsv, iot/modules/light.py:111-119 *)
Definition bulb_hsv (b : bulb) (effect : option arg) (sys : dict pv) : res (arg * arg * arg) :=
  if negb (is_color b) then Err KKasa
  else
    let! ls := bulb_light_state sys in
    let! h := dindex "hue" ls in
    let! h := as_num h in
    let! s := dindex "saturation" ls in
    let! s := as_num s in
    let! v := bulb_brightness b effect sys in
    Ok (h, s, v).
(** _color_temp, iotbulb.py:418-427, behind color_temp, iot/modules/light.py:142-150 *)
Definition bulb_color_temp (b : bulb) (sys : dict pv) : res arg :=
  if negb (is_variable b) then Err KKasa
  else
    let! ls := bulb_light_state sys in
    let! t := dindex "color_temp" ls in
    let! t := as_num t in Ok (int_arg t).

(** ** Legacy plugs and dimmers *)
(** is_on, iotplug.py:69-74 *)
Definition plug_is_on (sys : dict pv) : res bool := let! v := dindex "relay_state" sys in Ok (truth v).
(** _is_dimmable, iotdimmer.py:225-230 *)
Definition dimmer_dimmable (sys : dict pv) : bool := dmem "brightness" sys.
(** _brightness, iotdimmer.py:93-102 *)
Definition dimmer_brightness (sys : dict pv) : res arg :=
  if negb (dimmer_dimmable sys) then Err KKasa
  else let! v := dindex "brightness" sys in let! v := as_num v in Ok (int_arg v).

(** ** SMART lights.  [info]: the device info; [dim], [colour], [temp]: whether there are the
    modules Brightness, Color and ColorTemperature. *)
(** is_on, smartdevice.py:709-712 *)
Definition smart_is_on (info : dict pv) : bool := match dget "device_on" info with Some v => truth v | None => false end.
(** set_state, turn_on and turn_off, smartdevice.py:714-727 *)
Definition smart_turn (reply : call -> res json) (on : bool) : M (list call) json :=
  do_call reply (mkCall "set_device_info" [("device_on", PBool on)]).
(** Brightness.brightness, brightness.py:41-50, behind light.py:55-61; [effect]: the brightness of the effect,
    while one is active *)
Definition smart_brightness (dim : bool) (effect : option arg) (info : dict pv) : res arg :=
  if negb dim then Err KKasa
  else match effect with Some v => Ok v | None => let! v := dindex "brightness" info in as_num v end.
(** self.data.get(k, 0) *)
Definition get_or_0 (k : string) (info : dict pv) : res arg :=
  match dget k info with Some v => as_num v | None => Ok (AInt 0) end.
(** Color.hsv, color.py:35-50, behind light.py:37-45 *)
Definition smart_hsv (colour : bool) (info : dict pv) : res (arg * arg * arg) :=
  if negb colour then Err KKasa
  else
    let! h := get_or_0 "hue" info in
    let! s := get_or_0 "saturation" info in
    let! v := get_or_0 "brightness" info in
    Ok (h, s, v).
(** ColorTemperature.color_temp, colortemperature.py:54-57, behind light.py:47-53 *)
Definition smart_color_temp (temp : bool) (info : dict pv) : res arg :=
  if negb temp then Err KKasa else let! t := dindex "color_temp" info in as_num t.

(** ** The light state kept by an update: Light._post_update_hook, smart/modules/light.py:138-152 and
    iot/modules/light.py:209-223: whether it is on, the three capabilities and the three readings *)
Definition kept_state (on : bool) (dim colour temp : bool) (v : res arg) (hsv : res (arg * arg * arg)) (t : res arg) : res light_state :=
  if negb on then Ok (mkLight (Some false) None None None None None)
  else
    let! b := (if dim then let! v := v in Ok (Some v) else Ok None) in
    let! hs := (if colour then let! x := hsv in Ok (Some (fst (fst x)), Some (snd (fst x))) else Ok (None, None)) in
    let! t := (if temp then let! t := t in Ok (Some t) else Ok None) in
    Ok (mkLight (Some true) b (fst hs) (snd hs) t None).
Definition bulb_state_read (b : bulb) (effect : option arg) (sys : dict pv) : res light_state :=
  let! on := bulb_is_on sys in
  kept_state on (is_dimmable b) (is_color b) (is_variable b)
    (bulb_brightness b effect sys) (bulb_hsv b effect sys) (bulb_color_temp b sys).
(** For dimmers _is_color and _is_variable_color_temp are False, iotdimmer.py:232-240. *)
Definition dimmer_state_read (sys : dict pv) : res light_state :=
  let! on := plug_is_on sys in
  kept_state on (dimmer_dimmable sys) false false (dimmer_brightness sys) (Err KKasa) (Err KKasa).
Definition smart_state_read (dim colour temp : bool) (effect : option arg) (info : dict pv) : res light_state :=
  kept_state (smart_is_on info) dim colour temp (smart_brightness dim effect info) (smart_hsv colour info) (smart_color_temp temp info).

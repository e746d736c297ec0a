(** Reading and applying light presets: kasa/smart/modules/lightpreset.py and
    kasa/iot/modules/lightpreset.py.  Saving is in [SmartLight_Model].  No light effect is active
    (it would give the brightness).  No proofs. *)
From Coq Require Import QArith.
From Verif Require Import Base Py IotLight_Model SmartLight_Model.
Open Scope string_scope.
Open Scope list_scope.
Open Scope Z_scope.

(** PRESET_NOT_SET, interfaces/lightpreset.py:84 *)
Definition not_set : string := "Not set".
(** preset_list, lightpreset.py:76-83 and iot lightpreset.py:63-73 *)
Definition preset_list {A} (presets : dict A) : list string := not_set :: dkeys presets.
(** The loop of preset: the first name whose state fits *)
Fixpoint first {A} (fits : A -> bool) (presets : dict A) : string :=
  match presets with
  | [] => not_set
  | (name, p) :: rest => if fits p then name else first fits rest
  end.

(** ** SMART.  [temp], [hsv]: light.has_feature("color_temp"), light.has_feature("hsv"). *)
(** p == v; a value of the device that is no number equals none *)
Definition same (p : option arg) (v : option pv) : bool :=
  match p, v with
  | None, None => true
  | Some a, Some (PNum b) => eqb_arg a b
  | _, _ => false
  end.
(** data.get(k, 0), color.py:41-45 *)
Definition get0 (k : string) (info : dict pv) : pv :=
  match dget k info with Some v => v | None => PNum (AInt 0) end.
(** preset, lightpreset.py:93-115, with brightness.py:41-50, colortemperature.py:55-58 and
    color.py:36-49; [info]: the device info *)
Definition smart_preset (temp hsv : bool) (info : dict pv) (presets : dict light_state) : res string :=
  let! b := dindex "brightness" info in
  let! t := (if temp then let! t := dindex "color_temp" info in Ok (Some t) else Ok None) in
  let h := if hsv then Some (get0 "hue" info) else None in
  let s := if hsv then Some (get0 "saturation" info) else None in
  Ok (first (fun p => same (brightness p) (Some b) && (same (color_temp p) t || negb temp)
                      && same (hue p) h && same (saturation p) s) presets).
(** set_preset, lightpreset.py:118-131 *)
Definition unset_state (hsv : bool) : light_state :=
  if hsv then mkLight None (Some (AInt 100)) (Some (AInt 0)) (Some (AInt 0)) None None
  else mkLight None (Some (AInt 100)) None None None None.
Definition smart_set_preset (reply : call -> res json) (hsv : bool) (presets : dict light_state) (name : string) : M (list call) json :=
  if String.eqb name not_set then set_state reply (unset_state hsv)
  else match dget name presets with
       | None => mfail PyValueError
       | Some p => set_state reply p
       end.

(** ** Legacy bulbs *)
(** IotLightPreset, iot lightpreset.py:27-48, without id: such entries are left out *)
Record ipreset := mkIP { i_state : light_state; i_index : Z; i_custom : option Z; i_mode : option Z }.
(** An entry of preferred_state: [None] for one with an id.  _post_update_hook, iot
    lightpreset.py:54-64 *)
Fixpoint iot_list_from (n : nat) (l : list (option ipreset)) (p : dict ipreset) : dict ipreset :=
  match l with
  | [] => p
  | None :: l => iot_list_from (S n) l p
  | Some e :: l => iot_list_from (S n) l (dset (preset_name (n + 1)) e p)
  end.
Definition iot_list (l : list (option ipreset)) : dict ipreset := iot_list_from 0 l [].
(** int(v) *)
Definition int_arg (a : arg) : arg :=
  match a with AInt _ => a | ANum q => AInt (Z.quot (Qnum q) (Zpos (Qden q))) end.
(** The light state reported: on_off and the values while on, those for turning on while off;
    light_state, iotbulb.py:270-287 *)
Record lamp := mkLamp { l_on : bool; l_state : dict arg; l_default : dict arg }.
Definition shown (d : lamp) : dict arg := if l_on d then l_state d else l_default d.
(** p == v *)
Definition is_val (p : option arg) (v : option arg) : bool :=
  match p, v with None, None => true | Some a, Some b => eqb_arg a b | _, _ => false end.
(** preset, iot lightpreset.py:83-103, with iotbulb.py:356-374,419-427,461-476 *)
Definition iot_preset (b : bulb) (d : lamp) (presets : dict ipreset) : res string :=
  if negb (is_dimmable b) then Err KKasa else
  let! v := dindex "brightness" (shown d) in
  let! t := (if is_variable b then let! t := dindex "color_temp" (shown d) in Ok (Some (int_arg t)) else Ok None) in
  let! hs := (if is_color b then
                let! h := dindex "hue" (shown d) in
                let! s := dindex "saturation" (shown d) in
                Ok (Some h, Some s)
              else Ok (None, None)) in
  Ok (first (fun p => let p := i_state p in
       is_val (brightness p) (Some (int_arg v)) && (is_val (color_temp p) t || negb (is_variable b))
       && (is_val (hue p) (fst hs) || negb (is_color b)) && (is_val (saturation p) (snd hs) || negb (is_color b))) presets).
(** light.set_state for a bulb, iot modules/light.py:188-207, of a preset or a plain state; [extra]:
    the further fields a preset has *)
Definition bulb_set_any (reply : request -> res json) (b : bulb) (s : light_state) (extra : dict arg) : M (list request) json :=
  let d := put "light_on" (option_map b2i (light_on s)) [] in
  let d := put "transition" (transition s) (put "color_temp" (color_temp s) (put "saturation" (saturation s)
             (put "hue" (hue s) (put "brightness" (brightness s) d)))) in
  let d := dupdate d extra in
  let d := ddel "transition" d in
  let on := match light_on s with None => AInt 1 | Some l => b2i l end in
  let d := dset "on_off" on d in
  let d := match dget "brightness" d with
           | Some v => if eqb_arg v (AInt 0) then ddel "brightness" (dset "on_off" (AInt 0) d) else dset "on_off" on d
           | None => dset "on_off" on d
           end in
  set_light_state reply b (ddel "light_on" d) (transition s).
Definition extra_fields (p : ipreset) : dict arg :=
  put "mode" (option_map AInt (i_mode p)) (put "custom" (option_map AInt (i_custom p)) [("index", AInt (i_index p))]).
(** set_preset, iot lightpreset.py:105-119 *)
Definition iot_set_preset (reply : request -> res json) (b : bulb) (presets : dict ipreset) (name : string) : M (list request) json :=
  if String.eqb name not_set then bulb_set_any reply b (unset_state (is_color b)) []
  else match dget name presets with
       | None => mfail PyValueError
       | Some p => bulb_set_any reply b (i_state p) (extra_fields p)
       end.

(** SMART lights and light presets: kasa/smart/modules/light.py, brightness.py, color.py,
    colortemperature.py, lighttransition.py, lightpreset.py; kasa/iot/modules/lightpreset.py.
    No proofs. *)
From Coq Require Import QArith DecimalString.
From Verif Require Import Base Py IotLight_Model.
Open Scope string_scope.
Open Scope list_scope.
Open Scope Z_scope.

(** A parameter of a command. *)
Inductive pv := PNum (a : arg) | PBool (b : bool) | PObj (d : list (string * pv)) | PList (l : list (option arg)).
(** A call: method and parameters.  [reply] is what comes back. *)
Record call := mkCall { c_method : string; c_params : dict pv }.
Section Device.
Variable reply : call -> res json.
Definition do_call (c : call) : M (list call) json := fun log => (log ++ [c], reply c).

(** ** Light.set_state, light.py:117-132.  asdict gives the six fields, None included. *)
Definition num (o : option arg) : option pv := option_map PNum o.
Definition asdict (s : light_state) : dict (option pv) :=
  [("light_on", option_map PBool (light_on s)); ("brightness", num (brightness s)); ("hue", num (hue s));
   ("saturation", num (saturation s)); ("color_temp", num (color_temp s)); ("transition", num (transition s))].
(** {k: v for k, v in d.items() if v is not None} *)
Fixpoint drop_none (d : dict (option pv)) : dict pv :=
  match d with [] => [] | (k, Some v) :: d => (k, v) :: drop_none d | (_, None) :: d => drop_none d end.
Definition set_state (s : light_state) : M (list call) json :=
  let d := asdict s in
  let d := if match brightness s with Some v => eqb_arg v (AInt 0) | None => false end
           then ddel "brightness" (dset "device_on" (Some (PBool false)) d)
           else match light_on s with
                | Some l => ddel "light_on" (dset "device_on" (Some (PBool l)) d)
                | None => dset "device_on" (Some (PBool true)) d
                end in
  do_call (mkCall "set_device_info" (drop_none d)).

(** ** Brightness.set_brightness, brightness.py:52-76.  [effect]: an effect is active; its own
    setter then decides (lighteffect.py, lightstripeffect.py) and is an action here. *)
Definition set_brightness (effect : option (arg -> M (list call) json)) (v : arg) : M (list call) json :=
  if negb (is_int v) || negb (leb_arg (AInt 0) v && leb_arg v (AInt 100)) then mfail PyValueError
  else if eqb_arg v (AInt 0) then do_call (mkCall "set_device_info" [("device_on", PBool false)])
  else match effect with
       | Some f => f v
       | None => do_call (mkCall "set_device_info" [("brightness", PNum v)])
       end.
(** ** Color.set_hsv, color.py:58-99, behind light.py:66-86 ([has]: the module is present) *)
Definition set_hsv (has : bool) (hue saturation : arg) (value : option arg) : M (list call) json :=
  if negb has then mfail KKasa
  else if negb (is_int hue) then mfail PyTypeError
  else if negb (leb_arg (AInt 0) hue && leb_arg hue (AInt 360)) then mfail PyValueError
  else if negb (is_int saturation) then mfail PyTypeError
  else if negb (leb_arg (AInt 0) saturation && leb_arg saturation (AInt 100)) then mfail PyValueError
  else
    do! _ <- mlift (match value with Some v => check_brightness v | None => Ok tt end) ;;
    let d := [("color_temp", PNum (AInt 0)); ("hue", PNum hue); ("saturation", PNum saturation)] in
    do_call (mkCall "set_device_info" (match value with Some v => dset "brightness" (PNum v) d | None => d end)).
(** ** ColorTemperature.set_color_temp, colortemperature.py:59-71, behind light.py:88-101.
    [range]: color_temp_range if reported; DEFAULT_TEMP_RANGE otherwise. *)
Definition temp_bounds (range : option (Z * Z)) : Z * Z := match range with Some r => r | None => (2500, 6500) end.
Definition set_color_temp (has : bool) (range : option (Z * Z)) (temp : arg) (v : option arg) : M (list call) json :=
  if negb has then mfail KKasa
  else
    let (lo, hi) := temp_bounds range in
    if ltb_arg temp (AInt lo) || ltb_arg (AInt hi) temp then mfail PyValueError
    else
      let d := [("color_temp", PNum temp)] in
      let d := match v with Some b => if eqb_arg b (AInt 0) then d else dset "brightness" (PNum b) d | None => d end in
      do_call (mkCall "set_device_info" d).

(** ** LightTransition, lighttransition.py:95-231 *)
Record tstate := mkT { t_duration : Z; t_enable : bool; t_max : Z }.
Record transitions := mkTs { ts_on : tstate; ts_off : tstate; ts_enabled : bool }.
(** What a reply says about one direction: enable, duration, maximum if reported. *)
Record treply := mkTR { r_enable : bool; r_duration : Z; r_max : option Z }.
Definition read_state (r : treply) : tstate := mkT (r_duration r) (r_enable r) (match r_max r with Some m => m | None => 60 end).
(** _post_update_hook, 95-139, for version 2 and up.  The two sources (device info, or
    the states of the reply) carry the same data; a missing state raises. *)
Definition post_update (on off : option treply) : res transitions :=
  match on, off with
  | Some on, Some off => Ok (mkTs (read_state on) (read_state off) (r_enable on || r_enable off))
  | _, _ => Err KKasa
  end.
(** turn_on_transition and turn_off_transition, 174-180 and 206-212 *)
Definition reading (s : tstate) : Z := if t_enable s then t_duration s else 0.
(** set_turn_on_transition and set_turn_off_transition, 187-204 and 220-240.  [key]: "on_state"
    or "off_state". *)
Definition set_transition (key : string) (s : tstate) (seconds : Z) : M (list call) json :=
  if t_max s <? seconds then mfail PyValueError
  else if seconds <=? 0 then
    do_call (mkCall "set_on_off_gradually_info" [(key, PObj [("enable", PBool false); ("duration", PNum (AInt (t_duration s)))])])
  else
    do_call (mkCall "set_on_off_gradually_info" [(key, PObj [("enable", PBool true); ("duration", PNum (AInt seconds))])]).

(** ** Light presets *)
(** str(n) *)
Definition dec (n : nat) : string := NilZero.string_of_uint (Nat.to_uint n).
Definition preset_name (n : nat) : string := ("Light preset " ++ dec n)%string.
(** list(d.keys()).index(k) *)
Fixpoint key_index {A} (k : string) (d : dict A) : option nat :=
  match d with [] => None | (k', _) :: d => if String.eqb k k' then Some O else option_map S (key_index k d) end.
(** Legacy: an entry of preferred_state: whether it has an id, and its values. *)
Record entry := mkEntry { e_id : bool; e_state : light_state }.
(** _post_update_hook, iot/modules/lightpreset.py:54-64 *)
Fixpoint iot_presets_from (n : nat) (l : list entry) (p : dict light_state) : dict light_state :=
  match l with
  | [] => p
  | e :: l => iot_presets_from (S n) l (if e_id e then p else dset (preset_name (n + 1)) (e_state e) p)
  end.
Definition iot_presets (l : list entry) : dict light_state := iot_presets_from 0 l [].
(** save_preset, iot/modules/lightpreset.py:126-142 *)
Definition iot_save (presets : dict light_state) (name : string) (s : light_state) : M (list call) json :=
  match presets with
  | [] => mfail KKasa
  | _ =>
    match key_index name presets with
    | None => mfail PyValueError
    | Some i => do_call (mkCall "set_preferred_state" (dset "index" (PNum (AInt (Z.of_nat i))) (drop_none (asdict s))))
    end
  end.

(** SMART: an entry of states: brightness if it has one, and the colours. *)
Record sentry := mkSE { s_brightness : option arg; s_temp : option arg; s_hue : option arg; s_sat : option arg }.
(** lightpreset.py:37-73: [brightness_only] is only ever set. *)
Record smart_presets := mkSP { sp_presets : dict light_state; sp_brightness_only : bool }.
Fixpoint from_states (index : nat) (l : list sentry) (sp : smart_presets) : smart_presets :=
  match l with
  | [] => sp
  | e :: l =>
      match s_brightness e with
      | None => from_states index l sp
      | Some b =>
          let p := dset (preset_name (index + 1)) (mkLight None (Some b) (s_hue e) (s_sat e) (s_temp e) None) (sp_presets sp) in
          let only := match s_temp e, s_hue e, s_sat e with None, None, None => true | _, _, _ => sp_brightness_only sp end in
          from_states (S index) l (mkSP p only)
      end
  end.
Fixpoint from_brightness (index : nat) (l : list arg) (p : dict light_state) : dict light_state :=
  match l with
  | [] => p
  | b :: l => from_brightness (S index) l (dset ("Brightness preset " ++ dec (index + 1)) (mkLight None (Some b) None None None None) p)
  end.
Definition smart_post_update (old : smart_presets) (states : list sentry) (brightness : list arg) : smart_presets :=
  match states, brightness with
  | _ :: _, _ => from_states 0 states (mkSP [] (sp_brightness_only old))
  | [], _ :: _ => mkSP (from_brightness 0 brightness []) true
  | [], [] => mkSP [] (sp_brightness_only old)
  end.
(** l[i] = v *)
Fixpoint replace {A} (i : nat) (v : A) (l : list A) : list A :=
  match l, i with [], _ => [] | _ :: l, O => v :: l | x :: l, S i => x :: replace i v l end.
(** save_preset, 122-142 *)
Definition smart_save (sp : smart_presets) (name : string) (s : light_state) : M (list call) json :=
  match key_index name (sp_presets sp) with
  | None => mfail PyValueError
  | Some i =>
      if sp_brightness_only sp then
        do_call (mkCall "set_preset_rules" [("brightness", PList (replace i (brightness s) (map (fun p => brightness (snd p)) (sp_presets sp))))])
      else
        do_call (mkCall "edit_preset_rules" [("index", PNum (AInt (Z.of_nat i))); ("state", PObj (drop_none (asdict s)))])
  end.
End Device.

(** Legacy lights: kasa/iot/iotbulb.py, iotdimmer.py, iotlightstrip.py, modules/light.py and
    modules/dimmer.py.  The device has been updated, so the checks of [requires_update]
    pass.  No proofs. *)
From Coq Require Import QArith.
From Verif Require Import Base Py.
Open Scope string_scope.
Open Scope list_scope.
Open Scope Z_scope.

(** A number given by the user: an int (bools not distinguished), or another number. *)
Inductive arg := AInt (z : Z) | ANum (q : Q).
Definition is_int (a : arg) : bool := match a with AInt _ => true | ANum _ => false end.
Definition arg_q (a : arg) : Q := match a with AInt z => inject_Z z | ANum q => q end.
Definition ltb_arg (a b : arg) : bool := match Qcompare (arg_q a) (arg_q b) with Lt => true | _ => false end.
Definition leb_arg (a b : arg) : bool := negb (ltb_arg b a).
Definition eqb_arg (a b : arg) : bool := Qeq_bool (arg_q a) (arg_q b).

(** A command: service, method, parameters.  [reply] is what _query_helper makes of it. *)
Record request := mkReq { service : string; method : string; params : dict arg }.
Section Device.
Variable reply : request -> res json.
Definition send (r : request) : M (list request) json := fun log => (log ++ [r], reply r).

(** ** Bulbs *)
(** The facts of sys_info used: is_color, is_dimmable, is_variable_color_temp, model;
    and whether it is a light strip (its service and method differ). *)
Record bulb := mkBulb { is_color : bool; is_dimmable : bool; is_variable : bool; model : string; is_strip : bool }.
(** LIGHT_SERVICE and SET_LIGHT_METHOD, iotbulb.py:197-198, iotlightstrip.py:49-50 *)
Definition light_service (b : bulb) : string := if is_strip b then "smartlife.iot.lightStrip" else "smartlife.iot.smartbulb.lightingservice".
Definition light_method (b : bulb) : string := if is_strip b then "set_light_state" else "transition_light_state".
(** TPLINK_KELVIN, iotbulb.py:79-90.  The patterns match literally at the start. *)
Definition kelvin : list (string * (Z * Z)) :=
  [("LB130", (2500, 9000)); ("LB120", (2700, 6500)); ("LB230", (2500, 9000)); ("KB130", (2500, 9000));
   ("KL130", (2500, 9000)); ("KL125", (2500, 6500)); ("KL135", (2500, 9000)); ("KL120(EU)", (2700, 6500));
   ("KL120(US)", (2700, 5000)); ("KL430", (2500, 9000))].
(** _valid_temperature_range, iotbulb.py:251-268 *)
Definition valid_temperature_range (b : bulb) : res (Z * Z) :=
  if negb (is_variable b) then Err KKasa
  else match find (fun e => String.prefix (fst e) (model b)) kelvin with
       | Some e => Ok (snd e)
       | None => Ok (2700, 5000)
       end.
(** _raise_for_invalid_brightness, iotbulb.py:455-459 *)
Definition check_brightness (v : arg) : res unit :=
  if negb (is_int v) then Err PyTypeError
  else if negb (leb_arg (AInt 0) v && leb_arg v (AInt 100)) then Err PyValueError
  else Ok tt.
(** NON_COLOR_MODE_FLAGS.issuperset(state), iotbulb.py:93 *)
Definition only_flags (d : dict arg) : bool := forallb (fun k => smem k ["transition_period"; "on_off"]) (dkeys d).
(** _set_light_state, iotbulb.py:327-354 *)
Definition set_light_state (b : bulb) (state : dict arg) (transition : option arg) : M (list request) json :=
  let state := match transition with Some t => dset "transition_period" t state | None => state end in
  do! _ <- mlift (match dget "brightness" state with Some v => check_brightness v | None => Ok tt end) ;;
  let state := if dmem "on_off" state then state else dset "on_off" (AInt 1) state in
  do! on <- mlift (dindex "on_off" state) ;;
  let state := if negb (eqb_arg on (AInt 0)) && only_flags state
               then dset "ignore_default" (AInt 0) state else dset "ignore_default" (AInt 1) state in
  send (mkReq (light_service b) (light_method b) state).
(** _set_hsv, iotbulb.py:377-416, behind set_hsv, modules/light.py:122-141 *)
Definition set_hsv (b : bulb) (hue saturation : arg) (value transition : option arg) : M (list request) json :=
  if negb (is_color b) then mfail KKasa
  else if negb (is_int hue) then mfail PyTypeError
  else if negb (leb_arg (AInt 0) hue && leb_arg hue (AInt 360)) then mfail PyValueError
  else if negb (is_int saturation) then mfail PyTypeError
  else if negb (leb_arg (AInt 0) saturation && leb_arg saturation (AInt 100)) then mfail PyValueError
  else
    let state := [("hue", hue); ("saturation", saturation); ("color_temp", AInt 0)] in
    match value with
    | Some v => do! _ <- mlift (check_brightness v) ;; set_light_state b (dset "brightness" v state) transition
    | None => set_light_state b state transition
    end.
(** _set_color_temp, iotbulb.py:428-452, behind set_color_temp, modules/light.py:152-168 *)
Definition set_color_temp (b : bulb) (temp : arg) (brightness transition : option arg) : M (list request) json :=
  if negb (is_variable b) then mfail KKasa
  else
    do! range <- mlift (valid_temperature_range b) ;;
    if ltb_arg temp (AInt (fst range)) || ltb_arg (AInt (snd range)) temp then mfail PyValueError
    else
      let state := [("color_temp", temp)] in
      let state := match brightness with Some v => dset "brightness" v state | None => state end in
      set_light_state b state transition.
(** turn_off and turn_on, iotbulb.py:502-514 *)
Definition bulb_turn (b : bulb) (on : bool) (transition : option arg) : M (list request) json :=
  set_light_state b [("on_off", AInt (if on then 1 else 0))] transition.

(** LightState, interfaces/light.py:75-84 *)
Record light_state := mkLight { light_on : option bool; brightness : option arg; hue : option arg; saturation : option arg;
                                color_temp : option arg; transition : option arg }.
Definition put (k : string) (v : option arg) (d : dict arg) : dict arg := match v with Some x => dset k x d | None => d end.
Definition b2i (b : bool) : arg := AInt (if b then 1 else 0).
(** The branch of set_state for bulbs, modules/light.py:188-207.  [transition] is taken out,
    light_on replaced by on_off. *)
Definition bulb_set_state (b : bulb) (s : light_state) : M (list request) json :=
  let d := put "light_on" (option_map b2i (light_on s))
          (put "brightness" (brightness s) (put "hue" (hue s) (put "saturation" (saturation s) (put "color_temp" (color_temp s)
          (put "transition" (transition s) []))))) in
  let d := ddel "transition" d in
  let d := dset "on_off" (match light_on s with None => AInt 1 | Some l => b2i l end) d in
  let d := match dget "brightness" d with
           | Some v => if eqb_arg v (AInt 0) then ddel "brightness" (dset "on_off" (AInt 0) d)
                       else dset "on_off" (match light_on s with None => AInt 1 | Some l => b2i l end) d
           | None => dset "on_off" (match light_on s with None => AInt 1 | Some l => b2i l end) d
           end in
  set_light_state b (ddel "light_on" d) (transition s).
(** set_brightness, modules/light.py:100-110, for a bulb *)
Definition bulb_set_brightness (b : bulb) (v : arg) (t : option arg) : M (list request) json :=
  bulb_set_state b (mkLight None (Some v) None None None t).

(** ** Dimmers *)
(** sys_info.get("brightness"), an int *)
Definition dimmer := option Z.
Definition DIMMER := "smartlife.iot.dimmer".
(** set_dimmer_transition, iotdimmer.py:161-186 *)
Definition set_dimmer_transition (v t : arg) : M (list request) json :=
  if negb (is_int v) then mfail PyTypeError
  else if negb (leb_arg (AInt 0) v && leb_arg v (AInt 100)) then mfail PyValueError
  else
    let t := if eqb_arg t (AInt 0) then AInt 1 else t in
    if negb (is_int t) then mfail PyTypeError
    else if leb_arg t (AInt 0) then mfail PyValueError
    else send (mkReq DIMMER "set_dimmer_transition" [("brightness", v); ("duration", t)]).
(** _set_brightness, iotdimmer.py:106-136 *)
Definition dimmer_set_brightness (d : dimmer) (v : arg) (t : option arg) : M (list request) json :=
  match d with
  | None => mfail KKasa
  | Some _ =>
      if negb (is_int v) then mfail PyValueError
      else if negb (leb_arg (AInt 0) v && leb_arg v (AInt 100)) then mfail PyValueError
      else
        let v := if eqb_arg v (AInt 0) then AInt 1 else v in
        match t with
        | Some t => set_dimmer_transition v t
        | None => send (mkReq DIMMER "set_brightness" [("brightness", v)])
        end
  end.
(** IotPlug.turn_on and turn_off, iotplug.py:75-81 *)
Definition relay (on : bool) : request := mkReq "system" "set_relay_state" [("state", AInt (if on then 1 else 0))].
(** turn_off, iotdimmer.py:138-146 *)
Definition dimmer_turn_off (t : option arg) : M (list request) json :=
  match t with Some t => set_dimmer_transition (AInt 0) t | None => send (relay false) end.
(** turn_on, iotdimmer.py:148-159 *)
Definition dimmer_turn_on (d : dimmer) (t : option arg) : M (list request) json :=
  match t with
  | Some t => match d with None => mfail KKasa | Some v => set_dimmer_transition (AInt v) t end
  | None => send (relay true)
  end.
(** The branch of set_state for dimmers, modules/light.py:176-187 *)
Definition dimmer_set_state (d : dimmer) (s : light_state) : M (list request) json :=
  let zero := match brightness s with Some v => eqb_arg v (AInt 0) | None => false end in
  let off := match light_on s with Some false => true | _ => false end in
  if zero || off then dimmer_turn_off (transition s)
  else match brightness s with
       | Some v => set_dimmer_transition v (match transition s with Some t => t | None => AInt 0 end)
       | None => dimmer_turn_on d (transition s)
       end.

(** Enum members, iotdimmer.py:17-38: their value and how Python prints them. *)
Inductive action_type := DoubleClick | LongPress.
Inductive button_action := NoAction | Instant | Gentle | Preset.
Inductive fade_type := FadeOn | FadeOff.
Definition str_action_type (a : action_type) : string :=
  match a with DoubleClick => "ActionType.DoubleClick" | LongPress => "ActionType.LongPress" end.
Definition str_button_action (a : button_action) : string :=
  match a with NoAction => "ButtonAction.NoAction" | Instant => "ButtonAction.Instant"
             | Gentle => "ButtonAction.Gentle" | Preset => "ButtonAction.Preset" end.
Definition str_fade_type (f : fade_type) : string := match f with FadeOn => "FadeType.FadeOn" | FadeOff => "FadeType.FadeOff" end.
(** set_button_action, iotdimmer.py:196-215: the method name, the mode and the index *)
Definition set_button_action (a : action_type) (b : button_action) (index : option Z) : string * (string * option Z) :=
  (("set_" ++ str_action_type a)%string, (str_button_action b, index)).
(** set_fade_time, iotdimmer.py:217-223: the method name and the time *)
Definition set_fade_time (f : fade_type) (time : Z) : string * Z := (("set_" ++ str_fade_type f ++ "_time")%string, time).

(** ** The dimmer configuration, modules/dimmer.py.  A time is given as milliseconds or as
    a timedelta, in microseconds. *)
Inductive span := Ms (z : Z) | Delta (us : Z).
Definition micros (s : span) : Z := match s with Ms z => z * 1000 | Delta us => us end.
(** _td_to_ms, dimmer.py:15-21: towards zero *)
Definition td_to_ms (us : Z) : Z := Z.quot us 1000.
Inductive timing := FadeOffT | FadeOnT | GentleOffT | GentleOnT.
(** the four setters, dimmer.py:188-268 *)
Definition timing_max (t : timing) : Z := match t with FadeOffT | FadeOnT => 10000000 | GentleOffT | GentleOnT => 120000000 end.
Definition timing_method (t : timing) : string :=
  match t with FadeOffT => "set_fade_off_time" | FadeOnT => "set_fade_on_time"
             | GentleOffT => "set_gentle_off_time" | GentleOnT => "set_gentle_on_time" end.
Definition timing_key (t : timing) : string := match t with FadeOffT | FadeOnT => "fadeTime" | GentleOffT | GentleOnT => "duration" end.
Definition set_timing (t : timing) (s : span) : M (list request) json :=
  if (micros s <? 0) || (timing_max t <? micros s) then mfail KKasa
  else send (mkReq DIMMER (timing_method t) [(timing_key t, AInt (td_to_ms (micros s)))]).
(** set_threshold_min, dimmer.py:165-177 *)
Definition set_threshold_min (z : Z) : M (list request) json :=
  if (z <? 0) || (51 <? z) then mfail KKasa else send (mkReq DIMMER "calibrate_brightness" [("minThreshold", AInt z)]).
(** set_ramp_rate, dimmer.py:260-270 *)
Definition set_ramp_rate (z : Z) : M (list request) json :=
  if (z <? 10) || (50 <? z) then mfail KKasa else send (mkReq DIMMER "set_button_ramp_rate" [("rampRate", AInt z)]).
End Device.

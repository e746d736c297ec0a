(** Where a legacy device keeps what its modules show (tests/fixtures/iot), and what a user is to see
    for it. *)
From Verif Require Import Base Py Read_Model Read_Spec IotRead_Model.
Open Scope string_scope.
Open Scope list_scope.
Open Scope Z_scope.

(** The last replies: of module [k], to command [c] *)
Definition replies := string -> string -> option json.
Definition fld2 (w : replies) (k c : string) (path : list string) : option json := opt_bind (w k c) (follow path).
Definition whole_at (o : option json) : option Z := opt_bind o whole_number.
Definition entry_no (i : Z) (o : option json) : option json :=
  match o with Some (JArr l) => if i <? 0 then None else nth_error l (Z.to_nat i) | _ => None end.

(** The motion sensor: switched on or not, the lowest and the highest value, the range (by its place in
    the list of thresholds) and its threshold.  Shown only if the device reports all of it. *)
Record sensor := mkSensor { s_on : bool; s_low : Z; s_high : Z; s_range : string; s_threshold : Z }.
Definition range_name (i : Z) : option string :=
  match i with 0 => Some "Far" | 1 => Some "Mid" | 2 => Some "Near" | 3 => Some "Custom" | _ => None end.
Definition sensor_of (w : replies) : option sensor :=
  let f k := fld2 w "smartlife.iot.PIR" "get_config" [k] in
  match f "enable", whole_at (f "min_adc"), whole_at (f "max_adc"), whole_at (f "trigger_index") with
  | Some e, Some mn, Some mx, Some i =>
      match range_name i, whole_at (entry_no i (f "array")) with
      | Some n, Some t => Some (mkSensor (truthy e) mn mx n t)
      | _, _ => None
      end
  | _, _, _, _ => None
  end.
(** The middle between the lowest and the highest value, if the lowest is 0 *)
Definition middle (s : sensor) : Z := Z.abs (s_high s - s_low s) / 2.
Definition of_sensor (w : replies) (t : sensor -> option value) : option value := opt_bind (sensor_of w) t.
Definition num (z : Z) : option value := Some (Plain (JInt z)).

(** What the device tells about its cloud connection: all ten fields, or nothing *)
Definition numbered (o : option json) : option json := option_map JInt (whole_at o).
Definition cloud_of (w : replies) (k : string) : option (dict json) :=
  let f x := fld2 w k "get_info" [x] in
  every (fun x : string * option json => option_map (pair (fst x)) (snd x))
    [("provisioned", numbered (f "binded")); ("cloud_connected", numbered (f "cld_connection"));
     ("firmware_download_page", f "fwDlPage"); ("firmware_notify_type", numbered (f "fwNotifyType"));
     ("illegal_type", numbered (f "illegalType")); ("server", f "server"); ("stop_connect", numbered (f "stopConnect"));
     ("tcsp_info", f "tcspInfo"); ("tcsp_status", numbered (f "tcspStatus")); ("username", f "username")].

(** The meaning of a reading; [sys] is the system information, [bulb]: bulbs have other names for two
    modules.  [None]: not reported. *)
Definition lmeans (bulb : bool) (w : replies) (sys : option json) (r : lreading) : option value :=
  let dim k := fld2 w "smartlife.iot.dimmer" "get_dimmer_parameters" [k] in
  let ambient k := opt_bind (entry_no 0 (fld2 w "smartlife.iot.LAS" "get_config" ["devs"])) (follow [k]) in
  let schedule := if bulb then "smartlife.iot.common.schedule" else "schedule" in
  let cloud := cloud_of w (if bulb then "smartlife.iot.common.cloud" else "cnCloud") in
  let adc := fld2 w "smartlife.iot.PIR" "get_adc_value" ["value"] in
  match r with
  | MotionOn => of_sensor w (fun s => Some (Plain (JBool (s_on s))))
  | MotionMin => of_sensor w (fun s => num (s_low s))
  | MotionMax => of_sensor w (fun s => num (s_high s))
  | MotionMid => of_sensor w (fun s => num (middle s))
  | MotionRange => of_sensor w (fun s => Some (Plain (JStr (s_range s))))
  | MotionThreshold => of_sensor w (fun s => num (s_threshold s))
  | MotionTimeout => as_is (fld2 w "smartlife.iot.PIR" "get_config" ["cold_time"])
  | MotionAdc => of_sensor w (fun _ => as_is adc)
  | MotionValue => of_sensor w (fun s => opt_bind (whole_at adc) (fun z => num (middle s - z)))
  | AmbientOn => yes_if truthy (ambient "enable")
  | AmbientPresets => as_is (ambient "level_array")
  | AmbientBrightness => opt_bind (whole_at (fld2 w "smartlife.iot.LAS" "get_current_brt" ["value"])) num
  | DimThreshold => as_is (dim "minThreshold")
  | DimFadeOff => mapped milli_of (dim "fadeOffTime")
  | DimFadeOn => mapped milli_of (dim "fadeOnTime")
  | DimGentleOff => mapped milli_of (dim "gentleOffTime")
  | DimGentleOn => mapped milli_of (dim "gentleOnTime")
  | DimRamp => as_is (dim "rampRate")
  | UsageDays => as_is (fld2 w schedule "get_daystat" ["day_list"])
  | UsageMonths => as_is (fld2 w schedule "get_monthstat" ["month_list"])
  | CloudInfo => option_map (fun d => Plain (JObj d)) cloud
  | CloudOnline => opt_bind cloud (fun d => yes_if truthy (dget "cloud_connected" d))
  | LedLit => opt_bind (whole_at (opt_bind sys (follow ["led_off"]))) (fun z => Some (Plain (JBool (negb (z =? 1)))))
  end.

(** The commands a reading is made of *)
Definition commands (r : lreading) : list string :=
  match r with
  | MotionAdc | MotionValue => ["get_config"; "get_adc_value"]
  | MotionOn | MotionMin | MotionMax | MotionMid | MotionRange | MotionThreshold | MotionTimeout => ["get_config"]
  | AmbientOn | AmbientPresets => ["get_config"]
  | AmbientBrightness => ["get_current_brt"]
  | DimThreshold | DimFadeOff | DimFadeOn | DimGentleOff | DimGentleOn | DimRamp => ["get_dimmer_parameters"]
  | UsageDays => ["get_daystat"]
  | UsageMonths => ["get_monthstat"]
  | CloudInfo | CloudOnline => ["get_info"]
  | LedLit => []
  end.
(** A device that does not do what it was asked says so in place of the reply *)
Definition refusal (v : json) : Prop := exists code msg, v = JObj [("err_code", JInt code); ("err_msg", JStr msg)].

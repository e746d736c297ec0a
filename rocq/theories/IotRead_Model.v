(** What the sensors, the dimmer settings, the usage and the cloud module of legacy devices show:
    kasa/iot/modules/{motion,ambientlight,dimmer,usage,cloud,led}.py.  Whole numbers only: int() of
    a text or of a fraction is not modelled (PyOther).  No proofs. *)
From Verif Require Import Base Py Factory_Model Sensor_Model Read_Model IotUpd_Model WholeIot_Model.
Open Scope string_scope.
Open Scope list_scope.
Open Scope Z_scope.

(** What a user reads *)
Inductive lreading :=
  | MotionOn | MotionMin | MotionMax | MotionMid | MotionRange | MotionThreshold | MotionTimeout | MotionAdc | MotionValue
  | AmbientOn | AmbientPresets | AmbientBrightness
  | DimThreshold | DimFadeOff | DimFadeOn | DimGentleOff | DimGentleOn | DimRamp
  | UsageDays | UsageMonths
  | CloudInfo | CloudOnline
  | LedLit.
(** The key of the module that shows it: iotplug.py:61-66,101-104, iotdimmer.py:88-90, iotbulb.py:220,227 *)
Definition key (bulb : bool) (r : lreading) : string :=
  match r with
  | MotionOn | MotionMin | MotionMax | MotionMid | MotionRange | MotionThreshold | MotionTimeout | MotionAdc | MotionValue => "smartlife.iot.PIR"
  | AmbientOn | AmbientPresets | AmbientBrightness => "smartlife.iot.LAS"
  | DimThreshold | DimFadeOff | DimFadeOn | DimGentleOff | DimGentleOn | DimRamp => "smartlife.iot.dimmer"
  | UsageDays | UsageMonths => if bulb then "smartlife.iot.common.schedule" else "schedule"
  | CloudInfo | CloudOnline => if bulb then "smartlife.iot.common.cloud" else "cnCloud"
  | LedLit => "system"
  end.

(** int(v) *)
Definition to_int (v : json) : res Z := match as_int v with Some z => Ok z | None => Err PyOther end.
(** v[i] of a list, i not negative *)
Definition nth_item (i : nat) (v : json) : res json :=
  match v with JArr l => match nth_error l i with Some x => Ok x | None => Err PyIndexError end | _ => Err PyTypeError end.
Definition len (v : json) : res Z :=
  match v with JArr l => Ok (Z.of_nat (List.length l)) | _ => Err PyTypeError end.
(** get_range_threshold, motion.py:348-354 *)
Definition threshold_of (config : json) (r : prange) : res Z :=
  let! a := jitem "array" config in
  let! n := len a in
  if (prange_value r <? 0) || (n <=? prange_value r) then Err KKasa
  else let! x := nth_item (Z.to_nat (prange_value r)) a in to_int x.
(** pir_config, motion.py:266-277, with the range *)
Definition pir_conf (config : json) : res (pconf * prange) :=
  let! i := jitem "trigger_index" config in
  let! i := match as_int i with Some z => Ok z | None => Err PyValueError end in
  let! r := prange_of i in
  let! e := jitem "enable" config in
  let! mn := jitem "min_adc" config in
  let! mn := to_int mn in
  let! mx := jitem "max_adc" config in
  let! mx := to_int mx in
  let! t := threshold_of config r in
  Ok (mkConf (truthy e) mn mx t, r).

(** CloudInfo.from_dict, cloud.py:13-26: the fields with their names in the reply, and whether they are
    numbers; one that is missing, or a number int() does not take, ends it *)
Definition cloud_fields : list (string * (string * bool)) :=
  [("provisioned", ("binded", true)); ("cloud_connected", ("cld_connection", true)); ("firmware_download_page", ("fwDlPage", false));
   ("firmware_notify_type", ("fwNotifyType", true)); ("illegal_type", ("illegalType", true)); ("server", ("server", false));
   ("stop_connect", ("stopConnect", true)); ("tcsp_info", ("tcspInfo", false)); ("tcsp_status", ("tcspStatus", true));
   ("username", ("username", false))].
Fixpoint from_fields (l : list (string * (string * bool))) (v : dict json) : res (dict json) :=
  match l with
  | [] => Ok []
  | (name, (alias, num)) :: l =>
      let! x := match dget alias v with
                | Some x => if num : bool then let! z := to_int x in Ok (JInt z) else Ok x
                | None => Err PyOther
                end in
      let! r := from_fields l v in
      Ok ((name, x) :: r)
  end.

Section Object.
Variables (bulb : bool) (o : lobj).
(** data, iotmodule.py:52-67, of a module that has a query *)
Definition ldata (r : lreading) : res (dict json) :=
  match dget (key bulb r) (l_lu o) with Some d => Ok d | None => Err KKasa end.
(** self.data[c] *)
Definition reply_of (r : lreading) (c : string) : res json := let! d := ldata r in dindex c d.
(** self.data[c][k] *)
Definition entry_of (r : lreading) (c k : string) : res json := let! v := reply_of r c in jitem k v.
(** pir_config and pir_state, motion.py:261-277, 379-382 *)
Definition pir : res (pconf * prange) := let! v := reply_of MotionOn "get_config" in pir_conf v.
Definition adc : res (pconf * json) :=
  let! c := pir in
  let! v := entry_of MotionAdc "get_adc_value" "value" in
  Ok (fst c, v).
Definition number_of (r : res Z) : res value := let! z := r in Ok (Plain (JInt z)).
(** timedelta(milliseconds=v) *)
Definition millis (r : res json) : res value := let! v := r in if is_num v then Ok (Thousandths v) else Err PyTypeError.
Definition dimmer (k : string) : res json := entry_of DimThreshold "get_dimmer_parameters" k.
(** config, ambientlight.py:52-60 *)
Definition las : res json := let! v := entry_of AmbientOn "get_config" "devs" in nth_item 0 v.
(** info, cloud.py:57-59 *)
Definition cloud : res (dict json) :=
  let! v := reply_of CloudInfo "get_info" in
  match v with JObj d => from_fields cloud_fields d | _ => Err PyOther end.
(** sys_info, iotdevice.py:464-474; requires_update, iotdevice.py:39-62: KasaException before the first update *)
Definition sysinfo : res json := match l_sys o with Some s => Ok s | None => Err KKasa end.

Definition lread (r : lreading) : res value :=
  match r with
  | MotionOn => flag (let! c := pir in Ok (p_enabled (fst c)))                       (* motion.py:278-281 *)
  | MotionMin => number_of (let! c := pir in Ok (p_min (fst c)))                     (* motion.py:283-286 *)
  | MotionMax => number_of (let! c := pir in Ok (p_max (fst c)))                     (* motion.py:288-291 *)
  | MotionMid => number_of (let! c := pir in Ok (adc_mid (fst c)))                   (* motion.py:293-303 *)
  | MotionRange => text (let! c := pir in Ok (prange_name (snd c)))                  (* motion.py:320-323 *)
  | MotionThreshold => number_of (let! c := pir in Ok (p_threshold (fst c)))         (* motion.py:356-359 *)
  | MotionTimeout => plain (entry_of r "get_config" "cold_time")                     (* motion.py:366-369 *)
  | MotionAdc => plain (let! a := adc in Ok (snd a))                                 (* motion.py:390-393 *)
  | MotionValue =>                                                                   (* motion.py:395-398 *)
      let! a := adc in let! z := to_int (snd a) in Ok (Plain (JInt (pir_value (fst a) z)))
  | AmbientOn => let! d := las in let! e := jitem "enable" d in Ok (Plain (JBool (truthy e)))  (* ambientlight.py:67-70 *)
  | AmbientPresets => plain (let! d := las in jitem "level_array" d)                 (* ambientlight.py:62-65 *)
  | AmbientBrightness =>                                                             (* ambientlight.py:72-75 *)
      let! v := entry_of r "get_current_brt" "value" in number_of (to_int v)
  | DimThreshold => plain (dimmer "minThreshold")                                    (* dimmer.py:160-163 *)
  | DimFadeOff => millis (dimmer "fadeOffTime")                                      (* dimmer.py:179-182 *)
  | DimFadeOn => millis (dimmer "fadeOnTime")                                        (* dimmer.py:198-201 *)
  | DimGentleOff => millis (dimmer "gentleOffTime")                                  (* dimmer.py:217-220 *)
  | DimGentleOn => millis (dimmer "gentleOnTime")                                    (* dimmer.py:236-239 *)
  | DimRamp => plain (dimmer "rampRate")                                             (* dimmer.py:255-258 *)
  | UsageDays => plain (entry_of r "get_daystat" "day_list")                         (* usage.py:32-35 *)
  | UsageMonths => plain (entry_of r "get_monthstat" "month_list")                   (* usage.py:37-40 *)
  | CloudInfo => plain (let! d := cloud in Ok (JObj d))                              (* cloud.py:56-59 *)
  | CloudOnline =>                                                                   (* cloud.py:47-50 *)
      let! d := cloud in let! v := dindex "cloud_connected" d in Ok (Plain (JBool (truthy v)))
  | LedLit =>                                                                        (* led.py:24-28 *)
      let! s := sysinfo in
      match s with JObj d => flag (Sensor_Model.led d) | _ => Err PyTypeError end
  end.

(** get_pir_state, motion.py:384-388: [answer] is what the call to the device gives.  The reply goes into
    the data of the module; the adc value of the returned status *)
Definition get_pir_state (answer : res json) : lobj * res json :=
  match answer with
  | Err e => (o, Err e)
  | Ok latest =>
      match ldata MotionAdc with
      | Err e => (o, Err e)
      | Ok d =>
          (set_lu (dset (key bulb MotionAdc) (dset "get_adc_value" latest d) (l_lu o)) o,
           let! _ := pir in jitem "value" latest)
      end
  end.
End Object.

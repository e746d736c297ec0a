(** Legacy motion sensors, ambient light sensors and LEDs, and the MAC address:
    kasa/iot/modules/motion.py, ambientlight.py, led.py, kasa/iot/iotdevice.py.  No proofs. *)
From Coq Require Import QArith Qabs.
From Verif Require Import Base Py Factory_Model Gadget_Model.
Open Scope string_scope.
Open Scope list_scope.
Open Scope Z_scope.

(** ** Motion *)
(** Range, motion.py:17-27, with its values, in order *)
Inductive prange := Far | Mid | Near | Custom.
Definition prange_value (r : prange) : Z := match r with Far => 0 | Mid => 1 | Near => 2 | Custom => 3 end.
Definition prange_name (r : prange) : string := match r with Far => "Far" | Mid => "Mid" | Near => "Near" | Custom => "Custom" end.
Definition pranges : list prange := [Far; Mid; Near; Custom].
(** Range(v) *)
Definition prange_of (v : Z) : res prange :=
  match find (fun r => prange_value r =? v) pranges with Some r => Ok r | None => Err PyValueError end.
(** PIRConfig, motion.py:30-43; the range is not used by it *)
Record pconf := mkConf { p_enabled : bool; p_min : Z; p_max : Z; p_threshold : Z }.
(** adc_mid, motion.py:40-43; the quotient is exact below 2^53 *)
Definition adc_mid (c : pconf) : Z := Z.abs (p_max c - p_min c) / 2.
(** PIRStatus.pir_value, motion.py:53-61 *)
Definition pir_value (c : pconf) (adc : Z) : Z := adc_mid c - adc.
(** pir_percent, motion.py:63-77; the float is taken as the exact quotient *)
Definition pir_percent (c : pconf) (adc : Z) : res Q :=
  let value := pir_value c adc in
  let divisor := if value <? 0 then adc_mid c - p_min c else p_max c - adc_mid c in
  if divisor =? 0 then Err PyZeroDivision else Ok (inject_Z value / inject_Z divisor * 100)%Q.
(** pir_triggered, motion.py:79-89 *)
Definition pir_triggered (c : pconf) (adc : Z) : res bool :=
  if p_enabled c
  then let! p := pir_percent c adc in Ok (negb (Qle_bool (Qabs p) (inject_Z (100 - p_threshold c))))
  else Ok false.
(** The configuration the device reports: get_config with its integer fields and "array" *)
Record mconf := mkMconf { m_enable : Z; m_min : Z; m_max : Z; m_index : Z; m_array : list Z }.
(** get_range_threshold, motion.py:348-354 *)
Definition get_range_threshold (m : mconf) (r : prange) : res Z :=
  if (prange_value r <? 0) || (Z.of_nat (List.length (m_array m)) <=? prange_value r) then Err KKasa
  else match nth_error (m_array m) (Z.to_nat (prange_value r)) with Some t => Ok t | None => Err PyIndexError end.
(** pir_config, motion.py:267-277 *)
Definition pir_config (m : mconf) : res pconf :=
  let! r := prange_of (m_index m) in
  let! t := get_range_threshold m r in
  Ok (mkConf (negb (m_enable m =? 0)) (m_min m) (m_max m) t).
(** ranges, motion.py:309-318 *)
Definition ranges (m : mconf) : list string :=
  map prange_name (filter (fun r => (0 <=? prange_value r) && (prange_value r <? Z.of_nat (List.length (m_array m)))) pranges).
(** str.strip() and str.capitalize(), ASCII only *)
Definition is_space (c : ascii) : bool :=
  let n := Z.of_N (N_of_ascii c) in (n =? 32) || (9 <=? n) && (n <=? 13) || (28 <=? n) && (n <=? 31).
Fixpoint lstrip (s : string) : string :=
  match s with String c s' => if is_space c then lstrip s' else s | EmptyString => EmptyString end.
Fixpoint rstrip (s : string) : string :=
  match s with
  | EmptyString => EmptyString
  | String c s' => match rstrip s' with EmptyString => if is_space c then EmptyString else String c EmptyString | t => String c t end
  end.
Definition upper_char (c : ascii) : ascii :=
  let n := N_of_ascii c in if ((97 <=? n) && (n <=? 122))%N then ascii_of_N (n - 32) else c.
Definition capitalize (s : string) : string :=
  match s with String c s' => String (upper_char c) (lower s') | EmptyString => EmptyString end.
(** _parse_range_value, motion.py:333-342 *)
Definition parse_range (s : string) : res prange :=
  let value := capitalize (rstrip (lstrip s)) in
  match find (fun r => String.eqb (prange_name r) value) pranges with Some r => Ok r | None => Err KKasa end.
Section Device.
Variable reply : cmd -> res json.
(** set_range, 325-331, and _set_range_from_str, motion.py:344-346 *)
Definition set_range (r : prange) : M (list cmd) json :=
  send reply (mkCmd "set_trigger_sens" [("index", JInt (prange_value r))]).
Definition set_range_from_str (s : string) : M (list cmd) json :=
  do! r <- mlift (parse_range s) ;; set_range r.
(** set_threshold, motion.py:361-364 *)
Definition set_threshold (v : Z) : M (list cmd) json :=
  send reply (mkCmd "set_trigger_sens" [("index", JInt (prange_value Custom)); ("value", JInt v)]).
(** set_enabled, motion.py:304-306; set_inactivity_timeout, 368-374 *)
Definition set_pir_enabled (b : bool) : M (list cmd) json := send reply (mkCmd "set_enable" [("enable", JInt (if b then 1 else 0))]).
Definition set_cold_time (t : Z) : M (list cmd) json := send reply (mkCmd "set_cold_time" [("cold_time", JInt t)]).
(** Led.set_led, iot/modules/led.py:31-33 *)
Definition set_led (state : bool) : M (list cmd) json := send reply (mkCmd "set_led_off" [("off", JInt (if state then 0 else 1))]).
End Device.
(** Led.led and Led.mode, iot/modules/led.py:17-29; [off] is sys_info["led_off"] *)
Definition led (sys : dict json) : res bool :=
  let! off := dindex "led_off" sys in
  match as_int off with Some n => Ok (negb (1 - n =? 0)) | None => Err PyTypeError end.
Definition led_mode (sys : dict json) : res string := let! b := led sys in Ok (if b then "always" else "never").

(** ** MAC address *)
(** The value of a hexadecimal digit *)
Definition hexval (c : ascii) : option Z :=
  let n := Z.of_N (N_of_ascii c) in
  if (48 <=? n) && (n <=? 57) then Some (n - 48)
  else if (65 <=? n) && (n <=? 70) then Some (n - 55)
  else if (97 <=? n) && (n <=? 102) then Some (n - 87)
  else None.
(** bytes.fromhex(s): spaces between the pairs are skipped *)
Definition is_gap (c : ascii) : bool := let n := Z.of_N (N_of_ascii c) in (n =? 32) || (9 <=? n) && (n <=? 13).
Fixpoint fromhex (s : string) : res (list Z) :=
  match s with
  | EmptyString => Ok []
  | String c s' =>
      if is_gap c then fromhex s'
      else match s' with
           | EmptyString => Err PyValueError
           | String d s'' =>
               match hexval c, hexval d with
               | Some h, Some l => let! r := fromhex s'' in Ok (16 * h + l :: r)
               | _, _ => Err PyValueError
               end
           end
  end.
(** format(s, "02x") *)
Definition hexchar (z : Z) : ascii := ascii_of_N (Z.to_N (if z <? 10 then 48 + z else 87 + z)).
Definition hex2 (z : Z) : string := String (hexchar (z / 16)) (String (hexchar (z mod 16)) EmptyString).
(** s.replace("-", ":") *)
Definition dash_to_colon (s : string) : string := smap (fun c => if Ascii.eqb c "-" then ":"%char else c) s.
(** IotDevice.mac, iotdevice.py:567-585 *)
Definition mac (sys : dict json) : res string :=
  let m := match dget "mac" sys with
           | Some v => v
           | None => match dget "mic_mac" sys with Some v => v | None => JNull end
           end in
  if negb (truthy m) then Err KKasa
  else match m with
       | JStr s =>
           let s := dash_to_colon s in
           if smem_char ":" s then Ok s
           else let! l := fromhex s in Ok (String.concat ":" (map hex2 l))
       | _ => Err PyAttributeError
       end.

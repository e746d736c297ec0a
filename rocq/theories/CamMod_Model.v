(** Camera modules: switches, privacy mask and power, siren, stream URLs, motors, battery, and
    pairing of hub children: kasa/smartcam/modules/*.py, kasa/smartcam/smartcamdevice.py,
    kasa/smart/modules/childsetup.py.  No proofs. *)
From Coq Require Import DecimalString Decimal.
From Verif Require Import Base Py Smod_Model Gadget_Model.
Open Scope string_scope.
Open Scope list_scope.
Open Scope Z_scope.

(** ** Switches *)
(** QUERY_GETTER_NAME, the setter, QUERY_MODULE_NAME, QUERY_SECTION_NAMES *)
Record switch := mkSw { w_getter : string; w_setter : string; w_module : string; w_section : string }.
(** motiondetection.py:19-21,48 *)
Definition motion := mkSw "getDetectionConfig" "setDetectionConfig" "motion_detection" "motion_det".
(** persondetection.py:19-21,48 *)
Definition person := mkSw "getPersonDetectionConfig" "setPersonDetectionConfig" "people_detection" "detection".
(** petdetection.py:19-21,48 *)
Definition pet := mkSw "getPetDetectionConfig" "setPetDetectionConfig" "pet_detection" "detection".
(** tamperdetection.py:19-21,48 *)
Definition tamper := mkSw "getTamperDetectionConfig" "setTamperDetectionConfig" "tamper_detection" "tamper_det".
(** babycrydetection.py:19-21,48 *)
Definition babycry := mkSw "getBCDConfig" "setBCDConfig" "sound_detection" "bcd".
(** led.py:14-16,30 *)
Definition led := mkSw "getLedStatus" "setLedStatus" "led" "config".
(** lensmask.py:18-20,32 *)
Definition lensmask := mkSw "getLensMaskConfig" "setLensMaskConfig" "lens_mask" "lens_mask_info".
Definition switches : list switch := [motion; person; pet; tamper; babycry; led; lensmask].
Definition json_is (s : string) (v : json) : bool := match v with JStr t => String.eqb t s | _ => false end.
(** enabled, motiondetection.py:38-41 and the same in the other modules; led, led.py:18-21 *)
Definition sw_enabled (w : switch) (own : dict Smod_Model.reply) : res bool :=
  let! v := cam_data [w_getter w] (w_getter w) (w_module w) own JNull in
  match v with
  | One j => let! s := jitem (w_section w) j in let! e := jitem "enabled" s in Ok (json_is "on" e)
  | Many _ => Err PyOther
  end.
(** query, smartcammodule.py:54-64 *)
Definition sw_query (w : switch) : string * json := (w_getter w, JObj [(w_module w, JObj [("name", JStr (w_section w))])]).

Section Commands.
Variable reply : cmd -> res json.
(** set_enabled, motiondetection.py:43-49 and the same in the other modules, with
    _query_setter_helper, smartcamdevice.py:187-192; set_led, led.py:23-30 *)
Definition sw_set (w : switch) (enable : bool) : M (list cmd) json :=
  send reply (mkCmd (w_setter w)
    [(w_module w, JObj [(w_section w, JObj [("enabled", JStr (if enable then "on" else "off"))])])]).

(** ** Power *)
(** Camera.is_on, camera.py:50-55; [lens]: whether there is a privacy mask module, and its enabled *)
Definition camera_is_on (lens : option (res bool)) : res bool :=
  match lens with Some e => let! e := e in Ok (negb e) | None => Ok true end.
(** Camera.set_state, camera.py:57-65 *)
Definition camera_set_state (lens : bool) (on : bool) : M (list cmd) json :=
  if lens then sw_set lensmask (negb on) else mret (JObj []).
(** SmartCamDevice.is_on, smartcamdevice.py:236-243; [camera]: whether there is a camera module, and
    whether it is disabled *)
Definition device_is_on (camera : option bool) (lens : option (res bool)) : res bool :=
  match camera with Some false => camera_is_on lens | _ => Ok true end.
(** SmartCamDevice.set_state, smartcamdevice.py:245-250 *)
Definition device_set_state (camera : option bool) (lens : bool) (on : bool) : M (list cmd) json :=
  match camera with Some false => camera_set_state lens on | _ => mret (JObj []) end.

(** ** Siren *)
(** str(z) and int(s); for int only an optional sign and digits, everything else is ValueError *)
Definition str_of_Z (z : Z) : string := NilZero.string_of_int (Z.to_int z).
Definition Z_of_str (s : string) : res Z :=
  match NilZero.int_of_string s with Some i => Ok (Z.of_int i) | None => Err PyValueError end.
(** _validate_and_get_config, alarm.py:188-216; [sounds]: alarm_sounds, read only for a sound *)
Definition siren_config (sounds : res (list string)) (duration volume : option Z) (sound : option string) : res (dict json) :=
  let! _ := match sound with
            | None => Ok tt
            | Some s => if String.eqb s "" then Ok tt else let! l := sounds in if smem s l then Ok tt else Err PyValueError
            end in
  let! _ := match duration with Some d => if (d <? 0) || (6000 <? d) then Err PyValueError else Ok tt | None => Ok tt end in
  let! _ := match volume with Some v => if (v <? 0) || (10 <? v) then Err PyValueError else Ok tt | None => Ok tt end in
  let config := match sound with Some s => if String.eqb s "" then [] else [("siren_type", JStr s)] | None => [] end in
  let config := match duration with Some d => dset "duration" (JInt d) config | None => config end in
  Ok (match volume with Some v => dset "volume" (JStr (str_of_Z v)) config | None => config end).
Definition siren_configure (config : dict json) : M (list cmd) json := send reply (mkCmd "setSirenConfig" [("siren", JObj config)]).
(** set_alarm_sound, alarm.py:115-122 *)
Definition siren_set_sound (sounds : res (list string)) (s : string) : M (list cmd) json :=
  do! config <- mlift (siren_config sounds None None (Some s)) ;; siren_configure config.
(** set_alarm_volume, alarm.py:137-143 *)
Definition siren_set_volume (sounds : res (list string)) (v : Z) : M (list cmd) json :=
  do! config <- mlift (siren_config sounds None (Some v) None) ;; siren_configure config.
(** set_alarm_duration, alarm.py:150-156 *)
Definition siren_set_duration (sounds : res (list string)) (d : Z) : M (list cmd) json :=
  do! config <- mlift (siren_config sounds (Some d) None None) ;; siren_configure config.
Definition siren_status (s : string) : M (list cmd) json := send reply (mkCmd "setSirenStatus" [("siren", JObj [("status", JStr s)])]).
(** play, alarm.py:163-182 *)
Definition siren_play (sounds : res (list string)) (duration volume : option Z) (sound : option string) : M (list cmd) json :=
  do! config <- mlift (siren_config sounds duration volume sound) ;;
  do! _ <- (match config with [] => mret JNull | _ => siren_configure config end) ;;
  siren_status "on".
(** stop, alarm.py:184-186 *)
Definition siren_stop : M (list cmd) json := siren_status "off".
End Commands.
(** alarm_sound, alarm_volume, alarm_duration and active, alarm.py:110-113,129-135,145-148,158-161;
    [conf], [status]: the replies to getSirenConfig and getSirenStatus *)
Definition siren_sound (conf : dict json) : res json := dindex "siren_type" conf.
Definition siren_volume (conf : dict json) : res Z :=
  let! v := dindex "volume" conf in
  match v with
  | JStr s => Z_of_str s
  | JInt z => Ok z
  | JBool b => Ok (if b then 1 else 0)
  | JFloat _ => Err PyOther               (* int(float), not modelled *)
  | _ => Err PyTypeError
  end.
Definition siren_duration (conf : dict json) : res json := dindex "duration" conf.
Definition siren_active (status : dict json) : res bool := let! s := dindex "status" status in Ok (negb (json_is "off" s)).

(** ** Motors: pantilt.py:92-107; the request as given to the protocol *)
Definition move (pan tilt : Z) : dict json :=
  [("do", JObj [("motor", JObj [("move", JObj [("x_coord", JStr (str_of_Z pan)); ("y_coord", JStr (str_of_Z tilt))])])])].
(** The features pan_right, pan_left, tilt_up, tilt_down, pantilt.py:30-90 *)
Definition pan_right (step : Z) := move (step * -1) 0.
Definition pan_left (step : Z) := move step 0.
Definition tilt_up (step : Z) := move 0 step.
Definition tilt_down (step : Z) := move 0 (step * -1).

(** ** Battery: battery_charging, battery.py:110-113 *)
Definition battery_charging (info : dict json) : res bool :=
  let! v := dindex "battery_voltage" info in Ok (negb (json_is "NO" v)).

(** ** Stream URLs *)
(** urllib.parse.quote_plus on the UTF-8 encoding of a text, given as a string of bytes *)
Definition always_safe (c : ascii) : bool :=
  let n := N_of_ascii c in
  (((65 <=? n) && (n <=? 90)) || ((97 <=? n) && (n <=? 122)) || ((48 <=? n) && (n <=? 57)))%N ||
  smem_char c "_.-~".
Definition hex_digit (n : N) : ascii := if (n <? 10)%N then ascii_of_N (48 + n) else ascii_of_N (55 + n).
Fixpoint quote_plus (s : string) : string :=
  match s with
  | EmptyString => EmptyString
  | String c s' =>
      if Ascii.eqb c " " then String "+" (quote_plus s')
      else if always_safe c then String c (quote_plus s')
      else String "%" (String (hex_digit (N_of_ascii c / 16)) (String (hex_digit (N_of_ascii c mod 16)) (quote_plus s')))
  end.
(** A user name or password: a text, or any other JSON value taken from a hash *)
Definition quote_value (v : json) : res string := match v with JStr s => Ok (quote_plus s) | _ => Err PyTypeError end.
(** _get_credentials, camera.py:67-87.  [creds], [hash]: those of the configuration; [decode]: base64
    and JSON decoding, [None] for any failure. *)
Definition get_credentials (decode : string -> option json) (creds : option (string * string)) (hash : option string) : res (option (json * json)) :=
  match creds with
  | Some (u, p) => Ok (Some (JStr u, JStr p))
  | None =>
      match hash with
      | None => Ok None
      | Some h =>
          if String.eqb h "" then Ok None else
          match decode h with
          | None => Ok None
          | Some (JObj d) =>
              let u := match dget "un" d with Some v => v | None => JNull end in
              let p := match dget "pwd" d with Some v => v | None => JNull end in
              Ok (if truthy u && truthy p then Some (u, p) else None)
          | Some _ => Err PyAttributeError
          end
      end
  end.
(** stream_rtsp_url, camera.py:89-122 *)
Definition rtsp_url (decode : string -> option json) (hub_child : bool) (host : string) (config : option (string * string) * option string)
    (given : option (string * string)) (resolution : string) : res (option string) :=
  if hub_child then Ok None else
  match dget resolution [("HD", "stream1"); ("SD", "stream2")] with
  | None => Ok None
  | Some stream =>
      let! credentials := match given with
                          | Some (u, p) => Ok (Some (JStr u, JStr p))
                          | None => get_credentials decode (fst config) (snd config)
                          end in
      match credentials with
      | None => Ok None
      | Some (u, p) =>
          if truthy u && truthy p then
            let! u := quote_value u in
            let! p := quote_value p in
            Ok (Some ("rtsp://" ++ u ++ ":" ++ p ++ "@" ++ host ++ ":554/" ++ stream)%string)
          else Ok None
      end
  end.
(** onvif_url, camera.py:124-129 *)
Definition onvif_url (hub_child : bool) (host : string) : option string :=
  if hub_child then None else Some ("http://" ++ host ++ ":2020/onvif/device_service")%string.

(** ** Pairing *)
(** What is done to the hub. *)
Inductive act := Call (c : cmd) | Sleep (t : Z) | Update.
Section Pairing.
(** The hub's answers, and the ids of its children after an update, given what was done so far. *)
Variable answer : list act -> cmd -> res json.
Variable children : list act -> res (list string).
Definition p_call (c : cmd) : M (list act) json := fun log => (log ++ [Call c], answer log c).
Definition p_sleep (t : Z) : M (list act) unit := fun log => (log ++ [Sleep t], Ok tt).
Definition p_update : M (list act) (list string) := fun log => (log ++ [Update], children log).
(** The loop of _add_devices, smart childsetup.py:92-104, smartcam childsetup.py:90-103.  The log
    message needs the model name. *)
Fixpoint successes (ids : list string) (l : list json) : res (list json) :=
  match l with
  | [] => Ok []
  | d :: l =>
      let! i := jitem "device_id" d in
      let! added := match i with
                    | JStr s => Ok (smem s ids)
                    | JArr _ | JObj _ => Err PyTypeError
                    | _ => Ok false
                    end in
      let! _ := jitem "device_model" d in
      let! r := successes ids l in
      Ok (if added then d :: r else r)
  end.
(** pair, _get_detected_devices and _add_devices of SMART hubs, smart childsetup.py:53-73 and 83-112;
    [cats]: device_category_list of the module's data *)
Definition pair_smart (cats : res json) (timeout : Z) : M (list act) (list json) :=
  do! _ <- p_call (mkCmd "begin_scanning_child_device" []) ;;
  do! _ <- p_sleep timeout ;;
  do! cats <- mlift cats ;;
  do! r <- p_call (mkCmd "get_scan_child_device_list" [("scan_list", cats)]) ;;
  do! detected <- mlift (jitem "get_scan_child_device_list" r) ;;
  do! found <- mlift (jitem "child_device_list" detected) ;;
  if negb (truthy found) then mret [] else
  do! d <- mlift (match detected with JObj d => Ok d | _ => Err PyTypeError end) ;;
  do! _ <- p_call (mkCmd "add_child_device_list" d) ;;
  do! ids <- p_update ;;
  do! l <- mlift (jiter found) ;;
  mlift (successes ids l).
(** pair and _add_devices of camera hubs, smartcam childsetup.py:54-103; [cats]: _categories *)
Definition pair_cam (cats : list string) (timeout : Z) : M (list act) (list json) :=
  let scan := [("childControl", JObj [("category", JArr (map JStr cats))])] in
  do! _ <- p_call (mkCmd "startScanChildDevice" scan) ;;
  do! _ <- p_sleep timeout ;;
  do! r <- p_call (mkCmd "getScanChildDeviceList" scan) ;;
  do! detected <- mlift (jitem "getScanChildDeviceList" r) ;;
  do! found <- mlift (jitem "child_device_list" detected) ;;
  if negb (truthy found) then mret [] else
  do! _ <- p_call (mkCmd "addScanChildDeviceList" [("childControl", JObj [("child_device_list", found)])]) ;;
  do! ids <- p_update ;;
  do! l <- mlift (jiter found) ;;
  mlift (successes ids l).
(** unpair, smart childsetup.py:75-82, smartcam childsetup.py:105-112 *)
Definition unpair (cam : bool) (id : string) : M (list act) json :=
  let l := [("child_device_list", JArr [JObj [("device_id", JStr id)]])] in
  do! r <- p_call (if cam then mkCmd "removeChildDeviceList" [("childControl", JObj l)] else mkCmd "remove_child_device_list" l) ;;
  do! _ <- p_update ;;
  mret r.
End Pairing.

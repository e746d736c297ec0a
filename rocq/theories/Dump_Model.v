(** The tool that writes what a device says into a file for publication: devtools/dump_devinfo.py.  Left
    out: the printing, the choice of the devices and the question whether to save.  No proofs. *)
From Verif Require Import Base Py Redact_Model Factory_Model DevType_Model Table_Model.
Open Scope string_scope.
Open Scope list_scope.
Open Scope Z_scope.

(** ** Redaction *)
(** re.sub(r"\w", "0", x), dump_devinfo.py:96 *)
Definition zeros (s : string) : string := smap (fun c => if word_char c then "0"%char else c) s.
(** _redact_to_zeros, dump_devinfo.py:94-100 *)
Fixpoint to_zeros (x : json) : json :=
  match x with
  | JStr s => if sin "REDACT" s then JStr (zeros s) else x
  | JObj d => JObj (map (fun kv : string * json => (fst kv, to_zeros (snd kv))) d)
  | _ => x
  end.
(** _wrapped and _scrub, dump_devinfo.py:90-111 *)
Definition scrub (key : string) (redactor : option (json -> res json)) (x : json) : res json :=
  match redactor with
  | None => Ok (JStr "**SCRUBBED**")
  | Some f =>
      if smem key ["ip"; "local_ip"] then Ok (JStr "127.0.0.123")
      else match x with
           | JStr s => if sin "SCRUBBED" s then Ok x else let! v := f x in Ok (to_zeros v)
           | _ => let! v := f x in Ok (to_zeros v)
           end
  end.
(** _wrap_redactors, dump_devinfo.py:82-115 *)
Definition wrap_redactors (t : redactors) : redactors := map (fun kv => (fst kv, Some (scrub (fst kv) (snd kv)))) t.

(** ** Asking *)
(** SmartCall, dump_devinfo.py:118-126; every request there is has one entry; should_succeed is always true *)
Record scall := mkCall { s_module : string; s_key : string; s_params : json; s_child : string; s_multi : bool }.

(** keys[x : x + step] for x in range(0, end, step), dump_devinfo.py:578-587 *)
Fixpoint slices {A} (fuel : nat) (step : nat) (l : list A) : list (list A) :=
  match fuel with
  | O => []
  | S f => match l with [] => [] | _ => firstn step l :: slices f step (skipn step l) end
  end.

Section Asking.
Variable W : Type.
(** protocol.query, through the wrapper of the child unless the second argument is empty *)
Variable ask : W -> string -> dict json -> W * res (dict json).

(** The loop, dump_devinfo.py:582-587 *)
Fixpoint ask_all (child : string) (l : list (dict json)) (final : dict json) (w : W) : W * res (dict json) :=
  match l with
  | [] => (w, Ok final)
  | r :: l => match ask w child r with
              | (w, Ok resp) => ask_all child l (dupdate final resp) w
              | (w, Err e) => (w, Err e)
              end
  end.
(** _make_requests_or_exit, dump_devinfo.py:562-611; exit(1) is [Cancelled] *)
Definition make_requests (batch_size : Z) (child : string) (requests : dict json) (w : W) : W * res (dict json) :=
  match (if batch_size =? 0 then (w, Err PyValueError)
         else ask_all child (if batch_size <? 0 then [] else slices (length requests) (Z.to_nat batch_size) requests) [] w) with
  | (w, Ok final) => (w, Ok final)
  | (w, Err _) => (w, Err Cancelled)
  end.
(** multiple_requests, dump_devinfo.py:538-542 *)
Definition multiple_requests (calls : list scall) : dict json :=
  fold_left (fun d c => if s_multi c && negb (String.eqb (s_key c) "") then dset (s_key c) (s_params c) d else d) calls [].
(** The loop over single_calls, dump_devinfo.py:551-558 *)
Fixpoint single_calls (batch_size : Z) (child : string) (calls : list scall) (final : dict json) (w : W) : W * res (dict json) :=
  match calls with
  | [] => (w, Ok final)
  | c :: calls => match make_requests batch_size child [(s_key c, s_params c)] w with
                  | (w, Ok r) => single_calls batch_size child calls (dset (s_module c) (JObj r) final) w
                  | (w, Err e) => (w, Err e)
                  end
  end.
(** _make_final_calls, dump_devinfo.py:524-559 *)
Definition make_final_calls (batch_size : Z) (child : string) (calls : list scall) (w : W) : W * res (dict json) :=
  match make_requests batch_size child (multiple_requests calls) w with
  | (w, Ok final) => single_calls batch_size child (filter (fun c => negb (s_multi c)) calls) final w
  | (w, Err e) => (w, Err e)
  end.
(** The trials, dump_devinfo.py:923-961 *)
Fixpoint try_calls (calls successes : list scall) (w : W) : W * res (list scall) :=
  match calls with
  | [] => (w, Ok successes)
  | c :: calls =>
      match ask w (s_child c) [(s_key c, s_params c)] with
      | (w, Ok resp) => try_calls calls (match resp with [] => successes | _ => successes ++ [c] end) w
      | (w, Err (KAuth _)) => (w, Err Cancelled)
      | (w, Err e) => if is_exception e then try_calls calls successes w else (w, Err e)
      end
  end.
(** device_requests, dump_devinfo.py:963-967 *)
Definition device_requests (successes : list scall) : dict (list scall) :=
  fold_left (fun d s => dset (s_child s) ((match dget (s_child s) d with Some l => l | None => [] end) ++ [s]) d) successes [].
(** The final calls of the children, dump_devinfo.py:974-986 *)
Fixpoint child_calls (batch_size : Z) (l : dict (list scall)) (acc : dict (dict json)) (w : W) : W * res (dict (dict json)) :=
  match l with
  | [] => (w, Ok acc)
  | (child, calls) :: l =>
      if String.eqb child "" then child_calls batch_size l acc w
      else match make_final_calls batch_size child calls w with
           | (w, Ok r) => child_calls batch_size l (dset child r acc) w
           | (w, Err e) => (w, Err e)
           end
  end.
(** get_smart_fixtures up to the answers, dump_devinfo.py:923-986 *)
Definition collect (batch_size : Z) (test_calls successes : list scall) (w : W) : W * res (dict json * dict (dict json)) :=
  match try_calls test_calls successes w with
  | (w, Err e) => (w, Err e)
  | (w, Ok successes) =>
      let requests := device_requests successes in
      match dget "" requests with
      | None => (w, Err PyKeyError)
      | Some calls =>
          match make_final_calls batch_size "" calls w with
          | (w, Err e) => (w, Err e)
          | (w, Ok final) =>
              match child_calls batch_size requests [] w with
              | (w, Ok children) => (w, Ok (final, children))
              | (w, Err e) => (w, Err e)
              end
          end
      end
  end.
End Asking.

(** SMARTCAM_REQUESTS, devtools/helpers/smartcamrequests.py:5-66 *)
Definition smartcam_requests : list (string * json) :=
  [("getAlertTypeList", JObj [("msg_alarm", JObj [("name", JStr "alert_type")])]);
   ("getNightVisionCapability", JObj [("image_capability", JObj [("name", JArr [JStr "supplement_lamp"])])]);
   ("getDeviceInfo", JObj [("device_info", JObj [("name", JArr [JStr "basic_info"])])]);
   ("getDetectionConfig", JObj [("motion_detection", JObj [("name", JArr [JStr "motion_det"])])]);
   ("getPersonDetectionConfig", JObj [("people_detection", JObj [("name", JArr [JStr "detection"])])]);
   ("getVehicleDetectionConfig", JObj [("vehicle_detection", JObj [("name", JArr [JStr "detection"])])]);
   ("getBCDConfig", JObj [("sound_detection", JObj [("name", JArr [JStr "bcd"])])]);
   ("getPetDetectionConfig", JObj [("pet_detection", JObj [("name", JArr [JStr "detection"])])]);
   ("getBarkDetectionConfig", JObj [("bark_detection", JObj [("name", JArr [JStr "detection"])])]);
   ("getMeowDetectionConfig", JObj [("meow_detection", JObj [("name", JArr [JStr "detection"])])]);
   ("getGlassDetectionConfig", JObj [("glass_detection", JObj [("name", JArr [JStr "detection"])])]);
   ("getTamperDetectionConfig", JObj [("tamper_detection", JObj [("name", JStr "tamper_det")])]);
   ("getLensMaskConfig", JObj [("lens_mask", JObj [("name", JArr [JStr "lens_mask_info"])])]);
   ("getLdc", JObj [("image", JObj [("name", JArr [JStr "switch"; JStr "common"])])]);
   ("getLastAlarmInfo", JObj [("system", JObj [("name", JArr [JStr "last_alarm_info"])])]);
   ("getLedStatus", JObj [("led", JObj [("name", JArr [JStr "config"])])]);
   ("getTargetTrackConfig", JObj [("target_track", JObj [("name", JArr [JStr "target_track_info"])])]);
   ("getPresetConfig", JObj [("preset", JObj [("name", JArr [JStr "preset"])])]);
   ("getFirmwareUpdateStatus", JObj [("cloud_config", JObj [("name", JStr "upgrade_status")])]);
   ("getMediaEncrypt", JObj [("cet", JObj [("name", JArr [JStr "media_encrypt"])])]);
   ("getConnectionType", JObj [("network", JObj [("get_connection_type", JArr [])])]);
   ("getAlertConfig", JObj [("msg_alarm", JObj [("name", JArr [JStr "chn1_msg_alarm_info"; JStr "capability"]); ("table", JArr [JStr "usr_def_audio"])])]);
   ("getAlertPlan", JObj [("msg_alarm_plan", JObj [("name", JStr "chn1_msg_alarm_plan")])]);
   ("getSirenTypeList", JObj [("siren", JObj [])]);
   ("getSirenConfig", JObj [("siren", JObj [])]);
   ("getLightTypeList", JObj [("msg_alarm", JObj [])]);
   ("getSirenStatus", JObj [("siren", JObj [])]);
   ("getLightFrequencyInfo", JObj [("image", JObj [("name", JStr "common")])]);
   ("getRotationStatus", JObj [("image", JObj [("name", JArr [JStr "switch"])])]);
   ("getNightVisionModeConfig", JObj [("image", JObj [("name", JStr "switch")])]);
   ("getWhitelampStatus", JObj [("image", JObj [("get_wtl_status", JArr [JStr "null"])])]);
   ("getWhitelampConfig", JObj [("image", JObj [("name", JStr "switch")])]);
   ("getMsgPushConfig", JObj [("msg_push", JObj [("name", JArr [JStr "chn1_msg_push_info"])])]);
   ("getSdCardStatus", JObj [("harddisk_manage", JObj [("table", JArr [JStr "hd_info"])])]);
   ("getCircularRecordingConfig", JObj [("harddisk_manage", JObj [("name", JStr "harddisk")])]);
   ("getRecordPlan", JObj [("record_plan", JObj [("name", JArr [JStr "chn1_channel"])])]);
   ("getAudioConfig", JObj [("audio_config", JObj [("name", JArr [JStr "speaker"; JStr "microphone"])])]);
   ("getFirmwareAutoUpgradeConfig", JObj [("auto_upgrade", JObj [("name", JArr [JStr "common"])])]);
   ("getVideoQualities", JObj [("video", JObj [("name", JArr [JStr "main"])])]);
   ("getVideoCapability", JObj [("video_capability", JObj [("name", JStr "main")])]);
   ("getTimezone", JObj [("system", JObj [("name", JStr "basic")])]);
   ("getClockStatus", JObj [("system", JObj [("name", JStr "clock_status")])]);
   ("getAppComponentList", JObj [("app_component", JObj [("name", JStr "app_component_list")])]);
   ("getChildDeviceComponentList", JObj [("childControl", JObj [("start_index", JInt 0)])]);
   ("get", JObj [("function", JObj [("name", JArr [JStr "module_spec"])])]);
   ("get", JObj [("cet", JObj [("name", JArr [JStr "vhttpd"])])]);
   ("get", JObj [("motor", JObj [("name", JArr [JStr "capability"])])]);
   ("get", JObj [("audio_capability", JObj [("name", JArr [JStr "device_speaker"; JStr "device_microphone"])])]);
   ("get", JObj [("audio_config", JObj [("name", JArr [JStr "speaker"; JStr "microphone"])])]);
   ("getMatterSetupInfo", JObj [("matter", JObj [])]);
   ("getConnectStatus", JObj [("onboarding", JObj [("get_connect_status", JObj [])])]);
   ("scanApList", JObj [("onboarding", JObj [("scan", JObj [])])])].

(** The calls for a camera and for a child of it that is a camera, dump_devinfo.py:619-635 and 704-716;
    [requests]: the table above *)
Definition first_key (j : json) : string := match j with JObj ((k, _) :: _) => k | _ => "" end.
Definition camera_module (m : string) (p : json) : string := if String.eqb m "get" then (m ++ "_" ++ first_key p)%string else m.
Definition camera_calls (requests : list (string * json)) : list scall :=
  map (fun r => mkCall (camera_module (fst r) (snd r)) (fst r) (snd r) "" (negb (String.eqb (fst r) "get"))) requests.
Definition camera_child_calls (requests : list (string * json)) (child : string) : list scall :=
  map (fun r => mkCall (camera_module (fst r) (snd r)) (fst r) (snd r) child true) requests.

(** ** The ids of the children *)
(** x.get(k, {}) *)
Definition get_or_empty (k : string) (x : json) : res json :=
  match x with JObj d => Ok (match dget k d with Some v => v | None => JObj [] end) | _ => Err PyAttributeError end.
(** x[k1]...[kn] = v in place *)
Fixpoint put (p : list string) (v : json) (x : json) : json :=
  match p with
  | [] => v
  | k :: p => match x with
              | JObj d => JObj (dset k (match dget k d with Some y => put p v y | None => v end) d)
              | _ => x
              end
  end.
(** f"SCRUBBED_CHILD_DEVICE_ID_{index + 1}" *)
Definition scrubbed_id (index : nat) : string := ("SCRUBBED_CHILD_DEVICE_ID_" ++ string_of_nat (S index))%string.
(** scrubbed_child_id_map, dump_devinfo.py:856-860 *)
Fixpoint id_map_from (index : nat) (ids : list string) : dict string :=
  match ids with
  | [] => []
  | i :: ids => if String.eqb i "" then id_map_from (S index) ids else (i, scrubbed_id index) :: id_map_from (S index) ids
  end.
(** dump_devinfo.py:862-879: in the child's own answers; what is not found is logged *)
Definition scrub_response (id : string) (response : dict json) : res (dict json) :=
  let! found := match dget "get_device_info" response with Some i => jcontains "device_id" i | None => Ok false end in
  if found then
    match dget "get_device_info" response with
    | Some (JObj i) => Ok (dset "get_device_info" (JObj (dset "device_id" (JStr id) i)) response)
    | _ => Err PyTypeError
    end
  else
    let! di := get_or_empty "getDeviceInfo" (JObj response) in
    let! di := get_or_empty "device_info" di in
    let! basic := jget "basic_info" di in
    if truthy basic then
      let! found := jcontains "dev_id" basic in
      if found then
        match basic with
        | JObj _ => match put ["getDeviceInfo"; "device_info"; "basic_info"; "dev_id"] (JStr id) (JObj response) with
                    | JObj r => Ok r
                    | _ => Err PyTypeError
                    end
        | _ => Err PyTypeError
        end
      else Ok response
    else Ok response.
Definition scrub_responses (m : dict string) : dict (dict json) -> res (dict (dict json)) :=
  fix go l := match l with
              | [] => Ok []
              | (i, r) :: l => let! id := dindex i m in let! r := scrub_response id r in let! l := go l in Ok ((i, r) :: l)
              end.
(** scrubbed_child_id_map[device_id] for a value; one that is no string is not a key *)
Definition lookup (m : dict string) (v : json) : res string := match v with JStr s => dindex s m | _ => Err PyKeyError end.
(** dump_devinfo.py:883-888 and 892-894 *)
Definition scrub_entry (m : dict string) (child : json) : res json :=
  let! v := jitem "device_id" child in
  let! id := lookup m v in
  Ok (put ["device_id"] (JStr id) child).
(** dump_devinfo.py:895-902 *)
Definition scrub_cam_entry (m : dict string) (child : json) : res json :=
  let! v := jget "device_id" child in
  if truthy v then let! id := lookup m v in Ok (put ["device_id"] (JStr id) child)
  else let! v := jget "dev_id" child in
       if truthy v then let! id := lookup m v in Ok (put ["dev_id"] (JStr id) child) else Ok child.
Fixpoint map_res {A B} (f : A -> res B) (l : list A) : res (list B) :=
  match l with [] => Ok [] | a :: l => let! b := f a in let! l := map_res f l in Ok (b :: l) end.
(** for child in main[method][key]: ... *)
Definition scrub_list (f : json -> res json) (method key : string) (main : dict json) : res (dict json) :=
  let! r := dindex method main in
  let! l := jitem key r in
  match l with
  | JArr l => let! l := map_res f l in Ok (dset method (put [key] (JArr l) r) main)
  | _ => Err PyTypeError
  end.
(** dump_devinfo.py:881-902 *)
Definition scrub_main (m : dict string) (main : dict json) : res (dict json) :=
  let! main := match dget "get_child_device_component_list" main with
               | Some gc => if truthy gc then
                              let! main := scrub_list (scrub_entry m) "get_child_device_component_list" "child_component_list" main in
                              scrub_list (scrub_entry m) "get_child_device_list" "child_device_list" main
                            else Ok main
               | None => Ok main
               end in
  match dget "getChildDeviceComponentList" main with
  | Some gc => if truthy gc then
                 let! main := scrub_list (scrub_entry m) "getChildDeviceComponentList" "child_component_list" main in
                 scrub_list (scrub_cam_entry m) "getChildDeviceList" "child_device_list" main
               else Ok main
  | None => Ok main
  end.

(** ** The files *)
Record fixture := mkFix { f_name : string; f_folder : string; f_data : json; f_suffix : string }.
Section Files.
(** str(v) *)
Variable str : json -> string.
(** _get_device_info and the file name, dump_devinfo.py:835-849 and 1074-1089, of a device that talks the
    newer protocol, of a camera, and of a child of a camera; the second argument is what discovery says
    of the model.  [DevType_Model] has the functions. *)
Variable smart_name cam_name : dict json -> option (res json) -> res string.
Variable cam_child_name : dict json -> res string.

(** redact_data of a dictionary *)
Definition redacted (t : redactors) (d : dict json) : dict json :=
  match redact_data (wrap_redactors t) (JObj d) with JObj d => d | _ => [] end.
(** parent_model, dump_devinfo.py:1008-1019; None is [JNull] *)
Definition parent_model (final : dict json) : res json :=
  let! i := get_or_empty "get_device_info" (JObj final) in
  let! model := jget "model" i in
  if truthy model then Ok model
  else
    let! i := get_or_empty "getDeviceInfo" (JObj final) in
    let! i := get_or_empty "device_info" i in
    let! i := get_or_empty "basic_info" i in
    let! model := jget "device_model" i in
    Ok (if truthy model then model else JNull).
(** child_model and parent_model and child_model != parent_model; models are strings *)
Definition other_model (child parent : json) : bool :=
  truthy child && truthy parent && match child, parent with JStr a, JStr b => negb (String.eqb a b) | _, _ => true end.
(** child_infos_on_parent, dump_devinfo.py:998-1003 *)
Definition infos_on_parent (final : dict json) : res (dict json) :=
  match dget "getChildDeviceList" final with
  | Some l =>
      if truthy l then
        let! l := jitem "child_device_list" l in
        let! l := jiter l in
        fold_left (fun acc info => let! acc := acc in
                                   let! id := jitem "device_id" info in
                                   match id with JStr s => Ok (dset s info acc) | _ => Err PyTypeError end) l (Ok [])
      else Ok []
  | None => Ok []
  end.
(** The loop over the children, dump_devinfo.py:1005-1059: the main answers and the files so far *)
Fixpoint child_files (m : dict string) (infos : dict json) (children : dict (dict json)) (final : dict json) (files : list fixture)
  : res (dict json * list fixture) :=
  match children with
  | [] => Ok (final, files)
  | (i, response) :: children =>
      let! id := dindex i m in
      let! parent := parent_model final in
      let! gi := get_or_empty "get_device_info" (JObj response) in
      let! model := jget "model" gi in
      if other_model model parent then
        let response := redacted smart_redactors response in
        let! name := smart_name response None in
        child_files m infos children final (files ++ [mkFix name "tests/fixtures/smart/child/" (JObj response) "SMART.CHILD"])
      else
        let! gi := get_or_empty "getDeviceInfo" (JObj response) in
        let! gi := get_or_empty "device_info" gi in
        let! gi := get_or_empty "basic_info" gi in
        let! model := jget "device_model" gi in
        if other_model model parent then
          let response := redacted smart_redactors response in
          let! info := dindex id infos in
          let response := dset "child_info_from_parent" info response in
          let! name := cam_child_name response in
          child_files m infos children final (files ++ [mkFix name "tests/fixtures/smartcam/child/" (JObj response) "SMARTCAM.CHILD"])
        else
          let cd := match dget "child_devices" final with Some (JObj cd) => cd | _ => [] end in
          child_files m infos children (dset "child_devices" (JObj (dset id (JObj response) cd)) final) files
  end.
(** get_smart_fixtures from the answers on, dump_devinfo.py:988-1099 *)
Definition smart_files (final : dict json) (children : dict (dict json)) (discovery : option (dict json)) : res (list fixture) :=
  let m := id_map_from 0 (dkeys children) in
  let! children := scrub_responses m children in
  let! final := scrub_main m final in
  let final := redacted smart_redactors final in
  let! infos := infos_on_parent final in
  let! (final, files) := child_files m infos children final [] in
  let! (final, model) := match discovery with
                         | Some (e :: l) =>
                             let! result := dindex "result" (e :: l) in
                             Ok (dset "discovery_result" (JObj (redacted new_discovery_redactors (e :: l))) final,
                                 if truthy result then Some (jitem "device_model" result) else None)
                         | _ => Ok (final, None)
                         end in
  if dmem "get_device_info" final then
    let! name := smart_name final model in
    Ok (mkFix name "tests/fixtures/smart/" (JObj final) "SMART" :: files)
  else
    let! name := cam_name final model in
    Ok (mkFix name "tests/fixtures/smartcam/" (JObj final) "SMARTCAM" :: files).

(** ** Legacy devices: get_legacy_fixture, dump_devinfo.py:389-491 *)
Section Legacy.
Variable W : Type.
Variable ask : W -> dict json -> W * res (dict json).
(** dump_devinfo.py:393-426 *)
Definition legacy_items : list (string * string) :=
  [("system", "get_sysinfo"); ("emeter", "get_realtime"); ("cnCloud", "get_info"); ("cnCloud", "get_intl_fw_list");
   ("smartlife.iot.common.cloud", "get_info"); ("smartlife.iot.common.cloud", "get_intl_fw_list");
   ("smartlife.iot.common.schedule", "get_next_action"); ("smartlife.iot.common.schedule", "get_rules");
   ("schedule", "get_next_action"); ("schedule", "get_rules"); ("smartlife.iot.dimmer", "get_dimmer_parameters");
   ("smartlife.iot.dimmer", "get_default_behavior"); ("smartlife.iot.common.emeter", "get_realtime");
   ("smartlife.iot.smartbulb.lightingservice", "get_light_state"); ("smartlife.iot.smartbulb.lightingservice", "get_default_behavior");
   ("smartlife.iot.smartbulb.lightingservice", "get_light_details"); ("smartlife.iot.lightStrip", "get_default_behavior");
   ("smartlife.iot.lightStrip", "get_light_state"); ("smartlife.iot.lightStrip", "get_light_details"); ("smartlife.iot.LAS", "get_config");
   ("smartlife.iot.LAS", "get_current_brt"); ("smartlife.iot.LAS", "get_dark_status"); ("smartlife.iot.LAS", "get_adc_value");
   ("smartlife.iot.PIR", "get_config"); ("smartlife.iot.PIR", "get_adc_value")].
(** dump_devinfo.py:430-443 *)
Fixpoint legacy_try (items : list (string * string)) (successes : list (string * string * dict json)) (w : W)
  : W * res (list (string * string * dict json)) :=
  match items with
  | [] => (w, Ok successes)
  | (m, t) :: items =>
      match ask w [(m, JObj [(t, JObj [])])] with
      | (w, r) =>
          match (let! info := r in let! resp := dindex m info in Ok (info, resp)) with
          | Ok (info, resp) =>
              match jcontains "err_msg" resp with
              | Ok true => legacy_try items successes w
              | Ok false => legacy_try items (successes ++ [(m, t, info)]) w
              | Err e => (w, Err e)
              end
          | Err e => if is_exception e then legacy_try items successes w else (w, Err e)
          end
      end
  end.
(** final[module][method] = v in a defaultdict *)
Definition put2 (m t : string) (v : json) (d : dict json) : dict json :=
  dset m (JObj (dset t v (match dget m d with Some (JObj x) => x | _ => [] end))) d.
(** dump_devinfo.py:463-469; a child that is no dictionary is taken to raise *)
Definition legacy_child (index : nat) (child : json) : res json :=
  match child with
  | JObj d => Ok (JObj (if dmem "id" d then dset "id" (JStr (scrubbed_id index)) d else d))
  | _ => Err PyTypeError
  end.
Definition legacy_children (final : dict json) : res (dict json) :=
  let! s := get_or_empty "system" (JObj final) in
  let! s := get_or_empty "get_sysinfo" s in
  let! children := jget "children" s in
  if truthy children then
    match children with
    | JArr l => let! l := mapM legacy_child 0 l in
                match put ["system"; "get_sysinfo"; "children"] (JArr l) (JObj final) with JObj d => Ok d | _ => Err PyTypeError end
    | _ => Err PyTypeError
    end
  else Ok final.
Definition legacy_file (discovery : option (dict json)) (w : W) : W * res fixture :=
  match legacy_try legacy_items [] w with
  | (w, Err e) => (w, Err e)
  | (w, Ok successes) =>
      let final_query := fold_left (fun d s => match s with (m, t, _) => put2 m t (JObj []) d end) successes [] in
      let single := fold_left (fun d s => match s with (m, t, info) => put2 m t (JObj info) d end) successes [] in
      match (match ask w final_query with
             | (w, Ok r) => (w, Ok r)
             | (w, Err e) => if is_exception e then (w, Ok single) else (w, Err e)
             end) with
      | (w, Err e) => (w, Err e)
      | (w, Ok final) =>
          (w, let! final := legacy_children (redacted iot_redactors final) in
              let final := match discovery with
                           | Some (e :: l) => if truthy (match dget "system" (e :: l) with Some v => v | None => JNull end) then final
                                              else dset "discovery_result" (JObj (redacted new_discovery_redactors (e :: l))) final
                           | _ => final
                           end in
              let! s := dindex "system" final in
              let! sysinfo := jitem "get_sysinfo" s in
              let! model := jitem "model" sysinfo in
              let! hw := jitem "hw_ver" sysinfo in
              let! sw := jitem "sw_ver" sysinfo in
              match sw with
              | JStr sw => Ok (mkFix (str model ++ "_" ++ str hw ++ "_" ++ fst (DevType_Model.partition " " sw)) "tests/fixtures/iot/" (JObj final) "IOT")
              | _ => Err PyAttributeError
              end)
      end
  end.
End Legacy.
End Files.

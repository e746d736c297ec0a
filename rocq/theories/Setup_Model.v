(** Names, networks, credentials and plain facts of a device: kasa/smart/smartdevice.py and
    kasa/iot/iotdevice.py.  A text is the list of its UTF-8 bytes.  No proofs. *)
From Coq Require Import QArith.
From Verif Require Import Base Py Crypto_Model Effect_Model Iot_Model Small_Model.
Open Scope string_scope.
Open Scope list_scope.
Open Scope Z_scope.

(** base64.b64encode(s.encode()).decode() *)
Definition encoded (s : string) : string :=
  string_of_list_ascii (b64encode (list_ascii_of_string s)).
(** base64.b64decode(v).decode(); b64decode ignores what is not in the alphabet *)
Definition decoded (v : json) : res string :=
  match v with
  | JStr s =>
      let t := list_ascii_of_string s in
      if negb (forallb is_ascii t) then Err PyValueError
      else match a2b P0 0 t with
           | Err e => Err e
           | Ok b => if utf8 b then Ok (string_of_list_ascii b) else Err PyUnicode
           end
  | _ => Err PyTypeError
  end.

(** protocol.query(request, retry_count) *)
Record query := mkQuery { q_request : json; q_retries : nat }.

(** WifiNetwork, device.py:134-147 *)
Record network := mkNet {
  n_ssid : json; n_key_type : json; n_cipher_type : json; n_bssid : json;
  n_channel : json; n_rssi : json; n_signal_level : json }.

Section Smart.
Variable reply : query -> res json.
Definition ask (q : query) : M (list query) json := fun log => (log ++ [q], reply q).

(** alias, smartdevice.py:596-602 *)
Definition alias (info : dict json) : res (option string) :=
  match dget "nickname" info with
  | Some v => if truthy v then let! s := decoded v in Ok (Some s) else Ok None
  | None => Ok None
  end.
(** set_alias, smartdevice.py:817-821 *)
Definition set_alias (a : string) : M (list query) json :=
  ask (mkQuery (JObj [("set_device_info", JObj [("nickname", JStr (encoded a))])]) 3).
(** ssid, smartdevice.py:697-702 *)
Definition ssid (info : dict json) : res string :=
  match dget "ssid" info with
  | Some v => if truthy v then decoded v else Ok "No SSID"
  | None => Ok "No SSID"
  end.

(** _net_for_scan_info, smartdevice.py:740-748 *)
Definition net_for_scan_info (v : json) : res network :=
  let! s := jitem "ssid" v in
  let! s := decoded s in
  let! cipher := jitem "cipher_type" v in
  let! key := jitem "key_type" v in
  let! channel := jitem "channel" v in
  let! level := jitem "signal_level" v in
  let! bssid := jitem "bssid" v in
  Ok (mkNet (JStr s) key cipher bssid channel JNull level).
Fixpoint nets (l : list json) : res (list network) :=
  match l with
  | [] => Ok []
  | v :: l => let! n := net_for_scan_info v in let! r := nets l in Ok (n :: r)
  end.
(** wifi_scan, smartdevice.py:737-756 *)
Definition wifi_scan : M (list query) (list network) :=
  do! resp <- ask (mkQuery (JObj [("get_wireless_scan_info", JObj [("start_index", JInt 0)])]) 3) ;;
  mlift (let! r := jitem "get_wireless_scan_info" resp in
         let! l := jitem "ap_list" r in
         let! l := jiter l in
         nets l).

(** The account part of the payloads, smartdevice.py:774-781,808-811 *)
Definition account (username password : string) : json :=
  JObj [("username", JStr (encoded username)); ("password", JStr (encoded password))].
(** wifi_join, smartdevice.py:758-800.  [credentials]: those of the device's configuration;
    [state]: internal_state, the replies of the last update. *)
Definition wifi_join (credentials : option (string * string)) (state : dict json)
    (name password keytype : string) : M (list query) json :=
  match credentials with
  | None => mfail (KAuth None)
  | Some (u, p) =>
      do! time <- mlift (dindex "get_device_time" state) ;;
      let payload := JObj
        [("account", account u p);
         ("wireless", JObj [("key_type", JStr keytype); ("password", JStr (encoded password));
                            ("ssid", JStr (encoded name))]);
         ("time", time)] in
      fun log =>
        match ask (mkQuery (JObj [("set_qs_info", payload)]) 0) log with
        | (log, Err e) =>
            if is_device_error e then (log, Err e)
            else if is_kasa e then (log, Ok (JObj []))
            else (log, Err e)
        | (log, Ok v) => (log, Ok v)
        end
  end.
(** update_credentials, smartdevice.py:802-815 *)
Definition update_credentials (state : dict json) (username password : string) : M (list query) json :=
  do! time <- mlift (dindex "get_device_time" state) ;;
  ask (mkQuery (JObj [("set_qs_info", JObj [("account", account username password); ("time", time)])]) 3).
End Smart.

Section Legacy.
(** protocol.query of a request made by _create_request *)
Variable reply : json -> res json.
(** _query_helper, iotdevice.py:246-284 *)
Definition helper (target cmd : string) (arg : json) : M (list json) json :=
  fun log => let q := create_request target cmd (Some arg) None in
             (log ++ [q], query_helper target cmd (reply q)).
(** except KasaException: try again with the other service *)
Definition or_else {A} (m m' : M (list json) A) : M (list json) A :=
  fun log => match m log with
             | (log, Err e) => if is_kasa e then m' log else (log, Err e)
             | r => r
             end.
Definition onboarding : string := "smartlife.iot.common.softaponboarding".

(** WifiNetwork(star-star x), iotdevice.py:678: the keywords must be fields, and the two without
    default must be there *)
Definition net_fields : list string :=
  ["ssid"; "key_type"; "cipher_type"; "bssid"; "channel"; "rssi"; "signal_level"].
Definition opt_field (k : string) (d : dict json) : json :=
  match dget k d with Some v => v | None => JNull end.
Definition net_of (v : json) : res network :=
  match v with
  | JObj d =>
      if negb (forallb (fun k => smem k net_fields) (dkeys d)) then Err PyTypeError else
      match dget "ssid" d, dget "key_type" d with
      | Some s, Some k => Ok (mkNet s k (opt_field "cipher_type" d) (opt_field "bssid" d)
                                (opt_field "channel" d) (opt_field "rssi" d) (opt_field "signal_level" d))
      | _, _ => Err PyTypeError
      end
  | _ => Err PyTypeError
  end.
Fixpoint nets_of (l : list json) : res (list network) :=
  match l with
  | [] => Ok []
  | v :: l => let! n := net_of v in let! r := nets_of l in Ok (n :: r)
  end.
(** wifi_scan, iotdevice.py:661-678 *)
Definition iot_wifi_scan : M (list json) (list network) :=
  let scan target := helper target "get_scaninfo" (JObj [("refresh", JInt 1)]) in
  do! info <- or_else (scan "netif") (scan onboarding) ;;
  mlift (let! has := jcontains "ap_list" info in
         if negb has then Err KKasa else
         let! l := jitem "ap_list" info in
         let! l := jiter l in
         nets_of l).
(** wifi_join, iotdevice.py:680-696; of the texts int() accepts, those with a plus sign,
    blanks or underscores are left out *)
Definition iot_wifi_join (name password keytype : string) : M (list json) json :=
  do! k <- mlift (py_int (JStr keytype)) ;;
  let payload := JObj [("ssid", JStr name); ("password", JStr password); ("key_type", JInt k)] in
  let join target := helper target "set_stainfo" payload in
  or_else (join "netif") (join onboarding).

(** alias and set_alias, iotdevice.py:484-492; [sys_info]: [None] before anything is known *)
Definition iot_alias (sys_info : option (dict json)) : option json :=
  match sys_info with
  | None => None
  | Some d => match d with [] => None | _ => dget "alias" d end
  end.
Definition iot_set_alias (a : string) : M (list json) json :=
  helper "system" "set_dev_alias" (JObj [("alias", JStr a)]).
End Legacy.

(** ** Facts *)
(** requires_update, iotdevice.py:39-64, guarding the property [name]; [updated]: the last update
    left something *)
Definition requires_update {A} (updated : bool) (sys_info : option (dict A)) (name : string) : res unit :=
  if negb updated && match sys_info with None => true | Some d => negb (dmem name d) end
  then Err KKasa else Ok tt.

(** location, iotdevice.py:542-559, of a device with system info [d]; only numbers matter *)
Definition iot_location (d : dict Q) : option Q * option Q :=
  match dget "latitude" d, dget "longitude" d with
  | Some a, Some b => (Some a, Some b)
  | _, _ =>
      match dget "latitude_i" d, dget "longitude_i" d with
      | Some a, Some b => (Some (a / 10000)%Q, Some (b / 10000)%Q)
      | _, _ => (None, None)
      end
  end.
(** location, smartdevice.py:657-664 *)
Definition get_or_0 (k : string) (d : dict Q) : Q := match dget k d with Some v => v | None => 0 end.
Definition smart_location (d : dict Q) : option Q * option Q :=
  (Some (get_or_0 "latitude" d / 10000)%Q, Some (get_or_0 "longitude" d / 10000)%Q).

(** rssi, iotdevice.py:561-565 *)
Definition iot_rssi (updated : bool) (sys_info : option (dict json)) : res (option Z) :=
  let! _ := requires_update updated sys_info "rssi" in
  match sys_info with
  | None => Err PyAttributeError
  | Some d =>
      match dget "rssi" d with
      | None | Some JNull => Ok None
      | Some v => let! z := py_int v in Ok (Some z)
      end
  end.
(** rssi, smartdevice.py:666-670 *)
Definition smart_rssi (info : dict json) : res (option Z) :=
  match dget "rssi" info with
  | None => Ok None
  | Some v => if truthy v then let! z := py_int v in Ok (Some z) else Ok None
  end.

(** hw_info, iotdevice.py:520-541 *)
Definition hw_keys : list string :=
  ["sw_ver"; "hw_ver"; "mac"; "mic_mac"; "type"; "mic_type"; "hwId"; "fwId"; "oemId"; "dev_name"].
Definition iot_hw_info (updated : bool) (sys_info : option (dict json)) : res (dict json) :=
  let! _ := requires_update updated sys_info "hw_info" in
  match sys_info with
  | None => Err PyTypeError
  | Some d => Ok (flat_map (fun k => match dget k d with Some v => [(k, v)] | None => [] end) hw_keys)
  end.

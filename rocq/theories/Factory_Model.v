(** Connection parameters, selection of protocol and device class, connecting.
    Models kasa/deviceconfig.py, kasa/device_factory.py, the class of a legacy
    device from its system information (kasa/iot/iotdevice.py) and
    Discover.try_connect_all (kasa/discover.py).  No proofs. *)
From Verif Require Import Base Py.
Open Scope string_scope.
Open Scope list_scope.
Open Scope Z_scope.

(** deviceconfig.py:59-64 *)
Inductive encryption := Klap | Aes | Xor.
Definition enc_value (e : encryption) : string :=
  match e with Klap => "KLAP" | Aes => "AES" | Xor => "XOR" end.
Definition all_enc : list encryption := [Klap; Aes; Xor].

(** deviceconfig.py:67-83 *)
Inductive family :=
| IotSmartPlugSwitch | IotSmartBulb | IotIpCamera | SmartKasaPlug | SmartKasaSwitch
| SmartTapoPlug | SmartTapoBulb | SmartTapoSwitch | SmartTapoHub | SmartKasaHub
| SmartIpCamera | SmartTapoRobovac | SmartTapoChime | SmartTapoDoorbell.
Definition family_value (f : family) : string :=
  match f with
  | IotSmartPlugSwitch => "IOT.SMARTPLUGSWITCH" | IotSmartBulb => "IOT.SMARTBULB"
  | IotIpCamera => "IOT.IPCAMERA" | SmartKasaPlug => "SMART.KASAPLUG"
  | SmartKasaSwitch => "SMART.KASASWITCH" | SmartTapoPlug => "SMART.TAPOPLUG"
  | SmartTapoBulb => "SMART.TAPOBULB" | SmartTapoSwitch => "SMART.TAPOSWITCH"
  | SmartTapoHub => "SMART.TAPOHUB" | SmartKasaHub => "SMART.KASAHUB"
  | SmartIpCamera => "SMART.IPCAMERA" | SmartTapoRobovac => "SMART.TAPOROBOVAC"
  | SmartTapoChime => "SMART.TAPOCHIME" | SmartTapoDoorbell => "SMART.TAPODOORBELL"
  end.
Definition all_families : list family :=
  [IotSmartPlugSwitch; IotSmartBulb; IotIpCamera; SmartKasaPlug; SmartKasaSwitch;
   SmartTapoPlug; SmartTapoBulb; SmartTapoSwitch; SmartTapoHub; SmartKasaHub;
   SmartIpCamera; SmartTapoRobovac; SmartTapoChime; SmartTapoDoorbell].

(** DeviceFamily(v), DeviceEncryptionType(v): ValueError unless v is a value *)
Definition family_of (v : json) : option family :=
  match v with JStr s => find (fun f => String.eqb (family_value f) s) all_families | _ => None end.
Definition enc_of (v : json) : option encryption :=
  match v with JStr s => find (fun e => String.eqb (enc_value e) s) all_enc | _ => None end.

(** DeviceConnectionParameters, deviceconfig.py:95-103 *)
Record params := mkParams {
  family_ : family; enc_ : encryption; login_version : option Z; https : bool; http_port : option Z }.

(** from_values, deviceconfig.py:105-129 *)
Definition from_values (fam enc : json) (login : option Z) (https : option bool) (port : option Z) : res params :=
  match family_of fam, enc_of enc with
  | Some f, Some e => Ok (mkParams f e login (match https with Some b => b | None => false end) port)
  | _, _ => Err KKasa
  end.

(** ** Configurations.  [client] stands for the HTTP client object. *)
Record devconfig := mkConf {
  host : string; timeout : option Z; port_override : option Z;
  creds : option (string * string); creds_hash : option string; batch_size : option Z;
  conn : params; client : option nat; aes_keys : option (string * string) }.
Definition DEFAULT_TIMEOUT : Z := 5.                 (* 136 *)
Definition default_params : params := mkParams IotSmartPlugSwitch Xor None false None.  (* 151-155 *)
Definition default_config (h : string) : devconfig :=
  mkConf h (Some DEFAULT_TIMEOUT) None None None None default_params None None.

(** uses_http, deviceconfig.py:157-161 *)
Definition uses_http (c : devconfig) : bool :=
  match enc_ (conn c) with Xor => https (conn c) | _ => true end.

(** to_dict of the mashumaro mixin, deviceconfig.py:86-92, with omit_none: None is left out, an
    enum is its value, the http client is always left out (164-168). *)
Definition opt {A} (k : string) (f : A -> json) (o : option A) : dict json :=
  match o with Some a => [(k, f a)] | None => [] end.
Definition params_dict (p : params) : dict json :=
  [("device_family", JStr (family_value (family_ p))); ("encryption_type", JStr (enc_value (enc_ p)))]
  ++ opt "login_version" JInt (login_version p) ++ [("https", JBool (https p))]
  ++ opt "http_port" JInt (http_port p).
Definition to_dict (c : devconfig) : dict json :=
  [("host", JStr (host c))] ++ opt "timeout" JInt (timeout c) ++ opt "port_override" JInt (port_override c)
  ++ opt "credentials" (fun up => JObj [("username", JStr (fst up)); ("password", JStr (snd up))]) (creds c)
  ++ opt "credentials_hash" JStr (creds_hash c) ++ opt "batch_size" JInt (batch_size c)
  ++ [("connection_type", JObj (params_dict (conn c)))]
  ++ opt "aes_keys" (fun k => JObj [("private", JStr (fst k)); ("public", JStr (snd k))]) (aes_keys c).

(** from_dict of the mixin.  A missing optional field takes its default; a value
    of another JSON type than the declared one is reported as an error here (the
    library converts some of them). *)
Definition get_opt {A} (f : json -> res A) (default : option A) (k : string) (d : dict json) : res (option A) :=
  match dget k d with
  | None => Ok default
  | Some JNull => Ok None
  | Some v => let! a := f v in Ok (Some a)
  end.
Definition get_req {A} (f : json -> res A) (k : string) (d : dict json) : res A :=
  match dget k d with Some v => f v | None => Err PyValueError end.
Definition as_str (v : json) : res string := match v with JStr s => Ok s | _ => Err PyValueError end.
Definition as_z (v : json) : res Z := match v with JInt z => Ok z | _ => Err PyValueError end.
Definition as_bool (v : json) : res bool := match v with JBool b => Ok b | _ => Err PyValueError end.
Definition as_dict (v : json) : res (dict json) := match v with JObj d => Ok d | _ => Err PyValueError end.
Definition as_enum {A} (f : json -> option A) (v : json) : res A :=
  match f v with Some a => Ok a | None => Err PyValueError end.
Definition params_from (v : json) : res params :=
  let! d := as_dict v in
  let! f := get_req (as_enum family_of) "device_family" d in
  let! e := get_req (as_enum enc_of) "encryption_type" d in
  let! l := get_opt as_z None "login_version" d in
  let! h := match dget "https" d with Some v => as_bool v | None => Ok false end in
  let! p := get_opt as_z None "http_port" d in
  Ok (mkParams f e l h p).
Definition pair_from (a b : string) (v : json) : res (string * string) :=
  let! d := as_dict v in
  let! x := get_req as_str a d in let! y := get_req as_str b d in Ok (x, y).
Definition creds_from (v : json) : res (string * string) :=
  let! d := as_dict v in
  let! x := match dget "username" d with Some v => as_str v | None => Ok "" end in
  let! y := match dget "password" d with Some v => as_str v | None => Ok "" end in Ok (x, y).
Definition from_dict (d : dict json) : res devconfig :=
  let! h := get_req as_str "host" d in
  let! t := get_opt as_z (Some DEFAULT_TIMEOUT) "timeout" d in
  let! po := get_opt as_z None "port_override" d in
  let! cr := get_opt creds_from None "credentials" d in
  let! ch := get_opt as_str None "credentials_hash" d in
  let! b := get_opt as_z None "batch_size" d in
  let! ct := get_opt params_from (Some default_params) "connection_type" d in
  let! k := get_opt (pair_from "private" "public") None "aes_keys" d in
  (* __post_init__, 172-176 *)
  Ok (mkConf h t po cr ch b (match ct with Some p => p | None => default_params end) None k).

(** to_dict_control_credentials, deviceconfig.py:178-202 *)
Definition without_creds (c : devconfig) : devconfig :=
  mkConf (host c) (timeout c) (port_override c) None (creds_hash c) (batch_size c) (conn c) (client c) (aes_keys c).
Definition with_hash (c : devconfig) (h : option string) : devconfig :=
  mkConf (host c) (timeout c) (port_override c) None h (batch_size c) (conn c) (client c) (aes_keys c).
Definition to_dict_control (c : devconfig) (hash : option string) (exclude : bool) : dict json :=
  match hash with
  | None => if exclude then to_dict (without_creds c) else to_dict c
  | Some h => to_dict (with_hash c (if String.eqb h "" then None else Some h))
  end.

(** ** Protocol and device class *)
Inductive protocol := IotProtocol | SmartProtocol | SmartCamProtocol.
Inductive transport := XorTransport | KlapTransport | KlapTransportV2 | AesTransport | SslTransport
                     | SslAesTransport | LinkieTransportV2.
Inductive device_class := SmartDevice | SmartCamDevice | IotPlug | IotBulb | IotDimmer | IotStrip
                        | IotWallSwitch | IotLightStrip.

(** value.split(".")[0] *)
Fixpoint head_dot (s : string) : string :=
  match s with
  | EmptyString => ""
  | String c s' => if Ascii.eqb c "."%char then "" else String c (head_dot s')
  end.

(** device_factory.py:227-238 *)
Definition supported_device_protocols : dict (protocol * transport) :=
  [("IOT.XOR", (IotProtocol, XorTransport)); ("IOT.KLAP", (IotProtocol, KlapTransport));
   ("SMART.AES", (SmartProtocol, AesTransport)); ("SMART.KLAP", (SmartProtocol, KlapTransportV2));
   ("SMART.KLAP.HTTPS", (SmartProtocol, KlapTransportV2));
   ("SMART.AES.HTTPS", (SmartCamProtocol, SslAesTransport))].
Definition is_aes (e : encryption) : bool := match e with Aes => true | _ => false end.
Definition is_xor (e : encryption) : bool := match e with Xor => true | _ => false end.
(** get_protocol, device_factory.py:184-242.  The protocol object is represented by its class and
    its transport's class. *)
Definition get_protocol (c : params) (strict : bool) : option (protocol * transport) :=
  let protocol_name := head_dot (family_value (family_ c)) in
  let keyed :=
    dget (protocol_name ++ "." ++ enc_value (enc_ c) ++ (if https c then ".HTTPS" else ""))%string
         supported_device_protocols in
  match family_ c with
  | SmartIpCamera | SmartTapoDoorbell =>
      if strict && negb (is_aes (enc_ c)) then None else Some (SmartCamProtocol, SslAesTransport)
  | IotIpCamera =>
      if strict && negb (is_xor (enc_ c)) then None else Some (IotProtocol, LinkieTransportV2)
  | SmartTapoRobovac => if is_aes (enc_ c) then Some (SmartProtocol, SslTransport) else keyed
  | _ => keyed
  end.

(** get_device_class_from_family, device_factory.py:149-181 *)
Definition supported_device_types : dict device_class :=
  [("SMART.TAPOPLUG", SmartDevice); ("SMART.TAPOBULB", SmartDevice); ("SMART.TAPOSWITCH", SmartDevice);
   ("SMART.KASAPLUG", SmartDevice); ("SMART.TAPOHUB", SmartDevice); ("SMART.TAPOHUB.HTTPS", SmartCamDevice);
   ("SMART.KASAHUB", SmartDevice); ("SMART.KASASWITCH", SmartDevice); ("SMART.IPCAMERA.HTTPS", SmartCamDevice);
   ("SMART.TAPODOORBELL.HTTPS", SmartCamDevice); ("SMART.TAPOROBOVAC.HTTPS", SmartDevice);
   ("IOT.SMARTPLUGSWITCH", IotPlug); ("IOT.SMARTBULB", IotBulb)].
Definition class_from_family (device_type : string) (https require_exact : bool) : option device_class :=
  match dget (device_type ++ (if https then ".HTTPS" else ""))%string supported_device_types with
  | Some c => Some c
  | None => if String.prefix "SMART." device_type && negb require_exact then Some SmartDevice else None
  end.

(** s.lower(), ASCII only *)
Definition lower_char (c : ascii) : ascii :=
  let n := nat_of_ascii c in
  if Nat.leb 65 n && Nat.leb n 90 then ascii_of_nat (n + 32) else c.
Definition lower (s : string) : string := smap lower_char s.
(** x in s *)
Definition sin (x s : string) : bool := match String.index 0 x s with Some _ => true | None => false end.
(** v.lower() *)
Definition jlower (v : json) : res string := match v with JStr s => Ok (lower s) | _ => Err PyAttributeError end.
(** x.get(k, {}) *)
Definition jget_or_empty (k : string) (v : json) : res json :=
  match v with
  | JObj d => Ok (match dget k d with Some x => x | None => JObj [] end)
  | _ => Err PyAttributeError
  end.
(** len(v) *)
Definition jlen (v : json) : res nat :=
  match v with
  | JStr s => Ok (String.length s) | JArr l => Ok (List.length l) | JObj d => Ok (List.length d)
  | _ => Err PyTypeError
  end.

(** _extract_sys_info, iotdevice.py:73-80 *)
Definition extract_sys_info (info : json) : res json :=
  let! s := jget_or_empty "system" info in
  let! default := jget_or_empty "get_sysinfo" s in
  let! nest := jget_or_empty "system" default in
  let! n := jlen nest in
  let! m := jlen default in
  Ok (if Nat.ltb m n && (match nest with JObj _ => true | _ => false end) then nest else default).

Inductive device_type := Plug | Bulb | Strip | Camera | WallSwitch | Dimmer | LightStrip.
(** sysinfo.get(a, sysinfo.get(b)) *)
Definition get_either (a b : string) (v : json) : res json :=
  match v with
  | JObj d => Ok (match dget a d with
                  | Some x => x
                  | None => match dget b d with Some y => y | None => JNull end
                  end)
  | _ => Err PyAttributeError
  end.
(** IotDevice._get_device_type_from_sys_info, iotdevice.py:712-743 *)
Definition type_from_sys_info (info : json) : res device_type :=
  let! s := jget_or_empty "system" info in
  let! g := jget_or_empty "get_sysinfo" s in
  let! cam := jcontains "system" g in
  if cam then Ok Camera
  else
    let! has_system := jcontains "system" info in
    let! has_sysinfo := (if has_system then let! s := jitem "system" info in jcontains "get_sysinfo" s else Ok false) in
    if negb (has_system && has_sysinfo) then Err KKasa
    else
      let! sysinfo := extract_sys_info info in
      let! type_ := get_either "type" "mic_type" sysinfo in
      match type_ with
      | JNull => Err KKasa
      | _ =>
          let! has_name := jcontains "dev_name" sysinfo in
          let! dimmer := (if has_name then let! n := jitem "dev_name" sysinfo in jcontains "Dimmer" n else Ok false) in
          if dimmer then Ok Dimmer
          else
            let! t := jlower type_ in
            if sin "smartplug" t then
              let! children := jcontains "children" sysinfo in
              if children then Ok Strip
              else
                let! n := jget "dev_name" sysinfo in
                let! light := (if truthy n then let! l := jlower n in Ok (sin "light" l) else Ok false) in
                Ok (if light then WallSwitch else Plug)
            else if sin "smartbulb" t then
              let! len := jcontains "length" sysinfo in
              Ok (if len then LightStrip else Bulb)
            else Ok Plug
      end.
(** get_device_class_from_sys_info, device_factory.py:133-146: a camera is not in
    the table *)
Definition class_from_sys_info (info : json) : res device_class :=
  let! t := type_from_sys_info info in
  match t with
  | Bulb => Ok IotBulb | Plug => Ok IotPlug | Dimmer => Ok IotDimmer | Strip => Ok IotStrip
  | WallSwitch => Ok IotWallSwitch | LightStrip => Ok IotLightStrip
  | Camera => Err PyKeyError
  end.

(** ** Connecting *)

(** What is done with a protocol object. *)
Inductive op := OCreate (p : protocol * transport) | OQuery | OUpdate | OClose.
Record device := mkDev { d_class : device_class; d_host : string; d_protocol : protocol * transport }.
(** The outcomes of the calls that leave the modelled code: the system information
    query, update_from_discover_info, update() and close(). *)
Record world := mkWorld { w_query : res json; w_absorb : res unit; w_update : res unit; w_close : res unit }.

(** _connect, device_factory.py:86-130 *)
Definition connect_with (w : world) (c : devconfig) (p : protocol * transport) : M (list op) device :=
  let call {A} (o : op) (r : res A) : M (list op) A := fun l => (l ++ [o], r) in
  match p with
  | (IotProtocol, XorTransport) =>
      do! info <- call OQuery (w_query w) ;;
      do! cls <- mlift (class_from_sys_info info) ;;
      do! _ <- mlift (w_absorb w) ;;
      do! _ <- call OUpdate (w_update w) ;;
      mret (mkDev cls (host c) p)
  | _ =>
      match class_from_family (family_value (family_ (conn c))) (https (conn c)) false with
      | Some cls => do! _ <- call OUpdate (w_update w) ;; mret (mkDev cls (host c) p)
      | None => mfail KUnsupported
      end
  end.

(** connect, device_factory.py:48-83 *)
Definition connect (w : world) (h : option string) (config : option devconfig) : M (list op) device := fun l =>
  let has_host := match h with Some s => negb (String.eqb s "") | None => false end in
  let has_config := match config with Some _ => true | None => false end in
  if (has_host && has_config) || (negb has_host && negb has_config) then (l, Err KKasa)
  else
    let c := match h, config with
             | Some s, _ => if has_host then default_config s else match config with Some c => c | None => default_config s end
             | None, Some c => c
             | None, None => default_config ""     (* excluded above *)
             end in
    match get_protocol (conn c) false with
    | None => (l, Err KUnsupported)
    | Some p =>
        match connect_with w c p (l ++ [OCreate p]) with
        | (l', Ok d) => (l', Ok d)
        | (l', Err e) =>
            (l' ++ [OClose], match w_close w with Ok _ => Err e | Err e' => Err e' end)
        end
    end.

(** ** try_connect_all, discover.py:610-700 *)
Record key := mkKey { k_protocol : protocol; k_transport : transport; k_class : device_class; k_https : bool }.
Definition protocol_eqb (a b : protocol) : bool :=
  match a, b with
  | IotProtocol, IotProtocol | SmartProtocol, SmartProtocol | SmartCamProtocol, SmartCamProtocol => true
  | _, _ => false
  end.
Definition transport_eqb (a b : transport) : bool :=
  match a, b with
  | XorTransport, XorTransport | KlapTransport, KlapTransport | KlapTransportV2, KlapTransportV2
  | AesTransport, AesTransport | SslTransport, SslTransport | SslAesTransport, SslAesTransport
  | LinkieTransportV2, LinkieTransportV2 => true
  | _, _ => false
  end.
Definition class_eqb (a b : device_class) : bool :=
  match a, b with
  | SmartDevice, SmartDevice | SmartCamDevice, SmartCamDevice | IotPlug, IotPlug | IotBulb, IotBulb
  | IotDimmer, IotDimmer | IotStrip, IotStrip | IotWallSwitch, IotWallSwitch
  | IotLightStrip, IotLightStrip => true
  | _, _ => false
  end.
Definition key_eqb (a b : key) : bool :=
  protocol_eqb (k_protocol a) (k_protocol b) && transport_eqb (k_transport a) (k_transport b)
  && class_eqb (k_class a) (k_class b) && Bool.eqb (k_https a) (k_https b).
(** A dictionary entry: in place when the key is present, else at the end. *)
Fixpoint kset {A} (k : key) (v : A) (l : list (key * A)) : list (key * A) :=
  match l with
  | [] => [(k, v)]
  | (k', v') :: l' => if key_eqb k k' then (k', v) :: l' else (k', v') :: kset k v l'
  end.

(** main_device_families, discover.py:635-641; the order in which a set is iterated is not
    defined, so the families are a parameter of [candidates]. *)
Definition main_device_families : list family :=
  [SmartTapoPlug; IotSmartPlugSwitch; SmartIpCamera; SmartTapoRobovac; IotIpCamera].
(** One round of the comprehension, discover.py:642-679 *)
Definition add_candidate (acc : list (key * params)) (p : params) : list (key * params) :=
  match get_protocol p true with
  | None => acc
  | Some (pr, tr) =>
      match class_from_family (family_value (family_ p)) (https p) true with
      | None => acc
      | Some cls => kset (mkKey pr tr cls (https p)) p acc
      end
  end.
Definition all_params (families : list family) : list params :=
  flat_map (fun e => flat_map (fun f => flat_map (fun h => map (fun l => mkParams f e l h None)
    [None; Some 2]) [true; false]) families) all_enc.
Definition candidates (families : list family) : list (key * params) :=
  fold_left add_candidate (all_params families) [].

(** The configuration of a candidate, discover.py:661-670 *)
Definition candidate_config (c0 : devconfig) (p : params) : devconfig :=
  mkConf (host c0) (timeout c0) (port_override c0) (creds c0) None None p (client c0) None.

(** The loop, discover.py:680-700.  [w] gives the outside world for each attempt, [c0] the
    call's arguments.  The trace lists each attempt with what was done with its
    protocol and what on_attempt was told (None: cancelled before).  The callback
    is assumed not to raise. *)
Record attempt := mkAttempt { a_key : key; a_ops : list op; a_told : option bool }.
Fixpoint try_candidates (w : key -> world) (c0 : devconfig) (cands : list (key * params)) (trace : list attempt)
  : list attempt * res (option device) :=
  match cands with
  | [] => (trace, Ok None)
  | (k, p) :: rest =>
      let pt := (k_protocol k, k_transport k) in
      let (ops, r) := connect_with (w k) (candidate_config c0 p) pt [OCreate pt] in
      let done told := trace ++ [mkAttempt k (ops ++ [OClose]) told] in
      match r, w_close (w k) with
      | Ok _, Err e => (done (Some true), Err e)
      | Ok d, Ok _ => (done (Some true), Ok (Some d))
      | Err e, Err e' => (done (if is_exception e then Some false else None), Err e')
      | Err e, Ok _ =>
          if is_exception e then try_candidates w c0 rest (done (Some false))
          else (done None, Err e)
      end
  end.
Definition try_connect_all (w : key -> world) (families : list family) (c0 : devconfig)
  : list attempt * res (option device) :=
  try_candidates w c0 (candidates families) [].

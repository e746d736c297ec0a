(** Discovery over UDP.  Models kasa/discover.py: the datagram protocol,
    the device instances and discover_single.  No proofs. *)
From Verif Require Import Base Py Xor_Model Factory_Model.
Open Scope string_scope.
Open Scope list_scope.
Open Scope Z_scope.

Definition DISCOVERY_PORT : Z := 9999.     (* discover.py:415 *)
Definition DISCOVERY_PORT_2 : Z := 20002.  (* 421 *)

(** The arguments of _DiscoverProtocol, discover.py:239-279, that matter here; of the
    callbacks only whether they are set. *)
Record options := mkOpts {
  target : string; o_port : option Z; o_creds : option (string * string); o_timeout : option Z;
  packets : nat; has_on_discovered : bool; has_on_unsupported : bool; has_on_raw : bool }.
(** self.discovery_port, 259: port or DISCOVERY_PORT *)
Definition discovery_port (o : options) : Z :=
  match o_port o with Some z => if z =? 0 then DISCOVERY_PORT else z | None => DISCOVERY_PORT end.

(** EncryptionScheme, EncryptionInfo and DiscoveryResult, discover.py:946-990: the fields that
    are used.  The library copies strings, integers and booleans unchecked, so a
    field can be any JSON value. *)
Record scheme := mkScheme { s_https : json; s_encrypt_type : json; s_http_port : json; s_lv : json }.
Record dresult := mkDresult {
  d_type : json; d_model : json; d_scheme : option scheme;
  d_sym_schm : option json;            (* encrypt_info.sym_schm *)
  d_encrypt_type : option (list json) }.

(** What is not modelled: json.loads, DiscoveryResult.from_dict, int(str), the
    decryption of encrypt_info and the redaction for the log when that fails, and
    the raw callback. *)
Record env := mkEnv {
  json_loads : bytes -> option json;
  parse_result : json -> res dresult;
  int_of_str : string -> option Z;
  decrypt_info : dresult -> bool;      (* false: an Exception *)
  log_redacted : json -> res unit;
  raw_callback : json -> res unit }.

(** A Device as far as discovery decides it.  [v_protocol]: None when the device
    was left without a protocol. *)
Record found := mkFound { v_class : device_class; v_host : string; v_config : devconfig;
                          v_protocol : option (protocol * transport) }.

Section Disc.
Variable V : env.
Variable O : options.

(** The configuration of a host, discover.py:353-357 *)
Definition host_config (ip : string) : devconfig :=
  mkConf ip (match o_timeout O with Some t => if t =? 0 then Some DEFAULT_TIMEOUT else Some t | None => Some DEFAULT_TIMEOUT end)
    (o_port O) (o_creds O) None None default_params None None.
Definition with_conn (c : devconfig) (p : params) : devconfig :=
  mkConf (host c) (timeout c) (port_override c) (creds c) (creds_hash c) (batch_size c) p (client c) (aes_keys c).

Definition with_host (c : devconfig) (h : string) : devconfig :=
  mkConf h (timeout c) (port_override c) (creds c) (creds_hash c) (batch_size c) (conn c) (client c) (aes_keys c).

(** v.startswith(..) in get_device_class_from_family makes a type that is no
    string an AttributeError unless its text is in the table, which it is not. *)
Definition class_from_type (t : json) (https exact : bool) : res (option device_class) :=
  match t with JStr s => Ok (class_from_family s https exact) | _ => Err PyAttributeError end.

(** _get_device_class, discover.py:702-722 *)
Definition get_device_class (info : json) : res device_class :=
  let! r := jcontains "result" info in
  if r then
    let! result := jitem "result" info in
    let! d := parse_result V result in
    let https := match d_scheme d with Some s => truthy (s_https s) | None => false end in
    let! c := class_from_type (d_type d) https false in
    match c with Some c => Ok c | None => Err KUnsupported end
  else class_from_sys_info info.

(** _get_discovery_json_legacy, discover.py:724-733, and _get_discovery_json, 792-802 *)
Definition json_legacy (data : bytes) : res json :=
  match json_loads V (decrypt data) with Some v => Ok v | None => Err KKasa end.
Definition json_new (data : bytes) : res json :=
  match json_loads V (skipn 16 data) with Some v => Ok v | None => Err KKasa end.

(** A login version or port that is no integer is represented by None. *)
Definition z_of (v : json) : option Z := match v with JInt z => Some z | _ => None end.

(** update_from_discover_info of a legacy device, iotdevice.py:445-463.  A reply at the legacy port that
    holds both a "result" and a "system" part could select a class that merely stores it; that case is
    treated like the others. *)
Definition absorb_legacy (info : json) : res unit :=
  let! has := jcontains "system" info in
  let! sys := (if has then let! s := jitem "system" info in jget "get_sysinfo" s else Ok JNull) in
  if truthy sys then
    let! f := jget "feature" sys in
    match f with
    | JStr _ => Ok tt
    | _ => if truthy f then Err PyAttributeError else Ok tt
    end
  else
    let! m := jitem "device_model" info in
    match m with JStr _ => Ok tt | _ => Err PyAttributeError end.

(** _get_device_instance_legacy, discover.py:735-757 *)
Definition instance_legacy (info : json) (config : devconfig) : res found :=
  let! cls := get_device_class info in
  let! sys_info := extract_sys_info info in
  let! device_type := get_either "mic_type" "type" sys_info in
  let is_camera := match device_type with JStr s => String.eqb s "IOT.IPCAMERA" | _ => false end in
  let! login := (if is_camera then let! v := jget "stream_version" sys_info in Ok (z_of v) else Ok None) in
  let! conn := from_values device_type (JStr (enc_value Xor)) login (Some is_camera) None in
  let config := with_conn config conn in
  let! _ := absorb_legacy info in
  Ok (mkFound cls (host config) config (get_protocol conn false)).

(** int(i) *)
Definition py_int (v : json) : res Z :=
  match v with
  | JInt z => Ok z
  | JBool b => Ok (if b then 1 else 0)
  | JStr s => match int_of_str V s with Some z => Ok z | None => Err PyValueError end
  | _ => Err PyTypeError
  end.
(** max([int(i) for i in et]) of a non-empty list *)
Fixpoint max_int (l : list json) : res (option Z) :=
  match l with
  | [] => Ok None
  | v :: l' =>
      let! z := py_int v in
      let! m := max_int l' in
      Ok (Some (match m with Some n => Z.max z n | None => z end))
  end.

(** _get_connection_parameters, discover.py:804-843 *)
Definition get_connection_parameters (d : dresult) : res params :=
  match d_scheme d with
  | None => Err KUnsupported
  | Some s =>
      let encrypt_type :=
        if truthy (s_encrypt_type s) then s_encrypt_type s
        else match d_sym_schm d with Some v => v | None => s_encrypt_type s end in
      let! login :=
        (if truthy (s_lv s) then Ok (z_of (s_lv s))
         else match d_encrypt_type d with
              | Some (v :: et) => max_int (v :: et)
              | _ => Ok (z_of (s_lv s))
              end) in
      if truthy encrypt_type then
        from_values (d_type d) encrypt_type login (Some (truthy (s_https s))) (z_of (s_http_port s))
      else Err KUnsupported
  end.

(** _get_device_instance, discover.py:845-931 *)
Definition instance_new (info : json) (config : devconfig) : res found :=
  match (let! r := jitem "result" info in parse_result V r) with
  | Err e => if is_exception e then Err KUnsupported else Err e
  | Ok d =>
      let! _ :=
        match d_sym_schm d with
        | Some (JStr "AES") => if decrypt_info V d then Ok tt else log_redacted V info
        | _ => Ok tt
        end in
      match get_connection_parameters d with
      | Err e => if is_kasa e then Err KUnsupported else Err e
      | Ok conn =>
          let config := with_conn config conn in
          let! cls := class_from_type (d_type d) (https conn) false in
          match cls with
          | None => Err KUnsupported
          | Some cls =>
              match get_protocol conn false with
              | None => Err KUnsupported
              | Some p =>
                  match d_model d with
                  | JStr _ => Ok (mkFound cls (host config) config (Some p))
                  | _ => Err PyAttributeError
                  end
              end
          end
      end
  end.

(** ** The datagram protocol *)
Inductive callback := CRaw (ip : string) | CDiscovered (ip : string) (d : found) | CUnsupported (ip : string).
Record state := mkState {
  seen : list string; discovered : dict found; unsupported : dict exn; invalid : dict exn;
  callbacks : list callback; target_discovered : bool;
  sent : nat; sending : bool }.        (* rounds sent; the task is still running *)
Definition init : state := mkState [] [] [] [] [] false 0 true.
Definition is_seen (ip : string) (s : state) : bool := existsb (String.eqb ip) (seen s).

(** _handle_discovered_event, discover.py:398-403 *)
Definition handle_event (s : state) : state :=
  if is_seen (target O) s
  then mkState (seen s) (discovered s) (unsupported s) (invalid s) (callbacks s) true (sent s) false
  else s.
Definition add_callback (c : callback) (s : state) : state :=
  mkState (seen s) (discovered s) (unsupported s) (invalid s) (callbacks s ++ [c]) (target_discovered s) (sent s) (sending s).

(** The body of the try, discover.py:358-378: which reply it is, its text, the raw callback,
    the device.  The first component is the callback made. *)
Definition read_datagram (data : bytes) (ip : string) (port : Z) : list callback * res (option found) :=
  let go (text : res json) (inst : json -> devconfig -> res found) : list callback * res (option found) :=
    match text with
    | Err e => ([], Err e)
    | Ok info =>
        let cb := if has_on_raw O then [CRaw ip] else [] in
        (cb, let! _ := (if has_on_raw O then raw_callback V info else Ok tt) in
             let! d := inst info (host_config ip) in Ok (Some d))
    end in
  if port =? discovery_port O then go (json_legacy data) instance_legacy
  else if port =? DISCOVERY_PORT_2 then go (json_new data) instance_new
  else ([], Ok None).

(** datagram_received, discover.py:338-396.  The result is what it raised, if anything: the
    event loop logs that and goes on. *)
Definition datagram (s : state) (data : bytes) (ip : string) (port : Z) : state * option exn :=
  if is_seen ip s then (s, None)
  else
    let (cbs, r) := read_datagram data ip port in
    let s := mkState (ip :: seen s) (discovered s) (unsupported s) (invalid s) (callbacks s ++ cbs)
                     (target_discovered s) (sent s) (sending s) in
    match r with
    | Ok None => (s, None)
    | Ok (Some d) =>
        let s := mkState (seen s) (dset ip d (discovered s)) (unsupported s) (invalid s)
                   (callbacks s ++ (if has_on_discovered O then [CDiscovered ip d] else []))
                   (target_discovered s) (sent s) (sending s) in
        (handle_event s, None)
    | Err KUnsupported =>
        let s := mkState (seen s) (discovered s) (dset ip KUnsupported (unsupported s)) (invalid s)
                   (callbacks s ++ (if has_on_unsupported O then [CUnsupported ip] else []))
                   (target_discovered s) (sent s) (sending s) in
        (handle_event s, None)
    | Err e =>
        if is_kasa e then
          (handle_event (mkState (seen s) (discovered s) (unsupported s) (dset ip e (invalid s)) (callbacks s)
                                 (target_discovered s) (sent s) (sending s)), None)
        else (s, Some e)
    end.

(** One round of do_discover, discover.py:323-336: two datagrams to the target unless the
    rounds are used up, the target has been seen or the task was cancelled. *)
Definition tick (s : state) : state :=
  if sending s && Nat.ltb (sent s) (packets O) && negb (is_seen (target O) s)
  then mkState (seen s) (discovered s) (unsupported s) (invalid s) (callbacks s) (target_discovered s) (S (sent s)) true
  else mkState (seen s) (discovered s) (unsupported s) (invalid s) (callbacks s) (target_discovered s) (sent s) false.

Inductive event := EDatagram (data : bytes) (ip : string) (port : Z) | ETick.
Definition step (s : state) (e : event) : state :=
  match e with
  | EDatagram data ip port => fst (datagram s data ip port)
  | ETick => tick s
  end.
Definition run (s : state) (es : list event) : state := fold_left step es s.

(** The end of discover_single, discover.py:585-607, with the state of its protocol object
    ([ip]: the address of [host]). *)
Inductive single := SDevice (d : found) | SNone | SRaise (e : exn).
Definition single_result (s : state) (host_given ip : string) (on_unsupported : bool) : single :=
  match dget ip (discovered s) with
  | Some d =>
      (* dev.host = host writes to the transport and its configuration, device.py:293-300 *)
      match v_protocol d with
      | Some _ => SDevice (mkFound (v_class d) host_given (with_host (v_config d) host_given) (v_protocol d))
      | None => SRaise PyAttributeError
      end
  | None =>
      match dget ip (unsupported s) with
      | Some e => if on_unsupported then SNone else SRaise e
      | None =>
          match dget ip (invalid s) with
          | Some e => SRaise e
          | None => SRaise KTimeout
          end
      end
  end.
End Disc.

(** discover_single, discover.py:543-607.  [resolve]: the first address of the host name, None
    for a gaierror; [is_ip]: ipaddress.ip_address accepts it.  Its protocol object
    has three rounds, no discovered and no unsupported callback. *)
Definition discover_single (V : env) (is_ip : string -> bool) (resolve : string -> option string)
    (h : string) (port : option Z) (creds : option (string * string)) (timeout : option Z) (raw on_unsupported : bool)
    (es : list event) : single :=
  match (if is_ip h then Some h else resolve h) with
  | None => SRaise KKasa
  | Some ip =>
      let O := mkOpts ip port creds timeout 3 false false raw in
      single_result (run V O init es) h ip on_unsupported
  end.

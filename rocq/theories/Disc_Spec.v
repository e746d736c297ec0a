(** Specification vocabulary for C18-C20, C66 and C67. *)
From Verif Require Import Base Py Xor_Model Factory_Model Factory_Spec Disc_Model.
Open Scope string_scope.
Open Scope list_scope.
Open Scope Z_scope.

(** The first datagram of a host: its bytes and its source port. *)
Fixpoint first_from (ip : string) (es : list event) : option (bytes * Z) :=
  match es with
  | [] => None
  | EDatagram data i port :: es' => if String.eqb ip i then Some (data, port) else first_from ip es'
  | ETick :: es' => first_from ip es'
  end.

(** What was recorded for a host. *)
Inductive verdict := Device (d : found) | Unsupported | Invalid (e : exn) | Nothing.
Definition recorded (s : state) (ip : string) : option found * option exn * option exn :=
  (dget ip (discovered s), dget ip (unsupported s), dget ip (invalid s)).
Definition record_of (v : verdict) : option found * option exn * option exn :=
  match v with
  | Device d => (Some d, None, None)
  | Unsupported => (None, Some KUnsupported, None)
  | Invalid e => (None, None, Some e)
  | Nothing => (None, None, None)
  end.
(** How reading a reply ended: a device, unsupported, another library error, or
    nothing (not a reply, or an error that is not the library's). *)
Definition verdict_of (r : res (option found)) : verdict :=
  match r with
  | Ok (Some d) => Device d
  | Ok None => Nothing
  | Err e => match e with KUnsupported => Unsupported | _ => if is_kasa e then Invalid e else Nothing end
  end.

Definition cb_ip (c : callback) : string :=
  match c with CRaw ip | CDiscovered ip _ | CUnsupported ip => ip end.
Definition callbacks_of (ip : string) (s : state) : list callback :=
  filter (fun c => String.eqb ip (cb_ip c)) (callbacks s).
Definition is_discovered_cb (c : callback) : bool := match c with CDiscovered _ _ => true | _ => false end.
Definition is_unsupported_cb (c : callback) : bool := match c with CUnsupported _ => true | _ => false end.

(** A reply of a SMART or KLAP device that the library supports: the JSON text
    after the 16 byte header is an object whose "result" names the family, an
    encryption scheme, and a model.  [lv]: its login version. *)
Definition good_reply (V : env) (data : bytes) (f : family) (e : encryption) (tls : bool) (lv port : option Z) : Prop :=
  exists info result d s model,
    json_loads V (skipn 16 data) = Some (JObj info) /\ dget "result" info = Some result /\
    parse_result V result = Ok d /\ d_type d = JStr (family_value f) /\ d_model d = JStr model /\
    d_scheme d = Some s /\ s_https s = JBool tls /\
    (s_encrypt_type s = JStr (enc_value e) \/ (s_encrypt_type s = JNull /\ d_sym_schm d = Some (JStr (enc_value e)))) /\
    (d_sym_schm d = Some (JStr "AES") -> decrypt_info V d = false -> log_redacted V (JObj info) = Ok tt) /\
    (match lv with
     | Some z => z <> 0 /\ s_lv s = JInt z
     | None => s_lv s = JNull /\ d_encrypt_type d = None
     end) /\
    s_http_port s = (match port with Some z => JInt z | None => JNull end).
(** A legacy reply: the obfuscated JSON text has a system information of a plug. *)
Definition legacy_plug (name : string) : json :=
  JObj [("system", JObj [("get_sysinfo", JObj [("mic_type", JStr "IOT.SMARTPLUGSWITCH"); ("alias", JStr name)])])].
(** A legacy reply of a plug, switch, strip or bulb: the system information has
    the family and, if any, a string of features. *)
Definition good_sysinfo (si : dict json) (f : family) : Prop :=
  si <> [] /\ dget "system" si = None /\ (f = IotSmartPlugSwitch \/ f = IotSmartBulb) /\
  (dget "mic_type" si = Some (JStr (family_value f)) \/
   dget "mic_type" si = None /\ dget "type" si = Some (JStr (family_value f))) /\
  (dget "feature" si = None \/ exists s, dget "feature" si = Some (JStr s)).

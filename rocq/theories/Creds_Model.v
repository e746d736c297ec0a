(** What each transport logs in with, and the credentials hash it reports.  Models
    kasa/credentials.py, and the constructors and credentials_hash of
    kasa/transports/{aes,ssl,sslaes,linkie,xor,klap}transport.py.  No proofs. *)
From Verif Require Import Base Py Crypto_Model Factory_Model.
From Verif Require Klap_Model.
Open Scope string_scope.
Open Scope list_scope.
Open Scope Z_scope.

(** A text and its .encode(); a string here is the sequence of its UTF-8 bytes. *)
Definition enc (s : string) : bytes := list_ascii_of_string s.
Definition dec (b : bytes) : string := string_of_list_ascii b.
(** base64.b64encode(..).decode() *)
Definition b64 (b : bytes) : string := dec (b64encode b).

(** What a transport has when it starts to log in.
    [SNone]: nothing (the legacy transport does not log in);
    [SKlap]: the hashes tried against the device's, in order;
    [SLogin]: the parameters of the login request;
    [SPair]: user name and password;
    [SBasic]: the value of the Authorization header. *)
Inductive secret :=
| SNone
| SKlap (v : Klap_Model.version) (hashes : list bytes)
| SLogin (params : json)
| SPair (user password : option json)
| SBasic (header : string).

Section Creds.
(** hashlib, hexadecimal digests and raw ones *)
Variables sha1_hex md5_hex : bytes -> string.
Variables md5 sha1 sha256 : bytes -> bytes.
(** json_dumps(..).encode(), and .decode() with json_loads ([None]: it raises) *)
Variable dumps : json -> bytes.
Variable loads : bytes -> option json.

(** aestransport.py:91-94, ssltransport.py:70-73, sslaestransport.py:92-95: no
    credentials and no hash mean blank credentials.  A user name of None is not
    modelled. *)
Definition effective (creds : option (string * string)) (hash : option string) : option (string * string) :=
  match creds with
  | Some c => Some c
  | None => match hash with
            | None => Some ("", "")
            | Some h => if String.eqb h "" then Some ("", "") else None
            end
  end.
(** self._credentials == Credentials() *)
Definition is_blank (c : option (string * string)) : bool :=
  match c with Some (u, p) => String.eqb u "" && String.eqb p "" | None => false end.
(** json_loads(base64.b64decode(hash.encode()).decode()) *)
Definition open_hash (hash : option string) : res json :=
  match hash with
  | None => Err PyAttributeError
  | Some h => let! b := b64decode (enc h) in
              match loads b with Some j => Ok j | None => Err PyValueError end
  end.

(** hash_credentials, aestransport.py:140-150 *)
Definition aes_hash_credentials (login_v2 : bool) (c : string * string) : string * string :=
  (b64 (enc (sha1_hex (enc (fst c)))),
   if login_v2 then b64 (enc (sha1_hex (enc (snd c)))) else b64 (enc (snd c))).
(** _get_login_params, aestransport.py:134-138 *)
Definition is_two (v : option Z) : bool := match v with Some n => n =? 2 | None => false end.
Definition aes_login_params (login_version : option Z) (c : string * string) : json :=
  let (un, pw) := aes_hash_credentials (is_two login_version) c in
  JObj [((if is_two login_version then "password2" else "password"), JStr pw); ("username", JStr un)].
(** _get_login_params and hash_credentials, ssltransport.py:111-116 *)
Definition ssl_login_params (c : string * string) : json :=
  JObj [("password", JStr (md5_hex (enc (snd c)))); ("username", JStr (fst c))].

(** __init__, aestransport.py:90-100 and ssltransport.py:70-80 *)
Definition login_params (of : string * string -> json) (creds : option (string * string)) (hash : option string) : res json :=
  match effective creds hash with
  | Some c => Ok (of c)
  | None => open_hash hash
  end.
(** credentials_hash, aestransport.py:127-132 *)
Definition aes_hash (params : json) (creds : option (string * string)) (hash : option string) : option string :=
  if is_blank (effective creds hash) then None else Some (b64 (dumps params)).
(** credentials_hash, ssltransport.py:101-104 *)
Definition ssl_hash (params : json) : option string := Some (b64 (dumps params)).

(** __init__, sslaestransport.py:92-130 *)
Definition cam_pair (creds : option (string * string)) (hash : option string) : res (option json * option json) :=
  match effective creds hash with
  | Some (u, p) =>
      if is_blank (Some (u, p)) then
        match hash with
        | Some h => if String.eqb h "" then Ok (None, None) else
                      let! ch := open_hash hash in
                      let! pw := jitem "pwd" ch in let! un := jitem "un" ch in Ok (Some un, Some pw)
        | None => Ok (None, None)
        end
      else Ok (Some (JStr u), Some (JStr p))
  | None =>
      let! ch := open_hash hash in
      let! pw := jitem "pwd" ch in let! un := jitem "un" ch in Ok (Some un, Some pw)
  end.
(** _create_b64_credentials, sslaestransport.py:140-143 *)
Definition cam_b64 (c : string * string) : string := b64 (dumps (JObj [("un", JStr (fst c)); ("pwd", JStr (snd c))])).
(** credentials_hash, sslaestransport.py:145-154 *)
Definition cam_hash (creds : option (string * string)) (hash : option string) : option string :=
  let eff := effective creds hash in
  if is_blank eff then None
  else match eff with
       | None => hash
       | Some (u, p) => if negb (String.eqb p "") && negb (String.eqb u "") then Some (cam_b64 (u, p)) else None
       end.

(** credentials_hash, linkietransport.py:62-67 *)
Definition linkie_hash : string :=
  let c := Klap_Model.get_default_credentials ("YWRtaW4=", "MjEyMzJmMjk3YTU3YTVhNzQzODk0YTBlNGE4MDFmYzM=") in
  b64 (Klap_Model.username c ++ enc ":" ++ Klap_Model.password c).

(** The KLAP constructor, klaptransport.py:121-129: modelled in Klap_Model *)
Definition klap_version (t : transport) : Klap_Model.version :=
  match t with KlapTransportV2 => Klap_Model.V2 | _ => Klap_Model.V1 end.
Definition klap_config (v : Klap_Model.version) (creds : option (string * string)) (hash : option string) :=
  Klap_Model.make_config md5 sha1 sha256 v
    (option_map (fun c => Klap_Model.mkCred (enc (fst c)) (enc (snd c))) creds) (option_map enc hash).

(** Transport(config=c): what it will log in with *)
Definition opened (t : transport) (c : devconfig) : res secret :=
  match t with
  | XorTransport => Ok SNone
  | KlapTransport | KlapTransportV2 =>
      let! k := klap_config (klap_version t) (creds c) (creds_hash c) in
      Ok (SKlap (Klap_Model.c_version k) (Klap_Model.candidates md5 sha1 sha256 k))
  | AesTransport => let! p := login_params (aes_login_params (login_version (conn c))) (creds c) (creds_hash c) in Ok (SLogin p)
  | SslTransport => let! p := login_params ssl_login_params (creds c) (creds_hash c) in Ok (SLogin p)
  | SslAesTransport => let! up := cam_pair (creds c) (creds_hash c) in Ok (SPair (fst up) (snd up))
  | LinkieTransportV2 => Ok (SBasic ("Basic " ++ linkie_hash)%string)       (* linkietransport.py:51-54 *)
  end.
(** Device.credentials_hash of a device with such a transport, device.py:312-315;
    xortransport.py:54-57 *)
Definition reported (t : transport) (c : devconfig) : res (option string) :=
  match t with
  | XorTransport => Ok None
  | KlapTransport | KlapTransportV2 =>
      let! k := klap_config (klap_version t) (creds c) (creds_hash c) in
      Ok (option_map dec (Klap_Model.credentials_hash k))
  | AesTransport =>
      let! p := login_params (aes_login_params (login_version (conn c))) (creds c) (creds_hash c) in
      Ok (aes_hash p (creds c) (creds_hash c))
  | SslTransport => let! p := login_params ssl_login_params (creds c) (creds_hash c) in Ok (ssl_hash p)
  | SslAesTransport => let! _ := cam_pair (creds c) (creds_hash c) in Ok (cam_hash (creds c) (creds_hash c))
  | LinkieTransportV2 => Ok (Some linkie_hash)
  end.
End Creds.

(** Where requests go: the hosts, ports and URLs of the transports.
    Models kasa/transports/basetransport.py:20-34, the URL handling of the six transports
    and Device.host of kasa/device.py:288-305.  What is sent is modelled elsewhere; here a
    request is the place it goes to.  No proofs. *)
From Verif Require Import Base.
From Coq Require Import Decimal DecimalString.
Open Scope string_scope.
Open Scope list_scope.
Open Scope Z_scope.

Inductive tkind := TAes | TKlap | TSslAes | TSsl | TLinkie | TXor.
(** The fields of DeviceConfig and of its connection type, deviceconfig.py:98-142 *)
Record cfg := mkCfg { c_host : string; c_override : option Z; c_http : option Z; c_https : bool }.
(** A port that is None or 0 is false *)
Definition given (p : option Z) : option Z := match p with Some 0 => None | p => p end.
(** DEFAULT_PORT: aestransport.py:70, klaptransport.py:95-96, sslaestransport.py:66,
    ssltransport.py:59, linkietransport.py:33, xortransport.py:39 *)
Definition fallback (k : tkind) (https : bool) : Z :=
  match k with TAes => 80 | TKlap => if https then 4433 else 80 | TSslAes => 443 | TSsl => 4433 | TLinkie => 10443 | TXor => 9999 end.
(** default_port: aestransport.py:121-125, klaptransport.py:147-156, sslaestransport.py:134-138,
    ssltransport.py:95-99, linkietransport.py:56-60, xortransport.py:50-52 *)
Definition default_port (k : tkind) (c : cfg) : Z :=
  match k with
  | TXor => fallback k (c_https c)
  | _ => match given (c_http c) with Some p => p | None => fallback k (c_https c) end
  end.
(** config.port_override or self.default_port, basetransport.py:28 *)
Definition port_of (k : tkind) (c : cfg) : Z := match given (c_override c) with Some p => p | None => default_port k c end.

(** A URL as yarl holds it: the part between // and the path is kept as text; [u_short] is
    that part in str(url), where yarl leaves out the standard port *)
Record url := mkUrl { u_scheme : string; u_auth : string; u_short : string; u_path : string; u_query : string }.
Definition digits (z : Z) : string := NilZero.string_of_int (Z.to_int z).
Definition scheme_of (k : tkind) (c : cfg) : string :=
  match k with TAes => "http" | TKlap => if c_https c then "https" else "http" | _ => "https" end.
Definition path_of (k : tkind) : string :=
  match k with TSslAes => "" | TLinkie => "/data/LINKIE2.json" | _ => "/app" end.
(** _app_url of __init__: aestransport.py:115, klaptransport.py:142-143,
    sslaestransport.py:107-108, ssltransport.py:90, linkietransport.py:48 *)
Definition app_url (k : tkind) (c : cfg) (host : string) (port : Z) : url :=
  let auth := (host ++ ":" ++ digits port)%string in
  mkUrl (scheme_of k c) auth (if Z.eqb port (if String.eqb (scheme_of k c) "https" then 443 else 80) then host else auth) (path_of k) "".
(** URL / segment and URL.with_query of yarl *)
Definition slash (u : url) (s : string) : url := mkUrl (u_scheme u) (u_auth u) (u_short u) (u_path u ++ "/" ++ s) "".
Definition with_query (u : url) (q : string) : url := mkUrl (u_scheme u) (u_auth u) (u_short u) (u_path u) q.

Inductive tstate := SHandshake | SLogin | SEstablished.
(** [t_to]: where the open connection of an XorTransport leads *)
Record transport := mkT { t_kind : tkind; t_cfg : cfg; t_host : string; t_port : Z; t_app : url; t_token : option url;
                          t_state : tstate; t_to : option (string * Z) }.
(** __init__ of the transports *)
Definition new_transport (k : tkind) (c : cfg) : transport :=
  mkT k c (c_host c) (port_of k c) (app_url k c (c_host c) (port_of k c)) None
      (match k with TSsl => SLogin | _ => SHandshake end) None.

(** What happens during a send, decided by the device and the clock: the session is
    expired; the handshake (or the connection) succeeds; the token of the login; the
    request is rejected so that the session is lost *)
Record fate := mkFate { f_expired : bool; f_hs1 : bool; f_hs2 : bool; f_token : option string; f_lost : bool }.
Inductive op := OSetHost (h : string) | OSend (f : fate) | OReset | OClose.
Inductive place := PUrl (u : url) | PTcp (h : string) (p : Z).

Definition with_state (t : transport) (s : tstate) : transport :=
  mkT (t_kind t) (t_cfg t) (t_host t) (t_port t) (t_app t) (t_token t) s (t_to t).
Definition with_token (t : transport) (u : url) : transport :=
  mkT (t_kind t) (t_cfg t) (t_host t) (t_port t) (t_app t) (Some u) SEstablished (t_to t).
Definition with_app (t : transport) (u : url) (s : tstate) : transport :=
  mkT (t_kind t) (t_cfg t) (t_host t) (t_port t) u (t_token t) s (t_to t).
Definition with_to (t : transport) (x : option (string * Z)) : transport :=
  mkT (t_kind t) (t_cfg t) (t_host t) (t_port t) (t_app t) (t_token t) (t_state t) x.
Definition established (t : transport) : bool := match t_state t with SEstablished => true | _ => false end.
Definition needs_handshake (t : transport) : bool := match t_state t with SHandshake => true | _ => false end.
(** send_secure_passthrough: the token URL of an established session, else _app_url,
    aestransport.py:173-176, sslaestransport.py:215-218 *)
Definition pass_url (t : transport) : url :=
  match t_token t with Some u => if established t then u else t_app t | None => t_app t end.

(** AesTransport: perform_handshake 303-359, try_login 258-273, send 368-384.  The second
    login with default credentials goes to the same URL and is left out *)
Definition aes_request (t : transport) (f : fate) (sent : list place) : transport * list place :=
  ((if f_lost f then with_state t SHandshake else t), sent ++ [PUrl (pass_url t)]).
Definition aes_login (t : transport) (f : fate) (sent : list place) : transport * list place :=
  if established t then aes_request t f sent else
  let sent := sent ++ [PUrl (pass_url t)] in
  match f_token f with
  | None => (with_state t SHandshake, sent)
  | Some tok => aes_request (with_token t (with_query (t_app t) ("token=" ++ tok))) f sent
  end.
Definition aes_send (t : transport) (f : fate) : transport * list place :=
  if needs_handshake t || f_expired f then
    if f_hs1 f then aes_login (with_state t SLogin) f [PUrl (t_app t)] else (t, [PUrl (t_app t)])
  else aes_login t f [].
(** KlapTransport: perform_handshake1 175-178, perform_handshake2 282-287, perform_handshake
    312-342, send 350-403.  _request_url is made in __init__ of _app_url, 144; _app_url does
    not change *)
Definition klap_request (t : transport) (f : fate) (sent : list place) : transport * list place :=
  ((if f_lost f then with_state t SHandshake else t), sent ++ [PUrl (slash (t_app t) "request")]).
Definition klap_send (t : transport) (f : fate) : transport * list place :=
  if needs_handshake t || f_expired f then
    let t := with_state t SHandshake in
    let sent := [PUrl (slash (t_app t) "handshake1")] in
    if f_hs1 f then
      let sent := sent ++ [PUrl (slash (t_app t) "handshake2")] in
      if f_hs2 f then klap_request (with_state t SEstablished) f sent else (t, sent)
    else (t, sent)
  else klap_request t f [].
(** SslAesTransport: try_send_handshake1 612-645, perform_handshake2 428-476 (or the less
    secure login 388-427, which goes to the same URL), send 647-656; the token URL is made
    of the text of _app_url, 422 and 470 *)
Definition sslaes_request (t : transport) (f : fate) (sent : list place) : transport * list place :=
  ((if f_lost f then with_state t SHandshake else t), sent ++ [PUrl (pass_url t)]).
Definition sslaes_token (t : transport) (tok : string) : url :=
  mkUrl (u_scheme (t_app t)) (u_short (t_app t)) (u_short (t_app t)) ("/stok=" ++ tok ++ "/ds") "".
Definition sslaes_send (t : transport) (f : fate) : transport * list place :=
  if needs_handshake t then
    let sent := [PUrl (t_app t)] in
    if f_hs1 f then
      let sent := sent ++ [PUrl (t_app t)] in
      match f_token f with
      | None => (t, sent)
      | Some tok => sslaes_request (with_token t (sslaes_token t tok)) f sent
      end
    else (t, sent)
  else sslaes_request t f [].
(** reset and send of SslTransport, ssltransport.py:190-235: the login goes to _app_url,
    which then carries the token; reset makes it anew.  A rejected request resets, 128-132 *)
Definition ssl_reset (t : transport) : transport :=
  with_app t (app_url (t_kind t) (t_cfg t) (t_host t) (t_port t)) SLogin.
Definition ssl_request (t : transport) (f : fate) (sent : list place) : transport * list place :=
  ((if f_lost f then ssl_reset t else t), sent ++ [PUrl (t_app t)]).
Definition ssl_send (t : transport) (f : fate) : transport * list place :=
  if negb (established t) || f_expired f then
    let sent := [PUrl (t_app t)] in
    match f_token f with
    | None => (t, sent)
    | Some tok => ssl_request (with_app t (with_query (t_app t) ("token=" ++ tok)) SEstablished) f sent
    end
  else ssl_request t f [].
(** XorTransport: _connect 58-73, send 112-181: every failure closes the connection *)
Definition xor_send (t : transport) (f : fate) : transport * list place :=
  match t_to t with
  | Some (h, p) => ((if f_lost f then with_to t None else t), [PTcp h p])
  | None =>
      if f_hs1 f then
        ((if f_lost f then t else with_to t (Some (t_host t, t_port t))), [PTcp (t_host t) (t_port t); PTcp (t_host t) (t_port t)])
      else (t, [PTcp (t_host t) (t_port t)])
  end.
Definition send (t : transport) (f : fate) : transport * list place :=
  match t_kind t with
  | TAes => aes_send t f
  | TKlap => klap_send t f
  | TSslAes => sslaes_send t f
  | TSsl => ssl_send t f
  | TLinkie => (t, [PUrl (t_app t)])                           (* linkietransport.py:78-83 *)
  | TXor => xor_send t f
  end.
(** reset and close: aestransport.py:386-394, klaptransport.py:405-412, sslaestransport.py:
    657-668, ssltransport.py:227-235, linkietransport.py:112-120, xortransport.py:93-115 *)
Definition reset (t : transport) : transport :=
  match t_kind t with
  | TAes | TKlap | TSslAes => with_state t SHandshake
  | TSsl => ssl_reset t
  | TLinkie => t
  | TXor => with_to t None
  end.
(** Device.host, device.py:293-300; _config.host, which is set too, is only used in
    messages *)
Definition host (t : transport) : string := t_host t.
Definition port (t : transport) : Z := t_port t.
Definition with_host (t : transport) (h : string) : transport :=
  mkT (t_kind t) (t_cfg t) h (t_port t) (t_app t) (t_token t) (t_state t) (t_to t).
Definition step (t : transport) (o : op) : transport * list place :=
  match o with
  | OSetHost h => (with_host t h, [])
  | OSend f => send t f
  | OReset | OClose => (reset t, [])
  end.
Fixpoint run (t : transport) (l : list op) : transport * list place :=
  match l with
  | [] => (t, [])
  | o :: l => let (t1, p1) := step t o in let (t2, p2) := run t1 l in (t2, p1 ++ p2)
  end.

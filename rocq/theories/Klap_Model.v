(** The KLAP transport.  Models kasa/transports/klaptransport.py. *)
From Verif Require Import Base Crypto_Model.
Open Scope Z_scope.

(** Credentials, kasa/credentials.py:9-16; the texts are taken after .encode() *)
Record credentials := mkCred { username : bytes; password : bytes }.
Definition blank_credentials : credentials := mkCred [] [].
(** credentials.py:26-31 (keys and base64 texts) *)
Definition default_credentials_b64 : list (string * (string * string)) :=
  [("KASA", ("a2FzYUB0cC1saW5rLm5ldA==", "a2FzYVNldHVw"));
   ("KASACAMERA", ("YWRtaW4=", "MjEyMzJmMjk3YTU3YTVhNzQzODk0YTBlNGE4MDFmYzM="));
   ("TAPO", ("dGVzdEB0cC1saW5rLm5ldA==", "dGVzdA=="));
   ("TAPOCAMERA", ("YWRtaW4=", "YWRtaW4="))]%string.
(** get_default_credentials, credentials.py:19-23; the built-in texts all decode *)
Definition get_default_credentials (t : string * string) : credentials :=
  let dec s := match b64decode (list_ascii_of_string s) with Ok b => b | Err _ => [] end in
  mkCred (dec (fst t)) (dec (snd t)).

Definition bytes_eqb (a b : bytes) : bool :=
  if list_eq_dec ascii_dec a b then true else false.
Definition cred_eqb (a b : credentials) : bool :=
  bytes_eqb (username a) (username b) && bytes_eqb (password a) (password b).

Section Klap.
(** hashlib and AES *)
Variables md5 sha1 sha256 : bytes -> bytes.
Variables enc_block dec_block : bytes -> bytes -> bytes.
Variable J : Type.
(** json_loads after bytes.decode(): [None] when the decoding fails (inside the
    try), [Some None] when the JSON parser raises (outside it), klaptransport.py:392-399 *)
Variable json_loads : bytes -> option (option J).

Inductive version := V1 | V2.

(** generate_auth_hash, klaptransport.py:414-420 and 463-469 *)
Definition generate_auth_hash (v : version) (c : credentials) : bytes :=
  match v with
  | V1 => md5 (md5 (username c) ++ md5 (password c))
  | V2 => sha256 (sha1 (username c) ++ sha1 (password c))
  end.
(** handshake1_seed_auth_hash, klaptransport.py:422-427 and 471-476 *)
Definition handshake1_seed_auth_hash (v : version) (local_seed remote_seed auth_hash : bytes) : bytes :=
  match v with
  | V1 => sha256 (local_seed ++ auth_hash)
  | V2 => sha256 (local_seed ++ remote_seed ++ auth_hash)
  end.
(** handshake2_seed_auth_hash, klaptransport.py:429-434 and 478-483 *)
Definition handshake2_seed_auth_hash (v : version) (local_seed remote_seed auth_hash : bytes) : bytes :=
  match v with
  | V1 => sha256 (remote_seed ++ auth_hash)
  | V2 => sha256 (remote_seed ++ local_seed ++ auth_hash)
  end.

(** ** KlapEncryptionSession, klaptransport.py:486-555.  [cipher]: the IV of self._cipher. *)
Record session := mkSess {
  s_key : bytes; s_iv : bytes; s_seq : Z; s_sig : bytes; s_cipher : option bytes }.

Definition lit (s : string) : bytes := list_ascii_of_string s.

(** klaptransport.py:494-524 *)
Definition new_session (local_seed remote_seed user_hash : bytes) : session :=
  let fulliv := sha256 (lit "iv" ++ local_seed ++ remote_seed ++ user_hash) in
  mkSess (firstn 16 (sha256 (lit "lsk" ++ local_seed ++ remote_seed ++ user_hash)))
         (firstn 12 fulliv)
         (from_bytes_signed (skipn (length fulliv - 4) fulliv))
         (firstn 28 (sha256 (lit "ldk" ++ local_seed ++ remote_seed ++ user_hash)))
         None.

(** encrypt, klaptransport.py:531-546 with _generate_cipher 526-529: the counter has moved even
    when packing it fails. *)
Definition klap_encrypt (s : session) (msg : bytes) : session * res (bytes * Z) :=
  let seq := s_seq s + 1 in
  let s1 := mkSess (s_key s) (s_iv s) seq (s_sig s) (s_cipher s) in
  match pack_i32 seq with
  | Err e => (s1, Err e)
  | Ok packed =>
      let iv_seq := s_iv s ++ packed in
      let s2 := mkSess (s_key s) (s_iv s) seq (s_sig s) (Some iv_seq) in
      match cbc_encrypt enc_block (s_key s) iv_seq (pkcs7_pad msg) with
      | Err e => (s2, Err e)
      | Ok ciphertext =>
          (s2, Ok (sha256 (s_sig s ++ packed ++ ciphertext) ++ ciphertext, seq))
      end
  end.

(** decrypt, klaptransport.py:548-555 up to .decode(); without a cipher the attribute is missing *)
Definition klap_decrypt (s : session) (msg : bytes) : res bytes :=
  match s_cipher s with
  | None => Err PyAttributeError
  | Some iv_seq =>
      let! dp := cbc_decrypt dec_block (s_key s) iv_seq (skipn 32 msg) in pkcs7_unpad dp
  end.

(** ** The transport *)

(** What the constructor keeps, klaptransport.py:112-144: the credentials (None when only a
    hash was given), and the auth hash. *)
Record config := mkCfg { c_version : version; c_creds : option credentials; c_auth : bytes }.
(** klaptransport.py:121-129.  [Err] when the stored hash is not base64. *)
Definition make_config (v : version) (creds : option credentials) (hash : option bytes) : res config :=
  match creds with
  | Some c => Ok (mkCfg v (Some c) (generate_auth_hash v c))
  | None =>
      match hash with
      | None | Some [] => Ok (mkCfg v (Some blank_credentials) (generate_auth_hash v blank_credentials))
      | Some h => let! a := b64decode h in Ok (mkCfg v None a)
      end
  end.
(** credentials_hash, klaptransport.py:158-163 *)
Definition credentials_hash (c : config) : option bytes :=
  match c_creds c with
  | Some cr => if cred_eqb cr blank_credentials then None else Some (b64encode (c_auth c))
  | None => Some (b64encode (c_auth c))
  end.

(** The auth hashes tried against the server's hash, in order, klaptransport.py:216-266 *)
Definition candidates (c : config) : list bytes :=
  c_auth c
  :: map (fun kv => generate_auth_hash (c_version c) (get_default_credentials (snd kv))) default_credentials_b64
  ++ match c_creds c with
     | Some cr => if cred_eqb cr blank_credentials then []
                  else [generate_auth_hash (c_version c) blank_credentials]
     | None => [generate_auth_hash (c_version c) blank_credentials]
     end.

(** perform_handshake1 after the post, klaptransport.py:191-273 *)
Definition handshake1 (c : config) (local_seed : bytes) (status : Z) (response_data : bytes)
  : res (bytes * bytes * bytes) :=
  if negb (status =? 200) then Err KKasa
  else
    let remote_seed := firstn 16 response_data in
    let server_hash := skipn 16 response_data in
    if negb (Nat.eqb (length server_hash) 32) then Err KKasa
    else
      match find (fun a => bytes_eqb (handshake1_seed_auth_hash (c_version c) local_seed remote_seed a)
                                     server_hash) (candidates c) with
      | Some a => Ok (local_seed, remote_seed, a)
      | None => Err (KAuth None)
      end.

(** Cookies after handshake 1, 323-330: the session cookie, and the TIMEOUT
    cookie: absent or empty, not an integer, or an integer. *)
Inductive timeout_cookie := NoTimeout | BadTimeout | Timeout (secs : Z).
Definition ONE_DAY_SECONDS : Z := 86400.              (* 72 *)
Definition SESSION_EXPIRE_BUFFER_SECONDS : Z := 1200. (* 73 *)
Definition int_timeout (t : timeout_cookie) : res Z :=
  match t with NoTimeout => Ok ONE_DAY_SECONDS | BadTimeout => Err PyValueError | Timeout z => Ok z end.

(** [gen] counts completed handshakes (not in the code: it names the session). *)
Record transport := mkT {
  done : bool; expire_at : option Z; sess : option session; cookie : option string; gen : nat }.
Definition init : transport := mkT false None None None 0.

(** What is posted to the device. *)
Inductive post :=
| PHandshake1 (payload : bytes)
| PHandshake2 (payload : bytes) (c : option string)
| PRequest (g : nat) (seq : Z) (payload : bytes) (c : option string).

(** The outside world during one send: the clock at its start, the random seed,
    the three HTTP posts (an exception raised by the client, or a status and a
    body), the cookies and the clock after handshake 1.  Times are exact numbers. *)
Record world := mkWorld {
  w_now : Z; w_seed : bytes; w_h1 : res (Z * bytes); w_cookie : option string;
  w_timeout : timeout_cookie; w_now1 : Z; w_h2 : res Z; w_req : res (Z * bytes) }.

(** perform_handshake, klaptransport.py:312-342, with perform_handshake2, 275-310 *)
Definition perform_handshake (c : config) (w : world) (t : transport) : transport * list post * res unit :=
  let t0 := mkT false None (sess t) None (gen t) in
  let p1 := [PHandshake1 (w_seed w)] in
  match w_h1 w with
  | Err e => (t0, p1, Err e)
  | Ok (status, data) =>
      match handshake1 c (w_seed w) status data with
      | Err e => (t0, p1, Err e)
      | Ok (local_seed, remote_seed, auth_hash) =>
          let t1 := mkT false None (sess t) (w_cookie w) (gen t) in
          match int_timeout (w_timeout w) with
          | Err e => (t1, p1, Err e)
          | Ok timeout =>
              let t2 := mkT false (Some (w_now1 w + timeout - SESSION_EXPIRE_BUFFER_SECONDS))
                            (sess t) (w_cookie w) (gen t) in
              let p2 := p1 ++ [PHandshake2 (handshake2_seed_auth_hash (c_version c) local_seed remote_seed auth_hash)
                                           (w_cookie w)] in
              match w_h2 w with
              | Err e => (t2, p2, Err e)
              | Ok status2 =>
                  if negb (status2 =? 200) then (t2, p2, Err KKasa)
                  else (mkT true (expire_at t2) (Some (new_session local_seed remote_seed auth_hash))
                            (w_cookie w) (S (gen t)), p2, Ok tt)
              end
          end
      end
  end.

(** _handshake_session_expired, klaptransport.py:344-349 *)
Definition session_expired (t : transport) (now : Z) : bool :=
  match expire_at t with None => true | Some e => e - now <=? 0 end.

(** send after the handshake, klaptransport.py:356-403; without session [seq] is unbound *)
Definition send_request (w : world) (t : transport) (request : bytes) : transport * list post * res J :=
  match sess t with
  | None => (t, [], Err PyUnboundLocal)
  | Some s =>
      match klap_encrypt s request with
      | (s', Err e) => (mkT (done t) (expire_at t) (Some s') (cookie t) (gen t), [], Err e)
      | (s', Ok (payload, seq)) =>
          let t' := mkT (done t) (expire_at t) (Some s') (cookie t) (gen t) in
          let p := [PRequest (gen t) seq payload (cookie t)] in
          match w_req w with
          | Err e => (t', p, Err e)
          | Ok (status, data) =>
              if negb (status =? 200) then
                if status =? 403 then
                  (mkT false (expire_at t') (sess t') (cookie t') (gen t'), p, Err (KRetry None))
                else (t', p, Err KKasa)
              else
                match klap_decrypt s' data with
                | Err _ => (t', p, Err KKasa)
                | Ok plain =>
                    match json_loads plain with
                    | None => (t', p, Err KKasa)
                    | Some None => (t', p, Err PyValueError)
                    | Some (Some j) => (t', p, Ok j)
                    end
                end
          end
      end
  end.

(** send, klaptransport.py:351-403 *)
Definition klap_send (c : config) (w : world) (t : transport) (request : bytes)
  : transport * list post * res J :=
  if negb (done t) || session_expired t (w_now w) then
    match perform_handshake c w t with
    | (t1, p1, Err e) => (t1, p1, Err e)
    | (t1, p1, Ok _) => let '(t2, p2, r) := send_request w t1 request in (t2, p1 ++ p2, r)
    end
  else send_request w t request.

(** reset and close, klaptransport.py:405-412 (closing the HTTP client is not modelled) *)
Definition klap_reset (t : transport) : transport :=
  mkT false (expire_at t) (sess t) (cookie t) (gen t).

Inductive event := ESend (w : world) (request : bytes) | EReset.

Definition step (c : config) (t : transport) (e : event) : transport * list post * option (res J) :=
  match e with
  | ESend w request => let '(t', p, r) := klap_send c w t request in (t', p, Some r)
  | EReset => (klap_reset t, [], None)
  end.

Fixpoint run (c : config) (t : transport) (es : list event)
  : transport * list (list post * option (res J)) :=
  match es with
  | [] => (t, [])
  | e :: es' =>
      let '(t1, p, r) := step c t e in
      let (t2, out) := run c t1 es' in (t2, (p, r) :: out)
  end.
End Klap.

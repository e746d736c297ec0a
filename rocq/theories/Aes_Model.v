(** The AES (securePassthrough) transport.  Models
    kasa/transports/aestransport.py. *)
From Verif Require Import Base Py Codes_Model Crypto_Model.
From Verif Require Klap_Model.
Open Scope Z_scope.

Notation lit := Klap_Model.lit.
Notation timeout_cookie := Klap_Model.timeout_cookie.
Notation int_timeout := Klap_Model.int_timeout.

(** TransportState, aestransport.py:55-60 *)
Inductive tstate := HANDSHAKE_REQUIRED | LOGIN_REQUIRED | ESTABLISHED.

(** What is posted: [who] tells a login with the user's parameters from one with
    the default ones (not in the code: names the call). *)
Inductive post :=
| PHandshake
| PLogin (default : bool) (token : option json) (cookie : option string) (payload : bytes)
| PRequest (token : option json) (cookie : option string) (payload : bytes).

Record aes := mkAes {
  st : tstate; expire_at : option Z; sess : option (bytes * bytes);
  cookie : option string; token : option json; log : list post }.
Definition init : aes := mkAes HANDSHAKE_REQUIRED None None None None [].

Definition set_st (s : tstate) (t : aes) : aes :=
  mkAes s (expire_at t) (sess t) (cookie t) (token t) (log t).
Definition add_log (p : post) (t : aes) : aes :=
  mkAes (st t) (expire_at t) (sess t) (cookie t) (token t) (log t ++ [p]).

(** A reply to a post made with a JSON body: an exception from the HTTP client,
    or the status and the parsed body. *)
Definition reply := res (Z * json).
(** A reply to a handshake, with the cookies and the clock after it *)
Record hs_reply := mkHs { hs_post : reply; hs_cookie : option string; hs_timeout : timeout_cookie; hs_now : Z }.
(** The outside world during one send: the clock at its start, and the replies
    to the posts it may make. *)
Record world := mkW {
  w_now : Z; w_hs : hs_reply; w_login : reply; w_hs2 : hs_reply; w_login2 : reply; w_req : reply }.

Section Aes.
Variables enc_block dec_block : bytes -> bytes -> bytes.
(** bytes.decode() and json.loads *)
Variable json_loads : bytes -> option json.
(** base64 and RSA decryption of the handshake key, aestransport.py:404-408 *)
Variable open_key : json -> res bytes.
(** The text of the login request, aestransport.py:262-267 (its time stamp is left out) *)
Variable login_text : bool -> bytes.

(** create_from_keypair, 410, and __init__, aestransport.py:412-414: AES wants a 16-byte key here
    and CBC a 16-byte IV, else ValueError. *)
Definition new_session (key_and_iv : bytes) : res (bytes * bytes) :=
  let key := firstn 16 key_and_iv in
  let iv := skipn 16 key_and_iv in
  if Nat.eqb (length key) 16 && Nat.eqb (length iv) 16 then Ok (key, iv) else Err PyValueError.

(** encrypt, aestransport.py:416-422 *)
Definition aes_encrypt (s : bytes * bytes) (data : bytes) : res bytes :=
  let! c := cbc_encrypt enc_block (fst s) (snd s) (pkcs7_pad data) in Ok (b64encode c).
(** decrypt, aestransport.py:424-430 up to .decode() *)
Definition aes_decrypt (s : bytes * bytes) (data : bytes) : res bytes :=
  let! c := b64decode data in
  let! d := cbc_decrypt dec_block (fst s) (snd s) c in pkcs7_unpad d.

(** _handle_response_error_code, aestransport.py:152-169 *)
Definition handle_code (resp : json) : M aes unit := fun t =>
  match jget "error_code" resp with
  | Err e => (t, Err e)
  | Ok raw =>
      match error_code_of raw with
      | Err e => (t, Err e)
      | Ok c =>
          if c =? 0 then (t, Ok tt)
          else if zmem c smart_retryable_errors then (t, Err (KRetry (Some c)))
          else if zmem c smart_authentication_errors then (set_st HANDSHAKE_REQUIRED t, Err (KAuth (Some c)))
          else (t, Err (KDevice (Some c)))
      end
  end.

(** Reading the answer, aestransport.py:205-223: the decrypted text, else the text itself *)
Definition read_answer (s : bytes * bytes) (raw_response : json) : res json :=
  match raw_response with
  | JStr raw =>
      let plain := match json_loads (lit raw) with Some j => Ok j | None => Err KKasa end in
      match aes_decrypt s (lit raw) with
      | Ok response => match json_loads response with Some j => Ok j | None => plain end
      | Err _ => plain
      end
  | _ => Err KKasa
  end.

(** send_secure_passthrough, aestransport.py:171-223.  [mk] builds the entry of the log. *)
Definition passthrough (mk : option json -> option string -> bytes -> post) (r : reply) (request : bytes)
  : M aes json := fun t =>
  let url := match st t with ESTABLISHED => token t | _ => None end in
  match sess t with
  | None => (t, Err PyAttributeError)
  | Some s =>
      match aes_encrypt s request with
      | Err e => (t, Err e)
      | Ok payload =>
          let t1 := add_log (mk url (cookie t) payload) t in
          match r with
          | Err e => (t1, Err e)
          | Ok (status, resp) =>
              if negb (status =? 200) then (t1, Err KKasa)
              else
                mbind (handle_code resp) (fun _ =>
                  mlift (let! result := jitem "result" resp in
                         let! raw := jitem "response" result in
                         read_answer s raw)) t1
          end
      end
  end.

(** try_login, aestransport.py:260-273 *)
Definition try_login (default : bool) (r : reply) : M aes unit :=
  do! resp <- passthrough (PLogin default) r (login_text default) ;;
  do! _ <- handle_code resp ;;
  do! tok <- mlift (let! result := jitem "result" resp in jitem "token" result) ;;
  fun t => (mkAes ESTABLISHED (expire_at t) (sess t) (cookie t) (Some tok) (log t), Ok tt).

(** perform_handshake, aestransport.py:300-359 *)
Definition perform_handshake (h : hs_reply) : M aes unit := fun t =>
  let t0 := mkAes (st t) None (sess t) None None (log t ++ [PHandshake]) in
  match hs_post h with
  | Err e => (t0, Err e)
  | Ok (status, resp) =>
      if negb (status =? 200) then (t0, Err KKasa)
      else
        match handle_code resp t0 with
        | (t1, Err e) => (t1, Err e)
        | (t1, Ok _) =>
            match (let! result := jitem "result" resp in jitem "key" result) with
            | Err e => (t1, Err e)
            | Ok key =>
                let t2 := mkAes (st t1) None (sess t1) (hs_cookie h) (token t1) (log t1) in
                match int_timeout (hs_timeout h) with
                | Err e => (t2, Err e)
                | Ok timeout =>
                    let t3 := mkAes (st t2) (Some (hs_now h + timeout - Klap_Model.SESSION_EXPIRE_BUFFER_SECONDS))
                                    (sess t2) (cookie t2) (token t2) (log t2) in
                    match (let! kv := open_key key in new_session kv) with
                    | Err e => (t3, Err e)
                    | Ok s => (mkAes LOGIN_REQUIRED (expire_at t3) (Some s) (cookie t3) (token t3) (log t3), Ok tt)
                    end
                end
            end
        end
  end.

Definition LOGIN_ERROR : Z := -1501.

(** The handler of perform_login, aestransport.py:251-258 *)
Definition relogin_exn (e : exn) : exn :=
  match e with
  | KAuth _ | KConn | KTimeout => e
  | Cancelled => Cancelled
  | _ => KKasa
  end.

(** perform_login, aestransport.py:225-258 *)
Definition perform_login (w : world) : M aes unit := fun t =>
  match try_login false (w_login w) t with
  | (t1, Err (KAuth code)) =>
      match code with
      | Some c =>
          if c =? LOGIN_ERROR then
            match (do! _ <- perform_handshake (w_hs2 w) ;; try_login true (w_login2 w)) t1 with
            | (t2, Err e) => (t2, Err (relogin_exn e))
            | r => r
            end
          else (t1, Err (KAuth code))
      | None => (t1, Err (KAuth code))
      end
  | r => r
  end.

(** _handshake_session_expired, aestransport.py:361-366 *)
Definition session_expired (t : aes) (now : Z) : bool :=
  match expire_at t with None => true | Some e => e - now <=? 0 end.

(** send, aestransport.py:368-384.  The clock is read once. *)
Definition send (w : world) (request : bytes) : M aes json := fun t =>
  let handshake_needed := match st t with HANDSHAKE_REQUIRED => true | _ => session_expired t (w_now w) end in
  match (if handshake_needed then perform_handshake (w_hs w) t else (t, Ok tt)) with
  | (t1, Err e) => (t1, Err e)
  | (t1, Ok _) =>
      match (match st t1 with
             | ESTABLISHED => (t1, Ok tt)
             | _ => match perform_login w t1 with
                    | (t2, Err (KAuth c)) => (set_st HANDSHAKE_REQUIRED t2, Err (KAuth c))
                    | r => r
                    end
             end) with
      | (t2, Err e) => (t2, Err e)
      | (t2, Ok _) => passthrough PRequest (w_req w) request t2
      end
  end.

(** reset, aestransport.py:391-393, and close *)
Definition reset (t : aes) : aes := set_st HANDSHAKE_REQUIRED t.

Inductive event := ESend (w : world) (request : bytes) | EReset.

(** One event; the log of the step is returned and cleared. *)
Definition step (t : aes) (e : event) : aes * list post * option (res json) :=
  match e with
  | ESend w request =>
      let (t', r) := send w request t in
      (mkAes (st t') (expire_at t') (sess t') (cookie t') (token t') [], log t', Some r)
  | EReset => (reset t, [], None)
  end.

Fixpoint run (t : aes) (es : list event) : aes * list (list post * option (res json)) :=
  match es with
  | [] => (t, [])
  | e :: es' =>
      let '(t1, p, r) := step t e in
      let (t2, out) := run t1 es' in (t2, (p, r) :: out)
  end.
End Aes.

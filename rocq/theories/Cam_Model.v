(** The camera transport.  Models kasa/transports/sslaestransport.py. *)
From Verif Require Import Base Py Codes_Model Crypto_Model.
From Verif Require Klap_Model Aes_Model.
Open Scope string_scope.
Open Scope list_scope.
Open Scope Z_scope.

Notation lit := Klap_Model.lit.
Notation reply := Aes_Model.reply.

(** TransportState, sslaestransport.py:52-56 *)
Inductive tstate := HANDSHAKE_REQUIRED | ESTABLISHED.

(** The configuration: the credentials, and the decoded credentials hash
    (user name and password), sslaestransport.py:124-132.  A hash that does not decode to two
    strings is not modelled. *)
Record config := mkCfg { c_creds : option (string * string); c_hash : option (string * string) }.
(** DEFAULT_CREDENTIALS["TAPOCAMERA"] decoded, sslaestransport.py:96-98, credentials.py:31 *)
Definition default_user : string := "admin".
Definition default_password : string := "admin".

(** What is posted.  A URL is the app URL ([None]) or the token URL of a stok.
    [default] tells the attempt with the default user name from the user's own
    (not in the code: names the call). *)
Inductive post :=
| PHello (default : bool) (user nonce : string)    (* handshake 1 *)
| PPlainLogin (default : bool) (user pwd_hash : string)   (* the less secure login *)
| PProof (user : option string) (nonce digest : string)     (* handshake 2 *)
| PSecure (url : option string) (payload : bytes) (seq : Z) (tag : string)
| POpen (url : option string) (request : bytes).   (* an unencrypted request *)

Record cam := mkCam {
  st : tstate; secure : bool; user : option string;
  url : option string; seq : option Z; sess : option (bytes * bytes);
  pwdh : option string; nonce : option string; log : list post }.

(** The outside world during one send: the two random nonces and the replies to
    the posts it may make. *)
Record world := mkW {
  w_n1 : string; w_n2 : string;
  w_hello : reply; w_plain : reply; w_hello2 : reply; w_plain2 : reply; w_proof : reply; w_req : reply }.

Section Cam.
Variables enc_block dec_block : bytes -> bytes -> bytes.
Variable json_loads : bytes -> option json.
(** hexdigest().upper() of md5 and sha256, and sha256 itself, sslaestransport.py:40-49 *)
Variables md5_hex sha256_hex : bytes -> string.
Variable sha256 : bytes -> bytes.
(** str(seq) *)
Variable str_int : Z -> string.
(** f"{stok}" *)
Variable str_json : json -> string.
(** json_dumps of the passthrough request, sslaestransport.py:225-229 *)
Variable wrap : bytes -> bytes.
Variable cfg : config.

(** self._credentials != Credentials() and self._credentials *)
Definition own_creds : option (string * string) :=
  match c_creds cfg with
  | Some (u, p) => if String.eqb u "" && String.eqb p "" then None else Some (u, p)
  | None => None
  end.
(** __init__, sslaestransport.py:119-130 *)
Definition user0 : option string :=
  match own_creds with Some (u, _) => Some u | None => match c_hash cfg with Some (u, _) => Some u | None => None end end.
Definition password0 : option string :=
  match own_creds with Some (_, p) => Some p | None => match c_hash cfg with Some (_, p) => Some p | None => None end end.
Definition init : cam := mkCam HANDSHAKE_REQUIRED true user0 None None None None None [].

Definition set_st (s : tstate) (t : cam) : cam :=
  mkCam s (secure t) (user t) (url t) (seq t) (sess t) (pwdh t) (nonce t) (log t).
Definition set_user (u : string) (t : cam) : cam :=
  mkCam (st t) (secure t) (Some u) (url t) (seq t) (sess t) (pwdh t) (nonce t) (log t).
Definition add_log (p : post) (t : cam) : cam :=
  mkCam (st t) (secure t) (user t) (url t) (seq t) (sess t) (pwdh t) (nonce t) (log t ++ [p]).

(** A post answered by [r], whose status must be 200 *)
Definition post_200 (p : post) (r : reply) : M cam json := fun t =>
  (add_log p t, match r with
                | Err e => Err e
                | Ok (status, resp) => if negb (status =? 200) then Err KKasa else Ok resp
                end).

(** x.get(k, {}) *)
Definition jget_dict (k : string) (v : json) : res json :=
  match v with
  | JObj d => Ok (match dget k d with Some x => x | None => JObj [] end)
  | _ => Err PyAttributeError
  end.

(** _get_response_error, sslaestransport.py:156-165 *)
Definition response_error (resp : json) : res Z := let! raw := jget "error_code" resp in error_code_of raw.
(** _get_response_inner_error, sslaestransport.py:167-184 *)
Definition inner_error (resp : json) : res (option Z) :=
  let! data := jget_dict "data" resp in
  let! raw := jget "code" data in
  let! raw := match raw with
              | JNull => let! r := jget_dict "result" resp in let! d := jget_dict "data" r in jget "code" d
              | _ => Ok raw
              end in
  match raw with JNull => Ok None | _ => let! c := error_code_of raw in Ok (Some c) end.

(** _handle_response_error_code, sslaestransport.py:186-196 *)
Definition handle_code (resp : json) : M cam unit := fun t =>
  match response_error resp with
  | Err e => (t, Err e)
  | Ok c =>
      if c =? 0 then (t, Ok tt)
      else if zmem c smart_retryable_errors then (t, Err (KRetry (Some c)))
      else if zmem c smart_authentication_errors then (set_st HANDSHAKE_REQUIRED t, Err (KAuth (Some c)))
      else (t, Err (KDevice (Some c)))
  end.

Definition SESSION_EXPIRED : Z := -40401.   (* exceptions.py:136-149 *)
Definition BAD_USERNAME : Z := -40411.
Definition INVALID_NONCE : Z := -40413.
Definition DEVICE_BLOCKED : Z := -40404.

(** generate_confirm_hash, sslaestransport.py:337-345 *)
Definition confirm_hash (local server pwd : string) : string :=
  (sha256_hex (lit local ++ lit pwd ++ lit server)%list ++ server ++ local)%string.
(** generate_digest_password, sslaestransport.py:347-357 *)
Definition digest_password (local server pwd : string) : string :=
  (sha256_hex (lit pwd ++ lit local ++ lit server)%list ++ local ++ server)%string.
(** generate_encryption_token, sslaestransport.py:358-371 *)
Definition encryption_token (kind local server pwd : string) : bytes :=
  let hashed := sha256_hex (lit local ++ lit pwd ++ lit server)%list in
  firstn 16 (sha256 (lit kind ++ lit local ++ lit server ++ lit hashed)%list).
(** generate_tag, sslaestransport.py:373-380 *)
Definition tag_of (request : bytes) (local pwd : string) (seq : Z) : string :=
  sha256_hex (lit (sha256_hex (lit pwd ++ lit local)%list) ++ request ++ lit (str_int seq))%list.

(** _pwd_to_hash, sslaestransport.py:479-487 *)
Definition pwd_to_hash (t : cam) : string :=
  match own_creds with
  | Some (_, p) => p
  | None =>
      match user t, password0 with
      | Some u, Some p => if negb (String.eqb u "") && negb (String.eqb p "") then p else default_password
      | _, _ => default_password
      end
  end.

(** encrypt_type != ["3"] *)
Definition only_three (v : json) : bool :=
  match v with JArr [JStr s] => String.eqb s "3" | _ => false end.
(** _is_less_secure_login, sslaestransport.py:489-502 *)
Definition is_less_secure (resp : json) : res bool :=
  let! c := response_error resp in
  if c =? SESSION_EXPIRED then
    let! r := jget_dict "result" resp in
    let! data := jget_dict "data" r in
    if truthy data then
      let! et := jget "encrypt_type" data in
      Ok (truthy et && negb (only_three et))
    else Ok false
  else Ok false.

(** try_perform_less_secure_login, sslaestransport.py:389-427.  error_code == 0 is true for 0, False
    and the float 0.0 (the last not modelled). *)
Definition eq_zero (v : json) : bool := match v with JInt 0 => true | JBool false => true | _ => false end.
Definition less_secure_login (d : bool) (u p : string) (r : reply) : M cam bool :=
  let ph := md5_hex (lit p) in
  do! resp <- post_200 (PPlainLogin d u ph) r ;;
  do! code <- mlift (jget "error_code" resp) ;;
  if eq_zero code then
    do! result <- mlift (jget_dict "result" resp) ;;
    do! stok <- mlift (jget "stok" result) ;;
    if truthy stok then
      fun t => (mkCam (st t) false (user t) (Some (str_json stok)) (seq t) (sess t) (Some ph) (nonce t) (log t), Ok true)
    else mret false
  else mret false.

(** "nonce" in resp["result"].get("data", {}) *)
Definition has_nonce (resp : json) : res bool :=
  let! r := jitem "result" resp in let! d := jget_dict "data" r in jcontains "nonce" d.
(** "nonce" in resp.get("result", {}).get("data", {}) *)
Definition has_nonce_get (resp : json) : res bool :=
  let! r := jget_dict "result" resp in let! d := jget_dict "data" r in jcontains "nonce" d.

(** The end of perform_handshake1, 554-614: [resp] and [code] are resp_dict and
    error_code ([None]: not assigned), [local] the last nonce sent.
    [resp] is None when there is no user name: then the default login failed and
    the first test raises. *)
Definition finish1 (resp : option json) (code : option Z) (local : string) : M cam (option (string * string * string)) :=
  fun t =>
  if match user t with Some u => String.eqb u "" | None => true end then (t, Err (KAuth None))
  else
    match resp, code with
    | Some resp, Some code =>
        (t,
         let resp_true := truthy resp in
         let! bad := (if negb (code =? INVALID_NONCE) then Ok true
                      else if resp_true then let! h := has_nonce_get resp in Ok (negb h) else Ok false) in
         if bad then
           if resp_true then
             let! inner := inner_error resp in
             match inner with
             | Some c => if c =? DEVICE_BLOCKED then
                           let! data := jget_dict "data" resp in
                           let! _ := jget "sec_left" data in Err (KDevice (Some DEVICE_BLOCKED))
                         else Err (KAuth None)
             | None => Err (KAuth None)
             end
           else Err (KAuth None)
         else
           let! r := jitem "result" resp in
           let! d := jitem "data" r in
           let! sn := jitem "nonce" d in
           let! dc := jitem "device_confirm" d in
           match sn with
           | JStr server =>
               let matches ph := match dc with JStr s => String.eqb s (confirm_hash local server ph) | _ => false end in
               let h1 := sha256_hex (lit (pwd_to_hash t)) in
               let h2 := md5_hex (lit (pwd_to_hash t)) in
               if matches h1 then Ok (Some (local, server, h1))
               else if matches h2 then Ok (Some (local, server, h2))
               else Err (KAuth None)
           | _ => Err PyAttributeError
           end)
    | _, _ => (t, Err PyUnboundLocal)
    end.

(** The default user name, sslaestransport.py:522-552, after the user's reply [resp] *)
Definition try_default (w : world) (resp : option json) (code : option Z)
  : M cam (option (string * string * string)) :=
  do! dresp <- post_200 (PHello true default_user (w_n2 w)) (w_hello2 w) ;;
  do! dcode <- mlift (response_error dresp) ;;
  do! ok <- (if dcode =? INVALID_NONCE then mlift (has_nonce dresp) else mret false) ;;
  if ok then
    fun t => finish1 (Some dresp) (Some dcode) (w_n2 w) (set_user default_user t)
  else
    do! less <- mlift (is_less_secure dresp) ;;
    do! logged <- (if less then fun t => less_secure_login true default_user (pwd_to_hash t) (w_plain2 w) t else mret false) ;;
    if logged then fun t => (set_st ESTABLISHED (set_user default_user t), Ok None)
    else finish1 resp code (w_n2 w).

(** perform_handshake1, 504-614 *)
Definition handshake1 (w : world) : M cam (option (string * string * string)) := fun t =>
  match user t with
  | Some u =>
      if String.eqb u "" then try_default w None None t
      else
        (do! resp <- post_200 (PHello false u (w_n1 w)) (w_hello w) ;;
         if truthy resp then
           do! less <- mlift (is_less_secure resp) ;;
           do! logged <-
             (if less then
                do! inner <- mlift (inner_error resp) ;;
                if match inner with Some c => c =? BAD_USERNAME | None => false end then mret false
                else fun t => less_secure_login false u (pwd_to_hash t) (w_plain w) t
              else mret false) ;;
           if logged then fun t => (set_st ESTABLISHED t, Ok None)
           else
             do! code <- mlift (response_error resp) ;;
             do! again <- (if negb (code =? INVALID_NONCE) then mret true
                           else do! h <- mlift (has_nonce resp) ;; mret (negb h)) ;;
             if again then try_default w (Some resp) (Some code)
             else finish1 (Some resp) (Some code) (w_n1 w)
         else try_default w (Some resp) None) t
  | None => try_default w None None t
  end.

(** perform_handshake2, 429-477.  A start_seq that is not an integer is not
    modelled (treated as TypeError). *)
Definition handshake2 (w : world) (local server pwd : string) : M cam unit := fun t =>
  (do! resp <- post_200 (PProof (user t) local (digest_password local server pwd)) (w_proof w) ;;
   do! code <- mlift (response_error resp) ;;
   if code =? INVALID_NONCE then mfail (KAuth None)
   else
     do! _ <- handle_code resp ;;
     do! sq <- mlift (let! r := jitem "result" resp in jitem "start_seq" r) ;;
     match sq with
     | JInt z =>
         do! _ <- (fun t => (mkCam (st t) (secure t) (user t) (url t) (Some z) (sess t) (pwdh t) (nonce t) (log t), Ok tt)) ;;
         do! stok <- mlift (let! r := jitem "result" resp in jitem "stok" r) ;;
         fun t => (mkCam ESTABLISHED (secure t) (user t) (Some (str_json stok)) (Some z)
                         (Some (encryption_token "lsk" local server pwd, encryption_token "ivb" local server pwd))
                         (Some pwd) (Some local) (log t), Ok tt)
     | _ => mfail PyTypeError
     end) t.

(** perform_handshake, sslaestransport.py:382-387 *)
Definition handshake (w : world) : M cam unit :=
  do! r <- handshake1 w ;;
  match r with
  | Some (local, server, pwd) => handshake2 w local server pwd
  | None => mret tt
  end.

(** Reading the answer, sslaestransport.py:283-306 *)
Definition read_answer (s : bytes * bytes) (resp : json) : res json :=
  match resp with
  | JObj d =>
      match dget "result" d with
      | None => Ok resp
      | Some result =>
          let! has := jcontains "response" result in
          if has then
            let! raw := jitem "response" result in
            match raw with
            | JStr raw =>
                let plain := match json_loads (lit raw) with Some j => Ok j | None => Err KKasa end in
                match Aes_Model.aes_decrypt dec_block s (lit raw) with
                | Ok text => match json_loads text with Some j => Ok j | None => plain end
                | Err _ => plain
                end
            | _ => Err KKasa
            end
          else Ok resp
      end
  | _ => Err PyTypeError
  end.

(** send_secure_passthrough, sslaestransport.py:213-306 *)
Definition send_secure (w : world) (request : bytes) : M cam json := fun t =>
  let u := match st t with ESTABLISHED => url t | _ => None end in
  match sess t with
  | None => (t, Err PyAttributeError)
  | Some s =>
      match Aes_Model.aes_encrypt enc_block s request with
      | Err e => (t, Err e)
      | Ok payload =>
          match nonce t, pwdh t, seq t with
          | Some n, Some p, Some q =>
              let body := wrap payload in
              let t1 := mkCam (st t) (secure t) (user t) (url t) (Some (q + 1)) (sess t) (pwdh t) (nonce t)
                              (log t ++ [PSecure u payload q (tag_of body n p q)]) in
              match w_req w with
              | Err e => (t1, Err e)
              | Ok (status, resp) =>
                  if status =? 500 then
                    (* resp.get("result", {}).get("response") may itself fail *)
                    (t1, match resp with
                         | JObj _ => let! r := jget_dict "result" resp in let! _ := jget "response" r in Err (KRetry None)
                         | _ => Err (KRetry None)
                         end)
                  else if negb (status =? 200) then (t1, Err KKasa)
                  else mbind (handle_code resp) (fun _ => mlift (read_answer s resp)) t1
              end
          | _, _, _ => (t, Err PyTypeError)
          end
      end
  end.

(** send_unencrypted, sslaestransport.py:308-334 *)
Definition send_open (w : world) (request : bytes) : M cam json := fun t =>
  (do! resp <- post_200 (POpen (url t) request) (w_req w) ;;
   do! _ <- handle_code resp ;; mret resp) t.

(** send, sslaestransport.py:647-655 *)
Definition send (w : world) (request : bytes) : M cam json :=
  do! _ <- (fun t => match st t with HANDSHAKE_REQUIRED => handshake w t | ESTABLISHED => (t, Ok tt) end) ;;
  fun t => if secure t then send_secure w request t else send_open w request t.

(** reset, sslaestransport.py:662-668, and close *)
Definition reset (t : cam) : cam :=
  mkCam HANDSHAKE_REQUIRED (secure t) (user t) (url t) (Some 0) None None None (log t).

Inductive event := ESend (w : world) (request : bytes) | EReset.
Definition step (t : cam) (e : event) : cam * list post * option (res json) :=
  match e with
  | ESend w request =>
      let (t', r) := send w request t in
      (mkCam (st t') (secure t') (user t') (url t') (seq t') (sess t') (pwdh t') (nonce t') [], log t', Some r)
  | EReset => (reset t, [], None)
  end.
Fixpoint run (t : cam) (es : list event) : cam * list (list post * option (res json)) :=
  match es with
  | [] => (t, [])
  | e :: es' =>
      let '(t1, p, r) := step t e in
      let (t2, out) := run t1 es' in (t2, (p, r) :: out)
  end.
End Cam.

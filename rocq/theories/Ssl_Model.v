(** The transport of vacuums: kasa/transports/ssltransport.py.  No proofs. *)
From Verif Require Import Base Py Codes_Model.
Open Scope string_scope.
Open Scope list_scope.
Open Scope Z_scope.

(** TransportState, ssltransport.py:46-50 *)
Inductive tstate := LOGIN_REQUIRED | ESTABLISHED.
(** What is posted, with the token in the URL: a login with the user's or with the default
    parameters, or a request.  The parameters themselves are left out. *)
Inductive post :=
| PLogin (default : bool) (token : option json)
| PRequest (token : option json) (request : string).
(** _state, _session_expire_at, the token in _app_url, and the posts made (not in the code) *)
Record ssl := mkSsl { st : tstate; expire_at : option Z; url_token : option json; log : list post }.
(** __init__, ssltransport.py:65-92 *)
Definition init : ssl := mkSsl LOGIN_REQUIRED None None [].
(** reset, ssltransport.py:232-235; close does the same *)
Definition reset (t : ssl) : ssl := mkSsl LOGIN_REQUIRED (expire_at t) None (log t).

(** A reply: an exception of the HTTP client, or status and parsed body *)
Definition reply := res (Z * json).
(** The world during one send: the clock at its start, the replies to the login with the user's
    and with the default parameters, each with the clock after it, and to the request *)
Record world := mkW { w_now : Z; w_login : reply; w_login_at : Z; w_login2 : reply; w_login2_at : Z; w_req : reply }.

(** SmartErrorCode(v), exceptions.py:62-72: unlike from_int with its handler, any value that is no
    member is a ValueError.  Floats are taken to be none. *)
Definition smart_error_code (v : json) : res Z :=
  match v with
  | JInt z => if zmem z smart_error_codes then Ok z else Err PyValueError
  | JBool false => Ok 0
  | _ => Err PyValueError
  end.
(** _handle_response_error_code, ssltransport.py:118-133 *)
Definition handle_code (resp : json) : M ssl unit := fun t =>
  match (let! raw := jget "error_code" resp in smart_error_code raw) with
  | Err e => (t, Err e)
  | Ok c =>
      if c =? 0 then (t, Ok tt)
      else if zmem c smart_retryable_errors then (t, Err (KRetry (Some c)))
      else if zmem c smart_authentication_errors then (reset t, Err (KAuth (Some c)))
      else (t, Err (KDevice (Some c)))
  end.
(** send_request, ssltransport.py:135-160 *)
Definition send_request (mk : option json -> post) (r : reply) : M ssl json := fun t =>
  let t1 := mkSsl (st t) (expire_at t) (url_token t) (log t ++ [mk (url_token t)]) in
  match r with
  | Err e => (t1, Err e)
  | Ok (status, resp) =>
      if negb (status =? 200) then (t1, Err KKasa)
      else (do! _ <- handle_code resp ;; mret resp) t1
  end.
(** try_login, ssltransport.py:192-209, with 86400 - 20 * 60 seconds.  The token is taken to make
    a valid URL. *)
Definition try_login (default : bool) (r : reply) (at_ : Z) : M ssl unit :=
  do! resp <- send_request (PLogin default) r ;;
  do! _ <- handle_code resp ;;
  do! tok <- mlift (let! result := jitem "result" resp in jitem "token" result) ;;
  fun t => (mkSsl ESTABLISHED (Some (at_ + 86400 - 1200)) (Some tok) (log t), Ok tt).
(** perform_login, ssltransport.py:162-190 *)
Definition perform_login (w : world) : M ssl unit := fun t =>
  match try_login false (w_login w) (w_login_at w) t with
  | (t1, Err (KAuth (Some c))) =>
      if c =? -1501 then
        match try_login true (w_login2 w) (w_login2_at w) t1 with
        | (t2, Err (KAuth c2)) => (t2, Err (KAuth c2))
        | (t2, Err Cancelled) => (t2, Err Cancelled)
        | (t2, Err _) => (t2, Err KKasa)
        | r => r
        end
      else (t1, Err (KAuth (Some c)))
  | r => r
  end.
(** _session_expired, ssltransport.py:211-216 *)
Definition session_expired (t : ssl) (now : Z) : bool :=
  match expire_at t with None => true | Some e => e - now <=? 0 end.
(** send, ssltransport.py:218-225 *)
Definition send (w : world) (request : string) : M ssl json := fun t =>
  let login := match st t with ESTABLISHED => session_expired t (w_now w) | _ => true end in
  match (if login then perform_login w t else (t, Ok tt)) with
  | (t1, Err e) => (t1, Err e)
  | (t1, Ok _) => send_request (fun tok => PRequest tok request) (w_req w) t1
  end.

Inductive event := ESend (w : world) (request : string) | EReset.
(** One event; the posts it made are returned and cleared *)
Definition step (t : ssl) (e : event) : ssl * list post * option (res json) :=
  match e with
  | ESend w request =>
      let (t', r) := send w request t in
      (mkSsl (st t') (expire_at t') (url_token t') [], log t', Some r)
  | EReset => (reset t, [], None)
  end.
Fixpoint run (t : ssl) (es : list event) : ssl * list (list post * option (res json)) :=
  match es with
  | [] => (t, [])
  | e :: es' =>
      let '(t1, p, r) := step t e in
      let (t2, out) := run t1 es' in (t2, (p, r) :: out)
  end.

(** Specification vocabulary for the AES transport (C15, C16): what an observer
    of the posts and replies knows about the session. *)
From Verif Require Import Base Py Codes_Model Crypto_Model Aes_Model.
From Verif Require Klap_Model.
Open Scope Z_scope.

(** ** Reading replies *)

(** The error code of a reply that is a JSON object. *)
Definition code_in (j : json) : option Z :=
  match j with
  | JObj d => match error_code_of (match dget "error_code" d with Some v => v | None => JNull end) with
              | Ok c => Some c | Err _ => None end
  | _ => None
  end.
Definition field (k : string) (j : json) : option json :=
  match j with JObj d => dget k d | _ => None end.
Definition field2 (k1 k2 : string) (j : json) : option json :=
  match field k1 j with Some v => field k2 v | None => None end.

Definition auth_code (c : Z) : bool := zmem c smart_authentication_errors && negb (zmem c smart_retryable_errors).

Definition granted (t : timeout_cookie) : option Z :=
  match t with
  | Klap_Model.NoTimeout => Some 86400
  | Klap_Model.BadTimeout => None
  | Klap_Model.Timeout z => Some z
  end.

(** What a completed handshake grants. *)
Record grant := mkGrant { g_sess : bytes * bytes; g_cookie : option string; g_exp : Z }.

Section Spec.
Variables enc_block dec_block : bytes -> bytes -> bytes.
Variable json_loads : bytes -> option json.
Variable open_key : json -> res bytes.
Variable login_text : bool -> bytes.

(** The key field of a handshake reply that reports success. *)
Definition offered_key (h : hs_reply) : option json :=
  match hs_post h with
  | Ok (status, resp) =>
      if status =? 200 then
        match code_in resp with Some 0 => field2 "result" "key" resp | _ => None end
      else None
  | Err _ => None
  end.
Definition usable (key : json) : option (bytes * bytes) :=
  match open_key key with
  | Ok kv => if Nat.eqb (length kv) 32 then Some (firstn 16 kv, skipn 16 kv) else None
  | Err _ => None
  end.
Definition grant_of (h : hs_reply) : option grant :=
  match offered_key h, granted (hs_timeout h) with
  | Some key, Some secs =>
      match usable key with
      | Some s => Some (mkGrant s (hs_cookie h) (hs_now h + secs - 1200))
      | None => None
      end
  | _, _ => None
  end.
(** Every key the device offers can be used. *)
Definition keys_usable (h : hs_reply) : Prop := forall key, offered_key h = Some key -> usable key <> None.

(** The answer inside a passthrough reply: its text decrypted with the session's
    key if that gives JSON, else its text as it stands. *)
Definition answer (s : bytes * bytes) (resp : json) : option json :=
  match field2 "result" "response" resp with
  | Some (JStr raw) =>
      match aes_decrypt dec_block s (lit raw) with
      | Ok text => match json_loads text with Some j => Some j | None => json_loads (lit raw) end
      | Err _ => json_loads (lit raw)
      end
  | _ => None
  end.

(** How a login reply reads under a session. *)
Inductive verdict := LToken (tok : json) | LAuth (code : option Z) | LFail.
Definition login_verdict (s : bytes * bytes) (r : reply) : verdict :=
  match r with
  | Err (KAuth c) => LAuth c
  | Err _ => LFail
  | Ok (status, resp) =>
      if negb (status =? 200) then LFail
      else match code_in resp with
      | Some 0 =>
          match answer s resp with
          | Some j =>
              match code_in j with
              | Some 0 => match field2 "result" "token" j with Some tok => LToken tok | None => LFail end
              | Some c => if auth_code c then LAuth (Some c) else LFail
              | None => LFail
              end
          | None => LFail
          end
      | Some c => if auth_code c then LAuth (Some c) else LFail
      | None => LFail
      end
  end.

(** ** The observer *)
Inductive ostate := ONone | OShaken (g : grant) | OLive (g : grant) (tok : json).
Record obs := mkObs {
  o_st : ostate;
  o_shook : bool;              (* a handshake took place during this send *)
  o_login : option verdict;    (* how the user's login of this send was answered *)
  o_sent : bool }.             (* the request of this send was posted *)

Definition refused (r : reply) : bool :=
  match r with
  | Ok (status, resp) =>
      (status =? 200) && match code_in resp with Some c => auth_code c | None => false end
  | Err _ => false
  end.

Definition obs_post (w : world) (o : obs) (p : post) : obs :=
  match p with
  | PHandshake =>
      mkObs (match grant_of (match o_login o with None => w_hs w | Some _ => w_hs2 w end) with
             | Some g => OShaken g | None => ONone end) true (o_login o) (o_sent o)
  | PLogin default _ _ _ =>
      match o_st o with
      | OShaken g =>
          let v := login_verdict (g_sess g) (if default then w_login2 w else w_login w) in
          mkObs (match v with LToken tok => OLive g tok | LAuth _ => ONone | LFail => OShaken g end)
                (o_shook o) (if default then o_login o else Some v) (o_sent o)
      | _ => o
      end
  | PRequest _ _ _ =>
      mkObs (if refused (w_req w) then ONone else o_st o) (o_shook o) (o_login o) true
  end.
Definition obs_start (s : ostate) : obs := mkObs s false None false.
Definition obs_posts (w : world) (s : ostate) (ps : list post) : obs := fold_left (obs_post w) ps (obs_start s).

(** What is known after a history of events with their posts. *)
Definition known_step (s : ostate) (ep : event * list post) : ostate :=
  match ep with
  | (EReset, _) => ONone
  | (ESend w _, ps) => o_st (obs_posts w s ps)
  end.
Definition known_after (h : list (event * list post)) : ostate := fold_left known_step h ONone.

(** ** What may be posted *)
Definition expires (s : ostate) : option Z :=
  match s with ONone => None | OShaken g | OLive g _ => Some (g_exp g) end.
(** The session may be used: it was made during this send or has not expired. *)
Definition current (w : world) (g : grant) (o : obs) : Prop := o_shook o = true \/ w_now w < g_exp g.

Definition may_post (w : world) (request : bytes) (o : obs) (p : post) : Prop :=
  o_sent o = false /\
  match p with
  | PHandshake =>
      (* at the start without a usable session, or after the login was refused *)
      (o_login o = None /\ o_shook o = false /\
       match expires (o_st o) with Some e => e <= w_now w | None => True end) \/
      o_login o = Some (LAuth (Some (-1501)))
  | PLogin default tok ck payload =>
      (* inside a handshake, without token; default credentials only after the
         user's were refused with a login error *)
      exists g, o_st o = OShaken g /\ current w g o /\ tok = None /\ ck = g_cookie g /\
        aes_decrypt dec_block (g_sess g) payload = Ok (login_text default) /\
        (if default then o_login o = Some (LAuth (Some (-1501))) else o_login o = None)
  | PRequest tok ck payload =>
      (* after a login, with its token *)
      exists g t, o_st o = OLive g t /\ current w g o /\ tok = Some t /\ ck = g_cookie g /\
        aes_decrypt dec_block (g_sess g) payload = Ok request
  end.
Definition lawful (w : world) (request : bytes) (s : ostate) (ps : list post) : Prop :=
  forall pre p post, ps = pre ++ p :: post -> may_post w request (obs_posts w s pre) p.

(** How the reply [r] to a request made under session [s] is reported. *)
Definition reply_outcome (s : bytes * bytes) (r : reply) (out : res json) : Prop :=
  match r with
  | Err e => out = Err e
  | Ok (status, resp) =>
      if status =? 200 then
        match code_in resp with
        | Some 0 => match answer s resp with Some j => out = Ok j | None => exists e, out = Err e end
        | Some c => if auth_code c then out = Err (KAuth (Some c)) else exists e, out = Err e
        | None => exists e, out = Err e
        end
      else out = Err KKasa
  end.
End Spec.

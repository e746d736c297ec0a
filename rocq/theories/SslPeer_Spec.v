(** A vacuum that speaks the token protocol, and what it and the client do together (C111).  The
    device is specification, not part of the library: it is written from the protocol alone. *)
From Verif Require Import Base Py Codes_Model Crypto_Model Ssl_Model.
Open Scope Z_scope.

(** A session as the device keeps it: the token that names it and the time it ends. *)
Record dsession := mkD { ds_token : string; ds_until : Z }.
(** [S]: the state of what the device is for. *)
Record device (S : Type) := mkDev { dv_sessions : list dsession; dv_state : S }.
Arguments mkDev {S} _ _. Arguments dv_sessions {S} _. Arguments dv_state {S} _.

(** What happens to one HTTP request. *)
Inductive fate := Answered | NotArrived (e : exn) | AnswerLost (e : exn).
(** What the device and the network choose: for a login the token, how long the session lasts and
    the device's clock; for a request the clock. *)
Record login := mkLogin { l_token : string; l_life : Z; l_time : Z; l_fate : fate }.
Record pass := mkPass { p_time : Z; p_fate : fate }.
Record choice := mkChoice { h_login : login; h_login2 : login; h_request : pass }.

Section Peer.
Variable json_loads : bytes -> option json.
Variable S : Type.
(** What the device does with a request, and answers. *)
Variable app : S -> bytes -> S * bytes.
(** Whether the device accepts the user's ([false]) and the default ([true]) parameters. *)
Variable accepts : bool -> bool.

Definition lost (f : fate) (d : device S) (o : device S * res (Z * json)) : device S * res (Z * json) :=
  match f with
  | Answered => o
  | NotArrived e => (d, Err e)
  | AnswerLost e => (fst o, Err e)
  end.
Definition at_token (k : string) (d : device S) : option dsession :=
  find (fun x => String.eqb (ds_token x) k) (dv_sessions d).
(** A session by the same token is replaced. *)
Definition put_session (x : dsession) (d : device S) : device S :=
  mkDev (x :: filter (fun y => negb (String.eqb (ds_token y) (ds_token x))) (dv_sessions d)) (dv_state d).

(** A login is one whatever token the URL still carries. *)
Definition on_login (h : login) (default : bool) (d : device S) : device S * res (Z * json) :=
  lost (l_fate h) d
    (if accepts default
     then (put_session (mkD (l_token h) (l_time h + l_life h)) d,
           Ok (200, JObj [("error_code", JInt 0); ("result", JObj [("token", JStr (l_token h))])]%string))
     else (d, Ok (200, JObj [("error_code", JInt (-1501))]%string))).

(** The HTTP client parses the text of an answer. *)
Definition heard (answer : bytes) : res (Z * json) :=
  match json_loads answer with Some j => Ok (200, j) | None => Err KKasa end.
(** Session timeout *)
Definition no_session : res (Z * json) := Ok (200, JObj [("error_code", JInt 9999)]%string).
Definition on_request (h : pass) (tok : option json) (m : bytes) (d : device S) : device S * res (Z * json) :=
  lost (p_fate h) d
    match tok with
    | Some (JStr given) =>
        match at_token given d with
        | Some x =>
            if p_time h <? ds_until x
            then let (s', answer) := app (dv_state d) m in (mkDev (dv_sessions d) s', heard answer)
            else (d, no_session)
        | None => (d, no_session)
        end
    | _ => (d, no_session)
    end.

(** The posts of one send as the device meets them; [w] holds what the client got back. *)
Inductive served (h : choice) (w : world) : device S -> list post -> device S -> Prop :=
| served_nil d : served h w d [] d
| served_login d d1 d' (default : bool) tok p :
    on_login (if default then h_login2 h else h_login h) default d =
      (d1, if default then w_login2 w else w_login w) ->
    served h w d1 p d' -> served h w d (PLogin default tok :: p) d'
| served_req d d1 d' tok request p :
    on_request (h_request h) tok (list_ascii_of_string request) d = (d1, w_req w) ->
    served h w d1 p d' -> served h w d (PRequest tok request :: p) d'.
End Peer.

(** What happens to a client and a device. *)
Inductive happening (S : Type) :=
| HSend (h : choice) (w : world) (m : bytes)
| HReset
| HDevice (f : S -> S)
| HForget (keep : string -> bool).
Arguments HSend {S} _ _ _. Arguments HReset {S}. Arguments HDevice {S} _. Arguments HForget {S} _.

Section Together.
Variable json_loads : bytes -> option json.
Variable S : Type.
Variable app : S -> bytes -> S * bytes.
Variable accepts : bool -> bool.

(** The device accepts the client's login or the default one. *)
Definition knows : Prop := accepts false = true \/ accepts true = true.

Definition cleared (t : ssl) : ssl := mkSsl (st t) (expire_at t) (url_token t) [].

Inductive together : ssl * device S -> list (happening S) -> ssl * device S ->
                     list (bytes * S * S * res json) -> Prop :=
| together_nil x : together x [] x []
| together_send t d t1 d1 x h w m r es outs :
    send w (string_of_list_ascii m) (cleared t) = (t1, r) ->
    served json_loads S app accepts h w d (log t1) d1 ->
    together (t1, d1) es x outs ->
    together (t, d) (HSend h w m :: es) x ((m, dv_state d, dv_state d1, r) :: outs)
| together_reset t d x es outs :
    together (reset t, d) es x outs -> together (t, d) (HReset :: es) x outs
| together_device t d f x es outs :
    together (t, mkDev (dv_sessions d) (f (dv_state d))) es x outs ->
    together (t, d) (HDevice f :: es) x outs
| together_forget t d keep x es outs :
    together (t, mkDev (filter (fun x => keep (ds_token x)) (dv_sessions d)) (dv_state d)) es x outs ->
    together (t, d) (HForget keep :: es) x outs.

(** What a caller makes of the answer of the device: this transport turns the code in an answer into
    an exception itself. *)
Definition understood (answer : bytes) : res json :=
  match json_loads answer with
  | None => Err KKasa
  | Some (JObj d) =>
      match dget "error_code" d with
      | Some (JInt c) =>
          if negb (zmem c smart_error_codes) then Err PyValueError
          else if c =? 0 then Ok (JObj d)
          else if zmem c smart_retryable_errors then Err (KRetry (Some c))
          else if zmem c smart_authentication_errors then Err (KAuth (Some c))
          else Err (KDevice (Some c))
      | Some (JBool false) => Ok (JObj d)
      | _ => Err PyValueError
      end
  | Some _ => Err PyAttributeError
  end.

(** Nothing goes wrong in this send: every request is answered, no more than ten minutes go by
    between a clock reading of one side and that of the other, and sessions last a day. *)
Definition healthy_login (w : world) (l : login) (at_ : Z) : Prop :=
  l_fate l = Answered /\ w_now w <= l_time l /\ at_ - l_time l <= 600 /\ 86400 <= l_life l.
Definition healthy (h : choice) (w : world) : Prop :=
  healthy_login w (h_login h) (w_login_at w) /\ healthy_login w (h_login2 h) (w_login2_at w) /\
  p_fate (h_request h) = Answered /\ p_time (h_request h) - w_now w <= 600.
Definition all_healthy (es : list (happening S)) : Prop :=
  Forall (fun e => match e with HSend h w _ => healthy h w | HForget _ => False | _ => True end) es.

(** The same calls made directly on what the device is for. *)
Fixpoint directly (s : S) (es : list (happening S)) : S * list (res json) :=
  match es with
  | [] => (s, [])
  | HSend _ _ m :: es' =>
      let (s1, answer) := app s m in
      let (s2, rs) := directly s1 es' in (s2, understood answer :: rs)
  | HDevice f :: es' => directly (f s) es'
  | _ :: es' => directly s es'
  end.
End Together.

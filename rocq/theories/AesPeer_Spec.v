(** A device that speaks the AES protocol, and what it and the client do together (C108).  The
    device is specification, not part of the library: it is written from the protocol alone. *)
From Verif Require Import Base Crypto_Model Aes_Model.
From Verif Require Klap_Model.
Open Scope Z_scope.

(** A session as the device keeps it: the cookie that names it, key and IV, the token given out at
    login, and the time it ends. *)
Record dsession := mkD {
  ds_cookie : string; ds_key : bytes * bytes; ds_token : option string; ds_until : Z }.
(** [S]: the state of what the device is for. *)
Record device (S : Type) := mkDev { dv_sessions : list dsession; dv_state : S }.
Arguments mkDev {S} _ _. Arguments dv_sessions {S} _. Arguments dv_state {S} _.

(** What happens to one HTTP request. *)
Inductive fate := Answered | NotArrived (e : exn) | AnswerLost (e : exn).
(** What the device and the network choose: for a handshake the key, its encrypted form, cookie,
    life time and the device's clock; for a passthrough the clock and the token a login yields. *)
Record shake := mkShake {
  k_key : bytes; k_wrapped : json; k_cookie : string; k_life : Z; k_time : Z; k_fate : fate }.
Record pass := mkPass { p_time : Z; p_token : string; p_fate : fate }.
Record choice := mkChoice {
  h_shake : shake; h_login : pass; h_shake2 : shake; h_login2 : pass; h_request : pass }.

Section Peer.
Variables enc_block dec_block : bytes -> bytes -> bytes.
Variable json_loads : bytes -> option json.
Variable S : Type.
(** What the device does with a request, and answers. *)
Variable app : S -> bytes -> S * bytes.
(** Which login texts the device accepts, and the texts it answers a login with. *)
Variable accepts : bytes -> bool.
Variable welcome : string -> bytes.
Variable refusal : bytes.

Definition lost {A} (f : fate) (d : device S) (o : device S * A) : device S * res A :=
  match f with
  | Answered => (fst o, Ok (snd o))
  | NotArrived e => (d, Err e)
  | AnswerLost e => (fst o, Err e)
  end.
Definition at_cookie (k : string) (d : device S) : option dsession :=
  find (fun x => String.eqb (ds_cookie x) k) (dv_sessions d).
(** A session by the same cookie is replaced. *)
Definition put_session (x : dsession) (d : device S) : device S :=
  mkDev (x :: filter (fun y => negb (String.eqb (ds_cookie y) (ds_cookie x))) (dv_sessions d)) (dv_state d).

Definition on_handshake (h : shake) (d : device S) : device S * res (Z * json) :=
  lost (k_fate h) d
    (put_session (mkD (k_cookie h) (firstn 16 (k_key h), skipn 16 (k_key h)) None (k_time h + k_life h)) d,
     (200, JObj [("error_code", JInt 0); ("result", JObj [("key", k_wrapped h)])]%string)).

(** Reading a passthrough and writing the answer. *)
Definition opened (x : dsession) (payload : bytes) : option bytes :=
  match b64decode payload with
  | Ok ct =>
      match cbc_decrypt dec_block (fst (ds_key x)) (snd (ds_key x)) ct with
      | Ok padded => match pkcs7_unpad padded with Ok m => Some m | Err _ => None end
      | Err _ => None
      end
  | Err _ => None
  end.
Definition sealed (x : dsession) (answer : bytes) : json :=
  match cbc_encrypt enc_block (fst (ds_key x)) (snd (ds_key x)) (pkcs7_pad answer) with
  | Ok ct => JObj [("error_code", JInt 0);
                   ("result", JObj [("response", JStr (string_of_list_ascii (b64encode ct)))])]%string
  | Err _ => JNull
  end.
(** Session timeout *)
Definition no_session : Z * json := (200, JObj [("error_code", JInt 9999)]%string).

(** Without a token the device takes the text for a login, with the token of the session for a
    request; a session that is unknown or over, and a wrong token, are session timeouts. *)
Definition on_pass (h : pass) (tok : option json) (ck : option string) (payload : bytes) (d : device S)
  : device S * res (Z * json) :=
  lost (p_fate h) d
    match ck with
    | Some k =>
        match at_cookie k d with
        | Some x =>
            if p_time h <? ds_until x then
              match opened x payload with
              | Some m =>
                  match tok with
                  | None =>
                      if accepts m
                      then (put_session (mkD k (ds_key x) (Some (p_token h)) (ds_until x)) d,
                            (200, sealed x (welcome (p_token h))))
                      else (d, (200, sealed x refusal))
                  | Some (JStr given) =>
                      if match ds_token x with Some tk => String.eqb tk given | None => false end
                      then let (s', answer) := app (dv_state d) m in
                           (mkDev (dv_sessions d) s', (200, sealed x answer))
                      else (d, no_session)
                  | Some _ => (d, no_session)
                  end
              | None => (d, no_session)
              end
            else (d, no_session)
        | None => (d, no_session)
        end
    | None => (d, no_session)
    end.

(** The posts of one send as the device meets them; [w] holds what the client got back.
    [logged]: a login has been posted, so that the next handshake is the second one. *)
Inductive served (h : choice) (w : world) : bool -> device S -> list post -> device S -> Prop :=
| served_nil b d : served h w b d [] d
| served_hs (b : bool) d d1 d' p :
    on_handshake (if b then h_shake2 h else h_shake h) d =
      (d1, hs_post (if b then w_hs2 w else w_hs w)) ->
    served h w b d1 p d' -> served h w b d (PHandshake :: p) d'
| served_login b d d1 d' (default : bool) tok ck payload p :
    on_pass (if default then h_login2 h else h_login h) tok ck payload d =
      (d1, if default then w_login2 w else w_login w) ->
    served h w true d1 p d' -> served h w b d (PLogin default tok ck payload :: p) d'
| served_req b d d1 d' tok ck payload p :
    on_pass (h_request h) tok ck payload d = (d1, w_req w) ->
    served h w b d1 p d' -> served h w b d (PRequest tok ck payload :: p) d'.

(** The rest of what the client sees of a handshake, and that it can open the key. *)
Variable open_key : json -> res bytes.
Definition meets_hs (k : shake) (r : hs_reply) : Prop :=
  length (k_key k) = 32%nat /\ open_key (k_wrapped k) = Ok (k_key k) /\
  hs_cookie r = Some (k_cookie k) /\ hs_timeout r = Klap_Model.Timeout (k_life k).
Definition meets (h : choice) (w : world) : Prop :=
  meets_hs (h_shake h) (w_hs w) /\ meets_hs (h_shake2 h) (w_hs2 w).
End Peer.

(** What happens to a client and a device. *)
Inductive happening (S : Type) :=
| HSend (h : choice) (w : world) (m : bytes)
| HReset
| HDevice (f : S -> S)
| HForget (keep : string -> bool).
Arguments HSend {S} _ _ _. Arguments HReset {S}. Arguments HDevice {S} _. Arguments HForget {S} _.

Section Together.
Variables enc_block dec_block : bytes -> bytes -> bytes.
Variable json_loads : bytes -> option json.
Variable open_key : json -> res bytes.
Variable login_text : bool -> bytes.
Variable S : Type.
Variable app : S -> bytes -> S * bytes.
Variable accepts : bytes -> bool.
Variable welcome : string -> bytes.
Variable refusal : bytes.

(** The device speaks JSON. *)
Definition speaks : Prop :=
  (forall s m, exists j, json_loads (snd (app s m)) = Some j) /\
  (forall tk, json_loads (welcome tk) =
     Some (JObj [("error_code", JInt 0); ("result", JObj [("token", JStr tk)])]%string)) /\
  json_loads refusal = Some (JObj [("error_code", JInt (-1501))]%string).
(** It accepts the client's login or the default one. *)
Definition knows : Prop := accepts (login_text false) = true \/ accepts (login_text true) = true.

Definition cleared (t : aes) : aes := mkAes (st t) (expire_at t) (sess t) (cookie t) (token t) [].

Inductive together : aes * device S -> list (happening S) -> aes * device S ->
                     list (bytes * S * S * res json) -> Prop :=
| together_nil x : together x [] x []
| together_send t d t1 d1 x h w m r es outs :
    send enc_block dec_block json_loads open_key login_text w m (cleared t) = (t1, r) ->
    served enc_block dec_block S app accepts welcome refusal h w false d (log t1) d1 ->
    meets open_key h w ->
    together (t1, d1) es x outs ->
    together (t, d) (HSend h w m :: es) x ((m, dv_state d, dv_state d1, r) :: outs)
| together_reset t d x es outs :
    together (reset t, d) es x outs -> together (t, d) (HReset :: es) x outs
| together_device t d f x es outs :
    together (t, mkDev (dv_sessions d) (f (dv_state d))) es x outs ->
    together (t, d) (HDevice f :: es) x outs
| together_forget t d keep x es outs :
    together (t, mkDev (filter (fun x => keep (ds_cookie x)) (dv_sessions d)) (dv_state d)) es x outs ->
    together (t, d) (HForget keep :: es) x outs.

(** What a caller makes of the answer of the device. *)
Definition understood (answer : bytes) : res json :=
  match json_loads answer with Some j => Ok j | None => Err KKasa end.

(** Nothing goes wrong in this send: every request is answered, no more than ten minutes go by
    between a clock reading of one side and that of the other, and sessions last longer than that. *)
Definition healthy_hs (w : world) (k : shake) (r : hs_reply) : Prop :=
  k_fate k = Answered /\ w_now w <= k_time k /\ hs_now r - k_time k <= 600 /\ 600 < k_life k.
Definition healthy_pass (w : world) (p : pass) : Prop :=
  p_fate p = Answered /\ p_time p - w_now w <= 600.
Definition healthy (h : choice) (w : world) : Prop :=
  healthy_hs w (h_shake h) (w_hs w) /\ healthy_hs w (h_shake2 h) (w_hs2 w) /\
  healthy_pass w (h_login h) /\ healthy_pass w (h_login2 h) /\ healthy_pass w (h_request h).
Definition all_healthy (es : list (happening S)) : Prop :=
  Forall (fun e => match e with HSend h w _ => healthy h w | HForget _ => False | _ => True end) es.

(** The same calls made directly on what the device is for. *)
Fixpoint directly (s : S) (es : list (happening S)) : S * list (res json) :=
  match es with
  | [] => (s, [])
  | HSend _ _ m :: es' =>
      let (s1, answer) := app s m in
      let (s2, rs) := directly s1 es' in (s2, understood answer :: rs)
  | HDevice f :: es' => directly (f s) es'
  | _ :: es' => directly s es'
  end.
End Together.

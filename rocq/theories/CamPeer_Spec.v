(** A camera that speaks the encrypted protocol, and what it and the client do together (C109).  The
    camera is specification, not part of the library: it is written from the protocol alone. *)
From Verif Require Import Base Crypto_Model Cam_Model Cam_Spec.
Open Scope string_scope.
Open Scope list_scope.
Open Scope Z_scope.

(** A session as the camera keeps it: the token that names it, key and IV, the client's nonce, and
    the number of the next request. *)
Record dsession := mkD { ds_stok : string; ds_key : bytes * bytes; ds_local : string; ds_seq : Z }.
(** [S]: the state of what the camera is for.  [dv_hello]: the last greeting, as the nonces of client
    and camera. *)
Record device (S : Type) := mkDev { dv_hello : option (string * string); dv_sessions : list dsession; dv_state : S }.
Arguments mkDev {S} _ _ _. Arguments dv_hello {S} _. Arguments dv_sessions {S} _. Arguments dv_state {S} _.

(** What happens to one HTTP request. *)
Inductive fate := Answered | NotArrived (e : exn) | AnswerLost (e : exn).
(** What the camera and the network choose. *)
Record greeting := mkGreeting { k_nonce : string; k_fate : fate }.
Record grant := mkGrant { g_stok : string; g_seq : Z; g_fate : fate }.
Record choice := mkChoice {
  h_hello : greeting; h_plain : fate; h_hello2 : greeting; h_plain2 : fate; h_proof : grant; h_request : fate }.

Section Peer.
Variables enc_block dec_block : bytes -> bytes -> bytes.
Variable json_loads : bytes -> option json.
Variables md5_hex sha256_hex : bytes -> string.
Variable sha256 : bytes -> bytes.
Variable str_int : Z -> string.
Variable wrap : bytes -> bytes.
(** The user name and the password hash the camera knows. *)
Variables user pass : string.
Variable S : Type.
(** What the camera does with a request, and answers. *)
Variable app : S -> bytes -> S * bytes.

Definition lost {A} (f : fate) (d : device S) (o : device S * A) : device S * res A :=
  match f with
  | Answered => (fst o, Ok (snd o))
  | NotArrived e => (d, Err e)
  | AnswerLost e => (fst o, Err e)
  end.
Definition at_stok (k : string) (d : device S) : option dsession :=
  find (fun x => String.eqb (ds_stok x) k) (dv_sessions d).
(** A session by the same token is replaced. *)
Definition put_session (x : dsession) (d : device S) : device S :=
  mkDev (dv_hello d) (x :: filter (fun y => negb (String.eqb (ds_stok y) (ds_stok x))) (dv_sessions d)) (dv_state d).

Definition unknown_user : json :=
  JObj [("error_code", JInt (-40401)); ("result", JObj [("data", JObj [("code", JInt (-60502))])])].
Definition confirmation (n server : string) : json :=
  JObj [("error_code", JInt (-40413));
        ("result", JObj [("data", JObj [("code", JInt (-40413)); ("encrypt_type", JArr [JStr "3"]);
           ("nonce", JStr server);
           ("device_confirm", JStr (sha256_hex (lit n ++ lit pass ++ lit server)%list ++ server ++ n)%string)])])].
Definition on_hello (h : greeting) (u n : string) (d : device S) : device S * res (Z * json) :=
  lost (k_fate h) d
    (if String.eqb u user
     then (mkDev (Some (n, k_nonce h)) (dv_sessions d) (dv_state d), (200, confirmation n (k_nonce h)))
     else (d, (200, unknown_user))).

(** The keys both sides derive. *)
Definition derived (kind n server : string) : bytes :=
  firstn 16 (sha256 (lit kind ++ lit n ++ lit server ++ lit (sha256_hex (lit n ++ lit pass ++ lit server)))).
Definition wrong_password : json := JObj [("error_code", JInt (-40413))].
Definition on_proof (h : grant) (u : option string) (n digest : string) (d : device S) : device S * res (Z * json) :=
  lost (g_fate h) d
    match dv_hello d, u with
    | Some (local, server), Some u =>
        if String.eqb u user && String.eqb n local &&
           String.eqb digest (sha256_hex (lit pass ++ lit local ++ lit server)%list ++ local ++ server)%string
        then (put_session (mkD (g_stok h) (derived "lsk" local server, derived "ivb" local server) local (g_seq h))
                (mkDev None (dv_sessions d) (dv_state d)),
              (200, JObj [("error_code", JInt 0); ("result", JObj [("stok", JStr (g_stok h)); ("start_seq", JInt (g_seq h))])]))
        else (d, (200, wrong_password))
    | _, _ => (d, (200, wrong_password))
    end.

(** Reading a passthrough and writing the answer. *)
Definition opened (x : dsession) (payload : bytes) : option bytes :=
  match b64decode payload with
  | Ok ct =>
      match cbc_decrypt dec_block (fst (ds_key x)) (snd (ds_key x)) ct with
      | Ok padded => match pkcs7_unpad padded with Ok m => Some m | Err _ => None end
      | Err _ => None
      end
  | Err _ => None
  end.
Definition sealed (x : dsession) (answer : bytes) : json :=
  match cbc_encrypt enc_block (fst (ds_key x)) (snd (ds_key x)) (pkcs7_pad answer) with
  | Ok ct => JObj [("error_code", JInt 0);
                   ("result", JObj [("response", JStr (string_of_list_ascii (b64encode ct)))])]
  | Err _ => JNull
  end.
Definition tag_for (x : dsession) (payload : bytes) (q : Z) : string :=
  sha256_hex (lit (sha256_hex (lit pass ++ lit (ds_local x))) ++ wrap payload ++ lit (str_int q)).
(** Session expired *)
Definition no_session : Z * json := (200, JObj [("error_code", JInt (-40401))]).
(** The token names the session; number and tag must be right. *)
Definition on_secure (f : fate) (url : option string) (payload : bytes) (q : Z) (tag : string) (d : device S)
  : device S * res (Z * json) :=
  lost f d
    match url with
    | Some k =>
        match at_stok k d with
        | Some x =>
            if (q =? ds_seq x) && String.eqb tag (tag_for x payload q) then
              match opened x payload with
              | Some m =>
                  let (s', answer) := app (dv_state d) m in
                  let d1 := put_session (mkD k (ds_key x) (ds_local x) (ds_seq x + 1)) d in
                  (mkDev (dv_hello d1) (dv_sessions d1) s', (200, sealed x answer))
              | None => (d, no_session)
              end
            else (d, no_session)
        | None => (d, no_session)
        end
    | None => (d, no_session)
    end.
(** Logins and requests that are not encrypted are refused. *)
Definition on_plain (f : fate) (d : device S) : device S * res (Z * json) := lost f d (d, no_session).

(** The posts of one send as the camera meets them; [w] holds what the client got back. *)
Inductive served (h : choice) (w : world) : device S -> list post -> device S -> Prop :=
| served_nil d : served h w d [] d
| served_hello d d1 d' (def : bool) u n p :
    on_hello (if def then h_hello2 h else h_hello h) u n d = (d1, if def then w_hello2 w else w_hello w) ->
    served h w d1 p d' -> served h w d (PHello def u n :: p) d'
| served_plain d d1 d' (def : bool) u ph p :
    on_plain (if def then h_plain2 h else h_plain h) d = (d1, if def then w_plain2 w else w_plain w) ->
    served h w d1 p d' -> served h w d (PPlainLogin def u ph :: p) d'
| served_proof d d1 d' u n digest p :
    on_proof (h_proof h) u n digest d = (d1, w_proof w) ->
    served h w d1 p d' -> served h w d (PProof u n digest :: p) d'
| served_secure d d1 d' url payload q tag p :
    on_secure (h_request h) url payload q tag d = (d1, w_req w) ->
    served h w d1 p d' -> served h w d (PSecure url payload q tag :: p) d'
| served_open d d1 d' url m p :
    on_plain (h_request h) d = (d1, w_req w) ->
    served h w d1 p d' -> served h w d (POpen url m :: p) d'.
End Peer.

(** What happens to a client and a camera. *)
Inductive happening (S : Type) :=
| HSend (h : choice) (w : world) (m : bytes)
| HReset
| HDevice (f : S -> S)
| HForget (keep : string -> bool).
Arguments HSend {S} _ _ _. Arguments HReset {S}. Arguments HDevice {S} _. Arguments HForget {S} _.

Section Together.
Variables enc_block dec_block : bytes -> bytes -> bytes.
Variable json_loads : bytes -> option json.
Variables md5_hex sha256_hex : bytes -> string.
Variable sha256 : bytes -> bytes.
Variable str_int : Z -> string.
Variable str_json : json -> string.
Variable wrap : bytes -> bytes.
Variable cfg : config.
Variables user pass : string.
Variable S : Type.
Variable app : S -> bytes -> S * bytes.

(** The camera speaks JSON. *)
Definition speaks : Prop := forall s m, exists j, json_loads (snd (app s m)) = Some j.
(** It was set up with the user's password and user name, or the default user name. *)
Definition knows : Prop :=
  user <> "" /\ (user_name cfg = Some user \/ user = "admin") /\
  (pass = sha256_hex (lit (secret cfg)) \/ pass = md5_hex (lit (secret cfg))).

Definition cleared (t : cam) : cam :=
  mkCam (st t) (secure t) (Cam_Model.user t) (url t) (seq t) (sess t) (pwdh t) (nonce t) [].

Inductive together : cam * device S -> list (happening S) -> cam * device S ->
                     list (bytes * S * S * res json) -> Prop :=
| together_nil x : together x [] x []
| together_send t d t1 d1 x h w m r es outs :
    send enc_block dec_block json_loads md5_hex sha256_hex sha256 str_int str_json wrap cfg w m (cleared t) = (t1, r) ->
    served enc_block dec_block sha256_hex sha256 str_int wrap user pass S app h w d (log t1) d1 ->
    together (t1, d1) es x outs ->
    together (t, d) (HSend h w m :: es) x ((m, dv_state d, dv_state d1, r) :: outs)
| together_reset t d x es outs :
    together (reset t, d) es x outs -> together (t, d) (HReset :: es) x outs
| together_device t d f x es outs :
    together (t, mkDev (dv_hello d) (dv_sessions d) (f (dv_state d))) es x outs ->
    together (t, d) (HDevice f :: es) x outs
| together_forget t d keep x es outs :
    together (t, mkDev None (filter (fun x => keep (ds_stok x)) (dv_sessions d)) (dv_state d)) es x outs ->
    together (t, d) (HForget keep :: es) x outs.

(** What a caller makes of the answer of the camera. *)
Definition understood (answer : bytes) : res json :=
  match json_loads answer with Some j => Ok j | None => Err KKasa end.

(** Nothing goes wrong in this send: every request is answered, and in a handshake the digest tells
    the two hashes of the password apart. *)
Definition told_apart (n server : string) : Prop :=
  let a := sha256_hex (lit (secret cfg)) in
  let b := md5_hex (lit (secret cfg)) in
  sha256_hex (lit n ++ lit a ++ lit server) = sha256_hex (lit n ++ lit b ++ lit server) -> a = b.
Definition healthy (h : choice) (w : world) : Prop :=
  k_fate (h_hello h) = Answered /\ k_fate (h_hello2 h) = Answered /\ g_fate (h_proof h) = Answered /\
  h_request h = Answered /\
  told_apart (w_n1 w) (k_nonce (h_hello h)) /\ told_apart (w_n2 w) (k_nonce (h_hello2 h)).
Definition all_healthy (es : list (happening S)) : Prop :=
  Forall (fun e => match e with HSend h w _ => healthy h w | HForget _ => False | _ => True end) es.

(** The same calls made directly on what the camera is for. *)
Fixpoint directly (s : S) (es : list (happening S)) : S * list (res json) :=
  match es with
  | [] => (s, [])
  | HSend _ _ m :: es' =>
      let (s1, answer) := app s m in
      let (s2, rs) := directly s1 es' in (s2, understood answer :: rs)
  | HDevice f :: es' => directly (f s) es'
  | _ :: es' => directly s es'
  end.
End Together.

(** A device that speaks KLAP, and what it and the client do together (C107).  The device is
    specification, not part of the library: it is written from the protocol alone. *)
From Verif Require Import Base Crypto_Model Klap_Model.
Open Scope Z_scope.

(** A session as the device keeps it: the cookie that names it, the two seeds, whether
    handshake 2 was passed, the number of the last request and the time it ends. *)
Record dsession := mkD {
  ds_cookie : string; ds_local : bytes; ds_remote : bytes; ds_open : bool; ds_last : Z; ds_until : Z }.
(** [S]: the state of what the device is for. *)
Record device (S : Type) := mkDev { dv_sessions : list dsession; dv_state : S }.
Arguments mkDev {S} _ _. Arguments dv_sessions {S} _. Arguments dv_state {S} _.

(** What happens to one HTTP request: it is answered, it does not arrive, or its answer is lost;
    in the latter cases the client sees an exception. *)
Inductive fate := Answered | NotArrived (e : exn) | AnswerLost (e : exn).
(** What the device and the network choose during one send: the remote seed, the cookie and the
    life time of a new session, the device's clock at the two points where it matters, the fates. *)
Record choice := mkChoice {
  h_remote : bytes; h_cookie : string; h_life : Z; h_time1 : Z; h_time3 : Z;
  h_fate1 : fate; h_fate2 : fate; h_fate3 : fate }.

Section Peer.
Variable sha256 : bytes -> bytes.
Variables enc_block dec_block : bytes -> bytes -> bytes.
Variable S : Type.
(** What the device does with a request, and answers. *)
Variable app : S -> bytes -> S * bytes.
Variable v : version.
(** The hash of the credentials the device was set up with. *)
Variable auth : bytes.

Definition lost {A} (f : fate) (d : device S) (o : device S * A) : device S * res A :=
  match f with
  | Answered => (fst o, Ok (snd o))
  | NotArrived e => (d, Err e)
  | AnswerLost e => (fst o, Err e)
  end.

Definition at_cookie (k : string) (d : device S) : option dsession :=
  find (fun x => String.eqb (ds_cookie x) k) (dv_sessions d).
(** A session by the same cookie is replaced. *)
Definition put_session (x : dsession) (d : device S) : device S :=
  mkDev (x :: filter (fun y => negb (String.eqb (ds_cookie y) (ds_cookie x))) (dv_sessions d)) (dv_state d).

(** The keys of a session. *)
Definition peer_key (l r : bytes) : bytes := firstn 16 (sha256 (lit "lsk" ++ l ++ r ++ auth)).
Definition peer_iv (l r : bytes) : bytes := firstn 12 (sha256 (lit "iv" ++ l ++ r ++ auth)).
Definition peer_sig (l r : bytes) : bytes := firstn 28 (sha256 (lit "ldk" ++ l ++ r ++ auth)).
Definition peer_start (l r : bytes) : Z :=
  from_bytes_signed (skipn 28 (sha256 (lit "iv" ++ l ++ r ++ auth))).

(** The device's proof that it knows the credentials, and the one it expects. *)
Definition device_proof (l r a : bytes) : bytes :=
  match v with V1 => sha256 (l ++ a) | V2 => sha256 (l ++ r ++ a) end.
Definition wanted_proof (l r : bytes) : bytes :=
  match v with V1 => sha256 (r ++ auth) | V2 => sha256 (r ++ l ++ auth) end.

Definition on_handshake1 (h : choice) (seed : bytes) (d : device S) : device S * res (Z * bytes) :=
  lost (h_fate1 h) d
    (put_session (mkD (h_cookie h) seed (h_remote h) false (peer_start seed (h_remote h))
                      (h_time1 h + h_life h)) d,
     (200, h_remote h ++ device_proof seed (h_remote h) auth)).

Definition on_handshake2 (h : choice) (proof : bytes) (ck : option string) (d : device S) : device S * res Z :=
  lost (h_fate2 h) d
    match ck with
    | Some k =>
        match at_cookie k d with
        | Some x => if bytes_eqb proof (wanted_proof (ds_local x) (ds_remote x))
                    then (put_session (mkD k (ds_local x) (ds_remote x) true (ds_last x) (ds_until x)) d, 200)
                    else (d, 403)
        | None => (d, 403)
        end
    | None => (d, 403)
    end.

(** Reading a request and writing the answer to it. *)
Definition opened (x : dsession) (seq : Z) (payload : bytes) : option bytes :=
  match pack_i32 seq with
  | Ok packed =>
      let ct := skipn 32 payload in
      if bytes_eqb (firstn 32 payload) (sha256 (peer_sig (ds_local x) (ds_remote x) ++ packed ++ ct)) then
        match cbc_decrypt dec_block (peer_key (ds_local x) (ds_remote x))
                          (peer_iv (ds_local x) (ds_remote x) ++ packed) ct with
        | Ok padded => match pkcs7_unpad padded with Ok m => Some m | Err _ => None end
        | Err _ => None
        end
      else None
  | Err _ => None
  end.
Definition sealed (x : dsession) (seq : Z) (answer : bytes) : bytes :=
  match pack_i32 seq with
  | Ok packed =>
      match cbc_encrypt enc_block (peer_key (ds_local x) (ds_remote x))
                        (peer_iv (ds_local x) (ds_remote x) ++ packed) (pkcs7_pad answer) with
      | Ok ct => sha256 (peer_sig (ds_local x) (ds_remote x) ++ packed ++ ct) ++ ct
      | Err _ => []
      end
  | Err _ => []
  end.

(** A request counts if its session is open and not over, its number is new, and it is properly
    signed and encrypted; everything else is answered with 403. *)
Definition on_request (h : choice) (ck : option string) (seq : Z) (payload : bytes) (d : device S)
  : device S * res (Z * bytes) :=
  lost (h_fate3 h) d
    match ck with
    | Some k =>
        match at_cookie k d with
        | Some x =>
            if ds_open x && (h_time3 h <? ds_until x) && (ds_last x <? seq) then
              match opened x seq payload with
              | Some m =>
                  let (s', answer) := app (dv_state d) m in
                  let d' := put_session (mkD k (ds_local x) (ds_remote x) true seq (ds_until x)) d in
                  (mkDev (dv_sessions d') s', (200, sealed x seq answer))
              | None => (d, (403, []))
              end
            else (d, (403, []))
        | None => (d, (403, []))
        end
    | None => (d, (403, []))
    end.

(** The posts of one send as the device meets them; [w] holds what the client got back. *)
Inductive served (h : choice) (w : world) : device S -> list post -> device S -> Prop :=
| served_nil d : served h w d [] d
| served_h1 d d1 d' seed p : on_handshake1 h seed d = (d1, w_h1 w) -> served h w d1 p d' ->
    served h w d (PHandshake1 seed :: p) d'
| served_h2 d d1 d' proof ck p : on_handshake2 h proof ck d = (d1, w_h2 w) -> served h w d1 p d' ->
    served h w d (PHandshake2 proof ck :: p) d'
| served_req d d1 d' g seq payload ck p : on_request h ck seq payload d = (d1, w_req w) -> served h w d1 p d' ->
    served h w d (PRequest g seq payload ck :: p) d'.

(** The rest of what the client sees of a handshake. *)
Definition meets (h : choice) (w : world) : Prop :=
  length (w_seed w) = 16%nat /\ length (h_remote h) = 16%nat /\
  w_cookie w = Some (h_cookie h) /\ w_timeout w = Timeout (h_life h).
End Peer.

(** What happens to a client and a device: a send; a reset of the client; something else happening
    to the device (a button, another client, another user of the same device); the device losing
    sessions (those whose cookie it does not keep). *)
Inductive happening (S : Type) :=
| HSend (h : choice) (w : world) (m : bytes)
| HReset
| HDevice (f : S -> S)
| HForget (keep : string -> bool).
Arguments HSend {S} _ _ _. Arguments HReset {S}. Arguments HDevice {S} _. Arguments HForget {S} _.

Section Together.
Variables md5 sha1 sha256 : bytes -> bytes.
Variables enc_block dec_block : bytes -> bytes -> bytes.
Variable J : Type.
Variable json_loads : bytes -> option (option J).
Variable S : Type.
Variable app : S -> bytes -> S * bytes.
Variable auth : bytes.
Variable c : config.

(** The hashes under which the client accepts a device are told apart by this handshake. *)
Definition told_apart (h : choice) (w : world) : Prop :=
  forall a, In a (candidates md5 sha1 sha256 c) ->
    device_proof sha256 (c_version c) (w_seed w) (h_remote h) a =
    device_proof sha256 (c_version c) (w_seed w) (h_remote h) auth -> a = auth.

Inductive together : transport * device S -> list (happening S) -> transport * device S ->
                     list (bytes * S * S * res J) -> Prop :=
| together_nil x : together x [] x []
| together_send t d t1 d1 x h w m p r es outs :
    klap_send md5 sha1 sha256 enc_block dec_block J json_loads c w t m = (t1, p, r) ->
    served sha256 enc_block dec_block S app (c_version c) auth h w d p d1 ->
    meets h w -> told_apart h w ->
    together (t1, d1) es x outs ->
    together (t, d) (HSend h w m :: es) x ((m, dv_state d, dv_state d1, r) :: outs)
| together_reset t d x es outs :
    together (klap_reset t, d) es x outs -> together (t, d) (HReset :: es) x outs
| together_device t d f x es outs :
    together (t, mkDev (dv_sessions d) (f (dv_state d))) es x outs ->
    together (t, d) (HDevice f :: es) x outs
| together_forget t d keep x es outs :
    together (t, mkDev (filter (fun x => keep (ds_cookie x)) (dv_sessions d)) (dv_state d)) es x outs ->
    together (t, d) (HForget keep :: es) x outs.

(** What a caller makes of the answer of the device. *)
Definition understood (answer : bytes) : res J :=
  match json_loads answer with Some (Some j) => Ok j | Some None => Err PyValueError | None => Err KKasa end.

(** Nothing goes wrong in this send: every request is answered, no more than ten minutes go by
    between a clock reading of one side and that of the other, sessions last longer than that, and
    the numbers of a session made now last for [n] more requests. *)
Definition healthy (n : nat) (h : choice) (w : world) : Prop :=
  h_fate1 h = Answered /\ h_fate2 h = Answered /\ h_fate3 h = Answered /\
  w_now w <= h_time1 h /\ w_now1 w - h_time1 h <= 600 /\ h_time3 h - w_now w <= 600 /\ 600 < h_life h /\
  peer_start sha256 auth (w_seed w) (h_remote h) + Z.of_nat n < 2 ^ 31.
Fixpoint all_healthy (es : list (happening S)) : Prop :=
  match es with
  | [] => True
  | HSend h w m :: es' => healthy (length es) h w /\ all_healthy es'
  | HForget keep :: es' => False
  | _ :: es' => all_healthy es'
  end.

(** The same calls made directly on what the device is for. *)
Fixpoint directly (s : S) (es : list (happening S)) : S * list (res J) :=
  match es with
  | [] => (s, [])
  | HSend _ _ m :: es' =>
      let (s1, answer) := app s m in
      let (s2, rs) := directly s1 es' in (s2, understood answer :: rs)
  | HDevice f :: es' => directly (f s) es'
  | _ :: es' => directly s es'
  end.
End Together.

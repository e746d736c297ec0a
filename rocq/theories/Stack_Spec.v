(** A whole query: protocol, transport, network and device (C110).  The protocols are those of
    [Smart_Model], [CamQuery_Model] and [Retry_Model], the transports and devices those of the peer
    specifications. *)
From Verif Require Import Base Py Crypto_Model Retry_Model Smart_Model CamQuery_Model.
From Verif Require Klap_Model KlapPeer_Spec Aes_Model AesPeer_Spec Cam_Model CamPeer_Spec.

(** What a client does: hand a message to the transport, or reset it.  [f]: what happened to the
    device meanwhile; [c]: what device and network choose. *)
Inductive deed (S C : Type) := DSend (f : S -> S) (c : C) (m : bytes) | DReset.
Arguments DSend {S C} _ _ _. Arguments DReset {S C}.

(** The number of messages *)
Definition sends {S C} (es : list (deed S C)) : nat :=
  length (filter (fun e => match e with DSend _ _ _ => true | DReset => false end) es).

Section Stack.
Variables T C S Q B : Type.
Variable send : C -> bytes -> T -> T * res json.
Variable reset : T -> T.
(** The text of the [n]-th request, which contains the time of day. *)
Variable encode : nat -> Q -> bytes.
(** What the protocol needs of a reply. *)
Variable read : json -> res B.
Variable script : nat -> (S -> S) * C.
Variable app : S -> bytes -> S * bytes.
Variable understood : bytes -> res json.

(** The client with a real transport; what it does is written down. *)
Record stack := mkStack { k_client : T; k_sent : nat; k_trace : list (deed S C) }.
Definition stack_send (x : stack) (q : Q) : stack * res B :=
  let m := encode (k_sent x) q in
  let (f, c) := script (k_sent x) in
  let (t1, r) := send c m (k_client x) in
  (mkStack t1 (Datatypes.S (k_sent x)) (k_trace x ++ [DSend f c m]), bind r read).
Definition stack_reset (x : stack) : stack := mkStack (reset (k_client x)) (k_sent x) (k_trace x ++ [DReset]).

(** The client with the device in its hands. *)
Definition direct_send (y : S * nat) (q : Q) : (S * nat) * res B :=
  let (s1, answer) := app (fst (script (snd y)) (fst y)) (encode (snd y) q) in
  ((s1, Datatypes.S (snd y)), bind (understood answer) read).

(** What a device does on its own and with the messages, each of them taking effect at most once and
    in order. *)
Inductive effects : S -> list (deed S C) -> S -> Prop :=
| effects_nil s : effects s [] s
| effects_none s f c m es s' : effects (f s) es s' -> effects s (DSend f c m :: es) s'
| effects_once s f c m es s' : effects (fst (app (f s) m)) es s' -> effects s (DSend f c m :: es) s'
| effects_reset s es s' : effects s es s' -> effects s (DReset :: es) s'.
End Stack.
Arguments mkStack {T C S} _ _ _. Arguments k_client {T C S} _. Arguments k_sent {T C S} _. Arguments k_trace {T C S} _.

(** A reply that is no object has no .get *)
Definition as_dict (j : json) : res (dict json) := match j with JObj d => Ok d | _ => Err PyAttributeError end.

(** Queries one after the other. *)
Section Ask.
Context {D : Type}.
Variable treset : D -> D.
Definition on_dev (w : world D) : world D := mkW (treset (wdev w)) (wbatch w) (wlog w).
Context {A : Type}.
Variable one : A -> Z -> world D -> world D * list act * res (dict rval).
Fixpoint ask_all (w : world D) (qs : list (A * Z)) : world D * list (list act * res (dict rval)) :=
  match qs with
  | [] => (w, [])
  | (q, rc) :: qs' =>
      let '(w1, tr, r) := one q rc w in
      let (w2, rs) := ask_all w1 qs' in (w2, (tr, r) :: rs)
  end.
End Ask.
(** SmartProtocol *)
Definition smart_ask {D} (dev_send : D -> request -> D * res (dict json)) (treset : D -> D) (q : dict json) (rc : Z)
  : world D -> world D * list act * res (dict rval) :=
  smart_query (smart_execute_query dev_send q) (on_dev treset) rc.
(** SmartCamProtocol; its messages are requests in the SMART format or its own objects *)
Definition cam_ask {D} (dev_send : D -> request + dict json -> D * res (dict json)) (treset : D -> D) (q : cam_request) (rc : Z)
  : world D -> world D * list act * res (dict rval) :=
  smart_query (cam_execute_query (fun d r => dev_send d (inl r)) (fun d r => dev_send d (inr r)) q) (on_dev treset) rc.

(** IotProtocol: the text of the request is sent as it is (iotprotocol.py:78-83, 139-160) *)
Fixpoint iot_all {D} (dev_send : D -> bytes -> D * res json) (treset : D -> D) (d : D) (qs : list (bytes * Z))
  : D * list (list act * res json) :=
  match qs with
  | [] => (d, [])
  | (m, rc) :: qs' =>
      let '(d1, tr, r) := iot_query (fun d => dev_send d m) treset rc d in
      let (d2, rs) := iot_all dev_send treset d1 qs' in (d2, (tr, r) :: rs)
  end.
Definition plain (n : nat) (m : bytes) : bytes := m.

(** ** The three transports with their devices.  Before a message the device may forget sessions
    (it restarts, say). *)
Section Klap.
Import Klap_Model KlapPeer_Spec.
Variables md5 sha1 sha256 : bytes -> bytes.
Variables enc_block dec_block : bytes -> bytes -> bytes.
Variable json_loads : bytes -> option (option json).
Variable c : config.
Definition klap_client (hw : option (string -> bool) * choice * world) (m : bytes) (t : transport) : transport * res json :=
  let '(t1, _, r) := klap_send md5 sha1 sha256 enc_block dec_block json json_loads c (snd hw) t m in (t1, r).
Definition klap_happenings {S} (es : list (deed S (option (string -> bool) * choice * world))) : list (happening S) :=
  flat_map (fun e => match e with DSend f (k, h, w) m => HDevice f :: match k with Some keep => [HForget keep] | None => [] end ++ [HSend h w m] | DReset => [HReset] end) es.
End Klap.
Section Aes.
Import Aes_Model AesPeer_Spec.
Variables enc_block dec_block : bytes -> bytes -> bytes.
Variable json_loads : bytes -> option json.
Variable open_key : json -> res bytes.
Variable login_text : bool -> bytes.
Definition aes_client (hw : option (string -> bool) * choice * world) (m : bytes) (t : aes) : aes * res json :=
  send enc_block dec_block json_loads open_key login_text (snd hw) m (cleared t).
Definition aes_happenings {S} (es : list (deed S (option (string -> bool) * choice * world))) : list (happening S) :=
  flat_map (fun e => match e with DSend f (k, h, w) m => HDevice f :: match k with Some keep => [HForget keep] | None => [] end ++ [HSend h w m] | DReset => [HReset] end) es.
End Aes.
Section Cam.
Import Cam_Model CamPeer_Spec.
Variables enc_block dec_block : bytes -> bytes -> bytes.
Variable json_loads : bytes -> option json.
Variables md5_hex sha256_hex : bytes -> string.
Variable sha256 : bytes -> bytes.
Variable str_int : Z -> string.
Variable str_json : json -> string.
Variable wrap : bytes -> bytes.
Variable cfg : config.
Definition cam_client (hw : option (string -> bool) * choice * world) (m : bytes) (t : cam) : cam * res json :=
  send enc_block dec_block json_loads md5_hex sha256_hex sha256 str_int str_json wrap cfg (snd hw) m (cleared t).
Definition cam_happenings {S} (es : list (deed S (option (string -> bool) * choice * world))) : list (happening S) :=
  flat_map (fun e => match e with DSend f (k, h, w) m => HDevice f :: match k with Some keep => [HForget keep] | None => [] end ++ [HSend h w m] | DReset => [HReset] end) es.
End Cam.

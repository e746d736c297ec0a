(** A legacy device on its TCP connection, and what it and the client do together (C112).  The
    device is specification, not part of the library: it is written from the protocol alone. *)
From Verif Require Import Base Xor_Model Xor_Spec.
Open Scope Z_scope.

(** The obfuscation: a byte is combined with the byte before it on the wire, 171 being before the
    first. *)
Fixpoint mask (before : ascii) (plain : bytes) : bytes :=
  match plain with
  | [] => []
  | p :: rest => let c := ascii_of_N (N.lxor (bval before) (bval p)) in c :: mask c rest
  end.
Fixpoint unmask (before : ascii) (cipher : bytes) : bytes :=
  match cipher with
  | [] => []
  | c :: rest => ascii_of_N (N.lxor (bval before) (bval c)) :: unmask c rest
  end.
Definition first_key : ascii := ascii_of_N 171.

(** What the device reads in the bytes it gets: four bytes announce how many follow. *)
Definition hears (frame : bytes) : option bytes :=
  if (be_value (firstn 4 frame) =? N.of_nat (length (skipn 4 frame)))%N
  then Some (unmask first_key (skipn 4 frame)) else None.

(** What happens to a client and a device whose state is [S].  Network and device choose how
    connecting and the exchange go, and whether the device got the request when the exchange fails
    without an answer; [answer] is what the device says. *)
Inductive happening (S : Type) :=
| HSend (c : connect_fate) (x : exec_fate) (arrived : bool) (answer m : bytes)
| HReset
| HDevice (f : S -> S).
Arguments HSend {S} _ _ _ _ _. Arguments HReset {S}. Arguments HDevice {S} _.

Section Peer.
Variable json_loads : bytes -> option json.
Variable S : Type.
(** What the device does with a request, and answers. *)
Variable app : S -> bytes -> S * bytes.

(** A connection stays open until the client closes it; without one a request goes nowhere. *)
Definition reaches (t : transport) (c : connect_fate) (x : exec_fate) (arrived : bool) : bool :=
  match writer t, c with None, CFail _ _ => false | _, _ => true end
  && match x with XOk => true | XFail _ _ answered => answered || arrived end.
Definition on_exchange (t : transport) (c : connect_fate) (x : exec_fate) (arrived : bool) (m : bytes) (s : S) : S * bytes :=
  match (if reaches t c x arrived then match encrypt m with Ok frame => hears frame | Err _ => None end else None) with
  | Some request => app s request
  | None => (s, [])
  end.

Inductive together : transport * S -> list (happening S) -> transport * S -> list (bytes * S * S * res json) -> Prop :=
| together_nil x : together x [] x []
| together_send t s t1 s1 y c x arrived answer m r es outs :
    on_exchange t c x arrived m s = (s1, answer) ->
    send json json_loads t m answer c x = (t1, r) ->
    together (t1, s1) es y outs ->
    together (t, s) (HSend c x arrived answer m :: es) y ((m, s, s1, r) :: outs)
| together_reset t s y es outs :
    together (reset t, s) es y outs -> together (t, s) (HReset :: es) y outs
| together_device t s f y es outs :
    together (t, f s) es y outs -> together (t, s) (HDevice f :: es) y outs.

(** The device can announce its answers in four bytes. *)
Definition fits : Prop := forall s m, (N.of_nat (length (snd (app s m))) < 2 ^ 32)%N.

(** What a caller makes of the answer of the device. *)
Definition understood (answer : bytes) : res json :=
  match json_loads answer with Some j => Ok j | None => Err (KRetry None) end.

(** Nothing goes wrong. *)
Definition all_healthy (es : list (happening S)) : Prop :=
  Forall (fun e => match e with HSend c x _ _ m => c = COk /\ x = XOk /\ (N.of_nat (length m) < 2 ^ 32)%N | _ => True end) es.

(** The same calls made directly on the device. *)
Fixpoint directly (s : S) (es : list (happening S)) : S * list (res json) :=
  match es with
  | [] => (s, [])
  | HSend _ _ _ _ m :: es' =>
      let (s1, answer) := app s m in
      let (s2, rs) := directly s1 es' in (s2, understood answer :: rs)
  | HDevice f :: es' => directly (f s) es'
  | HReset :: es' => directly s es'
  end.
End Peer.

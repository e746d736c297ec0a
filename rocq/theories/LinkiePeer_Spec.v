(** A legacy camera behind its web server, and what it and the client do together (C113).  The
    device is specification, not part of the library: it is written from the protocol alone. *)
From Verif Require Import Base Crypto_Model Linkie_Model XorPeer_Spec.
From Verif Require Klap_Model Xor_Model.
Open Scope string_scope.
Open Scope list_scope.
Open Scope Z_scope.

(** Reading a form value: %XX stands for the character with that number, + for a blank. *)
Definition digit (c : ascii) : option nat := String.index 0 (String c "") "0123456789ABCDEF".
Fixpoint form_value (s : bytes) : bytes :=
  match s with
  | [] => []
  | c :: rest =>
      if Ascii.eqb c "%" then
        match rest with
        | a :: b :: rest' =>
            match digit a, digit b with
            | Some x, Some y => ascii_of_nat (16 * x + y) :: form_value rest'
            | _, _ => c :: form_value rest
            end
        | _ => c :: form_value rest
        end
      else (if Ascii.eqb c "+" then " "%char else c) :: form_value rest
  end.
(** The camera takes the field "content", which is obfuscated like on the old TCP connection but
    without a length, in base64. *)
Definition request_in (body : bytes) : option bytes :=
  if list_eq_dec ascii_dec (firstn 8 body) (Klap_Model.lit "content=") then
    match b64decode (form_value (skipn 8 body)) with Ok ct => Some (unmask first_key ct) | Err _ => None end
  else None.
Definition answered (answer : bytes) : bytes := b64encode (mask first_key answer).

(** What happens to one HTTP request. *)
Inductive fate := Answered | NotArrived (e : exn) | AnswerLost (e : exn).
Definition lost {S} (f : fate) (s : S) (o : S * (Z * bytes)) : S * res (Z * bytes) :=
  match f with
  | Answered => (fst o, Ok (snd o))
  | NotArrived e => (s, Err e)
  | AnswerLost e => (fst o, Err e)
  end.

(** What happens to a client and a camera whose state is [S]; [r] is what the client gets back. *)
Inductive happening (S : Type) :=
| HSend (f : fate) (r : res (Z * bytes)) (m : bytes)
| HReset
| HDevice (f : S -> S).
Arguments HSend {S} _ _ _. Arguments HReset {S}. Arguments HDevice {S} _.

Section Peer.
Variable b64d : bytes -> res bytes.
Variable json_loads : bytes -> option json.
Variable S : Type.
(** What the camera does with a request, and answers. *)
Variable app : S -> bytes -> S * bytes.

Definition on_post (f : fate) (body : bytes) (s : S) : S * res (Z * bytes) :=
  lost f s
    match request_in body with
    | Some m => let (s1, answer) := app s m in (s1, (200, answered answer))
    | None => (s, (400, []))
    end.
Inductive served (f : fate) (r : res (Z * bytes)) : S -> list bytes -> S -> Prop :=
| served_nil s : served f r s [] s
| served_post s s1 s' body p : on_post f body s = (s1, r) -> served f r s1 p s' -> served f r s (body :: p) s'.

Inductive together : S -> list (happening S) -> S -> list (bytes * S * S * res json) -> Prop :=
| together_nil s : together s [] s []
| together_send s s1 y f r m l o es outs :
    send b64d json json_loads r m [] = (l, o) ->
    served f r s l s1 ->
    together s1 es y outs ->
    together s (HSend f r m :: es) y ((m, s, s1, o) :: outs)
| together_reset s y es outs : together s es y outs -> together s (HReset :: es) y outs
| together_device s f y es outs : together (f s) es y outs -> together s (HDevice f :: es) y outs.

(** What a caller makes of the answer of the camera. *)
Definition understood (answer : bytes) : res json :=
  match json_loads answer with Some j => Ok j | None => Err (KRetry None) end.

(** Nothing goes wrong. *)
Definition all_healthy (es : list (happening S)) : Prop :=
  Forall (fun e => match e with HSend f _ m => f = Answered /\ (N.of_nat (length m) < 2 ^ 32)%N | _ => True end) es.

(** The same calls made directly on the camera. *)
Fixpoint directly (s : S) (es : list (happening S)) : S * list (res json) :=
  match es with
  | [] => (s, [])
  | HSend _ _ m :: es' =>
      let (s1, answer) := app s m in
      let (s2, rs) := directly s1 es' in (s2, understood answer :: rs)
  | HDevice f :: es' => directly (f s) es'
  | HReset :: es' => directly s es'
  end.
End Peer.

(** Specification vocabulary for the legacy transport (C01-C04). *)
From Verif Require Import Base Xor_Model.

(** Value of a big-endian byte string. *)
Definition be_value (b : bytes) : N := fold_left (fun acc x => acc * 256 + bval x)%N b 0%N.

(** The published wire format: byte [i] of the ciphertext is the plaintext byte
    combined with the previous ciphertext byte, 171 standing before the first. *)
Definition wire_format (plain cipher : bytes) : Prop :=
  length cipher = length plain /\
  forall i p, nth_error plain i = Some p ->
    exists prev c,
      nth_error (ascii_of_N 171 :: cipher) i = Some prev /\
      nth_error cipher i = Some c /\
      bval c = N.lxor (bval prev) (bval p).

(** A reply is attributed correctly: a send that returned a value returned the
    decoding of the answer to its own request. *)
Definition own_reply {J} (loads : bytes -> option J) (e : event) (o : option (res J)) : Prop :=
  match e, o with
  | ESend _ rep _ _, Some (Ok j) => loads rep = Some j
  | _, _ => True
  end.

(** The device can announce its answer in four bytes. *)
Definition reply_fits (e : event) : Prop :=
  match e with
  | ESend _ rep _ _ => (N.of_nat (length rep) < 2 ^ 32)%N
  | _ => True
  end.

(** The kinds of exception a failed exchange may surface as. *)
Definition transport_error (e : exn) : Prop :=
  e = KTimeout \/ e = KKasa \/ e = KRetry None \/ e = Cancelled.

(** C04: what the caller sees for each failure, by the phase it strikes in. *)
Definition caller_sees (while_connecting : bool) (f : fault) : exn :=
  match f with
  | FTimeout => KTimeout                                     (* library timeout *)
  | FRefused | FNoRoute => if while_connecting then KKasa    (* not retried *)
                           else KRetry None
  | FOSError | FException => KRetry None                     (* retried *)
  | FCancel => Cancelled                                     (* re-raised *)
  end.

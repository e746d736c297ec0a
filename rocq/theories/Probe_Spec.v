(** Specification of C119: what a device makes of a discovery datagram, and how it
    answers. *)
From Verif Require Import Base Py Crypto_Model Crc_Model.
Open Scope string_scope.
Open Scope list_scope.

Definition number (b : bytes) : N := fold_left (fun a x => (a * 256 + N_of_ascii x)%N) b 0%N.
Definition field (from len : nat) (d : bytes) : bytes := firstn len (skipn from d).

(** The device discovery protocol: a header of sixteen bytes (version 2; type 0;
    operation 1 for a probe; size of the rest; flags; a serial number chosen by the
    sender; checksum) and a payload.  The checksum is that of the datagram with
    5A 6B 7C 8D in its place. *)
Definition seed : bytes := map ascii_of_N [90; 107; 124; 141]%N.
Record probe := mkProbe { p_flags : N; p_serial : bytes; p_payload : bytes }.
Definition read_probe (d : bytes) : option probe :=
  if Nat.leb 16 (length d)
     && N.eqb (number (field 0 1 d)) 2 && N.eqb (number (field 1 1 d)) 0 && N.eqb (number (field 2 2 d)) 1
     && N.eqb (number (field 4 2 d)) (N.of_nat (length (skipn 16 d)))
     && N.eqb (number (field 12 4 d)) (crc32 (firstn 12 d ++ seed ++ skipn 16 d))
  then Some (mkProbe (number (field 6 1 d)) (field 8 4 d) (skipn 16 d))
  else None.

(** The public key offered in the payload *)
Definition offered (loads : bytes -> option json) (d : bytes) : option string :=
  match read_probe d with
  | Some p =>
      match loads (p_payload p) with
      | Some (JObj j) =>
          match dget "params" j with
          | Some (JObj ps) => match dget "rsa_key" ps with Some (JStr s) => Some s | _ => None end
          | _ => None
          end
      | _ => None
      end
  | None => None
  end.

(** The encrypted part of an answer: a key and an initial vector of sixteen bytes each,
    sealed for the public key that was offered, and the text under them; both in base64. *)
Section Answer.
Variable seal : string -> bytes -> bytes -> bytes.       (* public key, message, randomness *)
Variable enc_block : bytes -> bytes -> bytes.
Definition b64_text (b : bytes) : string := string_of_list_ascii (b64encode b).
Definition answers (public : string) (text : bytes) (key_field data_field : string) : Prop :=
  exists key iv r c, length key = 16%nat /\ length iv = 16%nat /\
    key_field = b64_text (seal public (key ++ iv) r) /\
    cbc_encrypt enc_block key iv (pkcs7_pad text) = Ok c /\ data_field = b64_text c.
End Answer.

(** What a legacy device reads: every byte is combined with the byte before it in the
    datagram, the first one with 171 *)
Fixpoint unchain (prev : N) (d : bytes) : bytes :=
  match d with
  | [] => []
  | c :: rest => ascii_of_N (N.lxor prev (N_of_ascii c)) :: unchain (N_of_ascii c) rest
  end.

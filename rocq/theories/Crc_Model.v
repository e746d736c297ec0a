(** binascii.crc32, a library function that kasa/discover.py:229 calls (RFC 1952): the
    reflected CRC-32, bit by bit. *)
From Verif Require Import Base Crypto_Model.
Fixpoint crc_bits (n : nat) (c : N) : N :=
  match n with
  | O => c
  | S n' => crc_bits n' (if N.odd c then N.lxor (N.shiftr c 1) 3988292384 else N.shiftr c 1)
  end.
Definition crc32 (b : bytes) : N :=
  N.lxor (fold_left (fun c x => crc_bits 8 (N.lxor c (N_of_ascii x))) b 4294967295%N) 4294967295.
(** The standard check value *)
Example crc32_check : crc32 (list_ascii_of_string "123456789") = 3421780262%N.
Proof. vm_compute. reflexivity. Qed.

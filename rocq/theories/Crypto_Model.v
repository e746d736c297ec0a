(** Byte-level helpers the encrypted transports take from Python's standard
    library and from the `cryptography` package: PKCS7 padding, CBC chaining over
    a block cipher, big-endian signed integers, base64.
    Used by kasa/transports/klaptransport.py:486-555, aestransport.py:396-430,
    sslaestransport.py. *)
From Verif Require Import Base.
From Verif Require Xor_Model.

Definition byte := ascii.
Definition bytes := list ascii.
Definition bval (b : byte) : N := N_of_ascii b.
Definition bxor : byte -> byte -> byte := Xor_Model.bxor.

(** ** PKCS7 with 16-byte blocks: padding.PKCS7(128), klaptransport.py:537-538,551-553 *)
Definition block : nat := 16.

Definition pkcs7_pad (m : bytes) : bytes :=
  let n := block - Nat.modulo (length m) block in
  m ++ repeat (ascii_of_N (N.of_nat n)) n.

(** unpadder.update(d) + unpadder.finalize(): the data must be a non-empty whole
    number of blocks whose last byte [p] is between 1 and 16 and is repeated [p]
    times; otherwise ValueError. *)
Definition pkcs7_unpad (d : bytes) : res bytes :=
  if Nat.eqb (length d) 0 || negb (Nat.eqb (Nat.modulo (length d) block) 0) then Err PyValueError
  else
    let p := N.to_nat (bval (last d Ascii.zero)) in
    if Nat.leb 1 p && Nat.leb p block
       && forallb (fun b => Ascii.eqb b (last d Ascii.zero)) (skipn (length d - p) d)
    then Ok (firstn (length d - p) d)
    else Err PyValueError.

(** ** CBC *)
Fixpoint xor_bytes (a b : bytes) : bytes :=
  match a, b with
  | x :: a', y :: b' => bxor x y :: xor_bytes a' b'
  | _, _ => []
  end.

(** The consecutive 16-byte pieces; [fuel] is the length of the data. *)
Fixpoint chunks (fuel : nat) (d : bytes) : list bytes :=
  match fuel, d with
  | O, _ => []
  | _, [] => []
  | S f, _ => firstn block d :: chunks f (skipn block d)
  end.
Definition blocks_of (d : bytes) : list bytes := chunks (length d) d.

Section Cipher.
(** The block cipher under a key (AES): two functions on 16-byte blocks. *)
Variables enc_block dec_block : bytes -> bytes -> bytes.

Fixpoint cbc_enc (key prev : bytes) (bs : list bytes) : list bytes :=
  match bs with
  | [] => []
  | b :: rest => let c := enc_block key (xor_bytes prev b) in c :: cbc_enc key c rest
  end.
Fixpoint cbc_dec (key prev : bytes) (cs : list bytes) : list bytes :=
  match cs with
  | [] => []
  | c :: rest => xor_bytes prev (dec_block key c) :: cbc_dec key c rest
  end.

(** encryptor.update(d) + encryptor.finalize(): ValueError unless whole blocks. *)
Definition cbc_encrypt (key iv d : bytes) : res bytes :=
  if Nat.eqb (Nat.modulo (length d) block) 0 then Ok (concat (cbc_enc key iv (blocks_of d)))
  else Err PyValueError.
Definition cbc_decrypt (key iv d : bytes) : res bytes :=
  if Nat.eqb (Nat.modulo (length d) block) 0 then Ok (concat (cbc_dec key iv (blocks_of d)))
  else Err PyValueError.
End Cipher.

(** ** Integers *)
(** struct.Struct(">l").pack, klaptransport.py:75: struct.error outside the signed range *)
Definition pack_i32 (z : Z) : res bytes :=
  if ((- 2 ^ 31 <=? z) && (z <? 2 ^ 31))%Z then
    let n := Z.to_N (z mod 2 ^ 32) in
    Ok [ascii_of_N (n / 16777216 mod 256); ascii_of_N (n / 65536 mod 256);
        ascii_of_N (n / 256 mod 256); ascii_of_N (n mod 256)]
  else Err PyStructError.

(** int.from_bytes(b, "big", signed=True) *)
Definition from_bytes_signed (b : bytes) : Z :=
  let u := fold_left (fun acc x => (acc * 256 + Z.of_N (bval x))%Z) b 0%Z in
  match b with
  | [] => 0%Z
  | x :: _ => if (128 <=? bval x)%N then (u - 2 ^ (8 * Z.of_nat (length b)))%Z else u
  end.

(** ** base64, RFC 4648: base64.b64encode / b64decode *)
Definition b64_alphabet : string := "ABCDEFGHIJKLMNOPQRSTUVWXYZabcdefghijklmnopqrstuvwxyz0123456789+/".
Inductive sextet := Sx (a5 a4 a3 a2 a1 a0 : bool).
Definition sx_nat (s : sextet) : nat :=
  match s with Sx a5 a4 a3 a2 a1 a0 =>
    let b (x : bool) n := if x then n else 0 in
    b a5 32 + b a4 16 + b a3 8 + b a2 4 + b a1 2 + b a0 1
  end.
Definition sx_char (s : sextet) : ascii :=
  match String.get (sx_nat s) b64_alphabet with Some c => c | None => Ascii.zero end.
Definition all_sextets : list sextet :=
  let bb := [false; true] in
  flat_map (fun a => flat_map (fun b => flat_map (fun c => flat_map (fun d => flat_map (fun e =>
    map (fun f => Sx a b c d e f) bb) bb) bb) bb) bb) bb.
Definition char_sx (c : ascii) : option sextet :=
  find (fun s => Ascii.eqb (sx_char s) c) all_sextets.

Definition pad_char : ascii := "=".

Fixpoint b64encode (m : bytes) : bytes :=
  match m with
  | [] => []
  | [Ascii a0 a1 a2 a3 a4 a5 a6 a7] =>
      [sx_char (Sx a7 a6 a5 a4 a3 a2); sx_char (Sx a1 a0 false false false false); pad_char; pad_char]
  | [Ascii a0 a1 a2 a3 a4 a5 a6 a7; Ascii b0 b1 b2 b3 b4 b5 b6 b7] =>
      [sx_char (Sx a7 a6 a5 a4 a3 a2); sx_char (Sx a1 a0 b7 b6 b5 b4);
       sx_char (Sx b3 b2 b1 b0 false false); pad_char]
  | Ascii a0 a1 a2 a3 a4 a5 a6 a7 :: Ascii b0 b1 b2 b3 b4 b5 b6 b7
    :: Ascii c0 c1 c2 c3 c4 c5 c6 c7 :: rest =>
      sx_char (Sx a7 a6 a5 a4 a3 a2) :: sx_char (Sx a1 a0 b7 b6 b5 b4)
      :: sx_char (Sx b3 b2 b1 b0 c7 c6) :: sx_char (Sx c5 c4 c3 c2 c1 c0) :: b64encode rest
  end.

(** Decoding of well-formed text.  b64decode also skips characters outside the
    alphabet; that is not modelled and such text is rejected here. *)
Fixpoint b64decode (t : bytes) : res bytes :=
  match t with
  | [] => Ok []
  | c1 :: c2 :: c3 :: c4 :: rest =>
      match char_sx c1, char_sx c2 with
      | Some (Sx a7 a6 a5 a4 a3 a2), Some (Sx a1 a0 b7 b6 b5 b4) =>
          let x := Ascii a0 a1 a2 a3 a4 a5 a6 a7 in
          match char_sx c3 with
          | None =>
              if Ascii.eqb c3 pad_char && Ascii.eqb c4 pad_char && match rest with [] => true | _ => false end
              then Ok [x] else Err PyValueError
          | Some (Sx b3 b2 b1 b0 d7 d6) =>
              let y := Ascii b0 b1 b2 b3 b4 b5 b6 b7 in
              match char_sx c4 with
              | None =>
                  if Ascii.eqb c4 pad_char && match rest with [] => true | _ => false end
                  then Ok [x; y] else Err PyValueError
              | Some (Sx d5 d4 d3 d2 d1 d0) =>
                  let! r := b64decode rest in
                  Ok (x :: y :: Ascii d0 d1 d2 d3 d4 d5 d6 d7 :: r)
              end
          end
      | _, _ => Err PyValueError
      end
  | _ => Err PyValueError
  end.

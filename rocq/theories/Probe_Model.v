(** The discovery datagrams, and the encrypted part of an answer.  Models
    _AesDiscoveryQuery.generate_query (kasa/discover.py:193-231),
    Discover._decrypt_discovery_data (762-790) and the datagrams of do_discover
    (323-337).  No proofs. *)
From Verif Require Import Base Py Crypto_Model Crc_Model.
From Verif Require Xor_Model Aes_Model.
Open Scope string_scope.
Open Scope list_scope.

(** struct's B and H, big endian; a value that does not fit raises struct.error *)
Definition pack_u8 (n : N) : res bytes :=
  if (n <? 256)%N then Ok [ascii_of_N n] else Err PyStructError.
Definition pack_u16 (n : N) : res bytes :=
  if (n <? 65536)%N then Ok [ascii_of_N (n / 256); ascii_of_N (n mod 256)] else Err PyStructError.
(** int.from_bytes(.., "big") *)
Definition from_bytes (b : bytes) : N := fold_left (fun a x => (a * 256 + N_of_ascii x)%N) b 0%N.

Section Probe.
(** A key pair; its public key in PEM; decrypt_discovery_key ([None]: it raises),
    aestransport.py:490-500 *)
Variable K : Type.
Variable pem : K -> string.
Variable rsa_open : K -> bytes -> option bytes.
Variable dec_block : bytes -> bytes -> bytes.
(** json_dumps(..).encode(), and .decode() with json_loads *)
Variable dumps : json -> bytes.
Variable loads : bytes -> option json.

(** generate_query, discover.py:196-231.  [kp]: the class's key pair; [fresh]: the one
    create_key_pair would make; [secret]: the four random bytes. *)
Definition generate_query (kp : option K) (fresh : K) (secret : bytes) : option K * res bytes :=
  let k := match kp with Some k => k | None => fresh end in
  let payload := dumps (JObj [("params", JObj [("rsa_key", JStr (pem k))])]) in
  (Some k,
   let! version := pack_u8 2 in
   let! msg_type := pack_u8 0 in
   let! op_code := pack_u16 1 in
   let! msg_size := pack_u16 (N.of_nat (length payload)) in
   let! flags := pack_u8 17 in
   let! padding := pack_u8 0 in
   let! serial := Xor_Model.pack_u32 (from_bytes secret) in
   let! initial := Xor_Model.pack_u32 1516993677 in                      (* 0x5A6B7C8D *)
   let query := (version ++ msg_type ++ op_code ++ msg_size ++ flags ++ padding ++ serial ++ initial) ++ payload in
   let! crc := Xor_Model.pack_u32 (crc32 query) in
   Ok (firstn 12 query ++ crc ++ skipn 16 query)).                       (* query[12:16] = crc *)

(** The datagram to the legacy port, discover.py:325-327 and 335: encrypt(req)[4:] *)
Definition legacy_query : res bytes :=
  let! e := Xor_Model.encrypt (dumps (JObj [("system", JObj [("get_sysinfo", JObj [])])])) in
  Ok (skipn 4 e).

(** _decrypt_discovery_data, discover.py:762-790: the key and the data of encrypt_info *)
Definition decrypt_discovery_data (kp : option K) (key data : string) : res json :=
  match kp with
  | None => Err PyAttributeError
  | Some k =>
      let! sealed := b64decode (list_ascii_of_string key) in
      match rsa_open k sealed with
      | None => Err PyValueError
      | Some key_and_iv =>
          let! session := Aes_Model.new_session key_and_iv in
          let! text := Aes_Model.aes_decrypt dec_block session (list_ascii_of_string data) in
          match loads text with Some j => Ok j | None => Err PyValueError end
      end
  end.

(** A process: discoveries are started and answers come in.  The key pair is
    the only state. *)
Inductive event :=
| EDiscover (fresh : K) (secret : bytes)
| EAnswer (key data : string).
Inductive output :=
| ODatagrams (legacy new : res bytes)
| OData (r : res json).
Definition step (kp : option K) (e : event) : option K * output :=
  match e with
  | EDiscover fresh secret => let (kp', q) := generate_query kp fresh secret in (kp', ODatagrams legacy_query q)
  | EAnswer key data => (kp, OData (decrypt_discovery_data kp key data))
  end.
Fixpoint run (kp : option K) (es : list event) : option K * list output :=
  match es with
  | [] => (kp, [])
  | e :: rest =>
      let (kp1, o) := step kp e in
      let (kp2, os) := run kp1 rest in (kp2, o :: os)
  end.
End Probe.
Arguments EDiscover {K}. Arguments EAnswer {K}.

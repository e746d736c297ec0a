(** The key pair of the AES handshake.  Models AesTransport.__init__ (the keys,
    kasa/transports/aestransport.py:110-115), _generate_key_pair_payload (276-302),
    the use of the key pair in perform_handshake (348-351) and KeyPair (437-488).  No proofs. *)
From Verif Require Import Base Py Crypto_Model Factory_Model.
Open Scope string_scope.
Open Scope list_scope.

Section Keys.
(** Private and public keys of the cryptography library, their DER encodings and the
    loading of those ([None]: it raises); decryption of a handshake key *)
Variables Priv Pub : Type.
Variable der_priv : Priv -> bytes.
Variable der_pub : Pub -> bytes.
Variable load_priv : bytes -> option Priv.
Variable load_pub : bytes -> option Pub.
Variable rsa_open : Priv -> bytes -> option bytes.

(** KeyPair, aestransport.py:458-475: the keys; its base64 attributes are functions of them *)
Definition key_pair := (Priv * Pub)%type.
Definition b64s (b : bytes) : string := string_of_list_ascii (b64encode b).
Definition private_key_der_b64 (k : key_pair) : string := b64s (der_priv (fst k)).
Definition public_key_der_b64 (k : key_pair) : string := b64s (der_pub (snd k)).
(** create_from_der_keys, aestransport.py:443-456 *)
Definition create_from_der_keys (private public : string) : res key_pair :=
  let! a := b64decode (list_ascii_of_string private) in
  match load_priv a with
  | None => Err PyValueError
  | Some p =>
      let! b := b64decode (list_ascii_of_string public) in
      match load_pub b with None => Err PyValueError | Some q => Ok (p, q) end
  end.

(** The transport's key pair, and its configuration *)
Record keyed := mkKeyed { kp : option key_pair; config : devconfig }.
Definition with_keys (c : devconfig) (k : option (string * string)) : devconfig :=
  mkConf (host c) (timeout c) (port_override c) (creds c) (creds_hash c) (batch_size c) (conn c) (client c) k.
(** __init__, aestransport.py:110-115 *)
Definition create (c : devconfig) : res keyed :=
  match aes_keys c with
  | None => Ok (mkKeyed None c)
  | Some (private, public) => let! k := create_from_der_keys private public in Ok (mkKeyed (Some k) c)
  end.
Definition nl : string := String (ascii_of_nat 10) "".
(** _generate_key_pair_payload, aestransport.py:275-298: the key in the handshake request; [fresh]: what
    create_key_pair would make *)
Definition key_payload (fresh : key_pair) (t : keyed) : keyed * json :=
  let t1 := match kp t with
            | Some _ => t
            | None => mkKeyed (Some fresh)
                        (with_keys (config t) (Some (private_key_der_b64 fresh, public_key_der_b64 fresh)))
            end in
  let k := match kp t1 with Some k => k | None => fresh end in
  let pub_key := ("-----BEGIN PUBLIC KEY-----" ++ nl ++ public_key_der_b64 k ++ nl ++ "-----END PUBLIC KEY-----" ++ nl)%string in
  (t1, JObj [("method", JStr "handshake"); ("params", JObj [("key", JStr pub_key)])]).
(** perform_handshake, aestransport.py:346-351, and decrypt_handshake_key, 483-488: the key in the answer *)
Definition open_answer (t : keyed) (key : string) : res bytes :=
  let! c := b64decode (list_ascii_of_string key) in
  match kp t with
  | None => Err PyAttributeError
  | Some k => match rsa_open (fst k) c with Some b => Ok b | None => Err PyValueError end
  end.

(** What happens to a device: handshakes (the request that is made), answers to them, and
    the configuration being stored and a new transport made from it *)
Inductive event :=
| EHandshake (fresh : key_pair)
| EKey (key : string)
| EStored.
Inductive output := ORequest (j : json) | OOpened (r : res bytes) | ONew.
Definition step (t : keyed) (e : event) : res (keyed * output) :=
  match e with
  | EHandshake fresh => let (t', j) := key_payload fresh t in Ok (t', ORequest j)
  | EKey key => Ok (t, OOpened (open_answer t key))
  | EStored => let! c := from_dict (to_dict (config t)) in
               let! t' := create c in Ok (t', ONew)
  end.
Fixpoint run (t : keyed) (es : list event) : res (keyed * list output) :=
  match es with
  | [] => Ok (t, [])
  | e :: rest => let! x := step t e in
                 let! y := run (fst x) rest in Ok (fst y, snd x :: snd y)
  end.
End Keys.
Arguments EHandshake {Priv Pub}. Arguments EKey {Priv Pub}. Arguments EStored {Priv Pub}.
Arguments mkKeyed {Priv Pub}. Arguments kp {Priv Pub}. Arguments config {Priv Pub}.

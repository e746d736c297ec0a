(** The transport of legacy cameras: kasa/transports/linkietransport.py.  No proofs. *)
From Verif Require Import Base Py Xor_Model Crypto_Model.
From Verif Require Klap_Model.
Open Scope string_scope.
Open Scope list_scope.
Open Scope Z_scope.

Notation lit := Klap_Model.lit.
(** urllib.parse.quote(s, safe="!~*'()") of ASCII text: letters, digits, _.-~ and the safe
    characters stay *)
Definition unreserved (c : ascii) : bool :=
  let n := nat_of_ascii c in
  ((48 <=? n) && (n <=? 57) || (65 <=? n) && (n <=? 90) || (97 <=? n) && (n <=? 122))%nat%bool
  || existsb (Ascii.eqb c) (lit "_.-~!*'()").
Definition hex_digit (n : nat) : ascii :=
  match String.get n "0123456789ABCDEF" with Some c => c | None => Ascii.zero end.
Definition quote_char (c : ascii) : bytes :=
  if unreserved c then [c]
  else ["%"%char; hex_digit (Nat.div (nat_of_ascii c) 16); hex_digit (Nat.modulo (nat_of_ascii c) 16)].
Definition quote (s : bytes) : bytes := flat_map quote_char s.

Section Linkie.
(** base64.b64decode, which skips foreign characters, and json_loads of the decoded text *)
Variable b64d : bytes -> res bytes.
Variable J : Type.
Variable json_loads : bytes -> option J.

(** What is posted: the body.  URL, headers and TLS settings are fixed and left out. *)
Definition log := list bytes.
(** _execute_send, linkietransport.py:69-110; [r] is what the HTTP client gives for the post.
    Both ways of failing to read a reply end in a KasaException. *)
Definition execute_send (r : res (Z * bytes)) (request : bytes) : M log J :=
  do! frame <- mlift (encrypt request) ;;
  let body := lit "content=" ++ quote (b64encode (skipn 4 frame)) in
  fun l =>
    let l' := l ++ [body] in
    match r with
    | Err e => (l', Err e)
    | Ok (status, response) =>
        if negb (status =? 200) then (l', Err KKasa)
        else
          match (let! b := b64d response in
                 match json_loads (decrypt b) with Some j => Ok j | None => Err PyValueError end) with
          | Ok j => (l', Ok j)
          | Err _ => (l', Err KKasa)
          end
    end.
(** send, linkietransport.py:122-130; reset does nothing *)
Definition send (r : res (Z * bytes)) (request : bytes) : M log J := fun l =>
  match execute_send r request l with
  | (l', Err e) => (l', Err (if is_exception e then KRetry None else e))
  | x => x
  end.
End Linkie.

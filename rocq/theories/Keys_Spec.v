(** Specification of C120: the handshake's key. *)
From Verif Require Import Base Py Crypto_Model Factory_Model Keys_Model.
Open Scope string_scope.
Open Scope list_scope.

(** A public key in its usual text form: a first line, base64, a last line *)
Definition first_line : string := ("-----BEGIN PUBLIC KEY-----" ++ String (ascii_of_nat 10) "")%string.
Definition last_line : string := (String (ascii_of_nat 10) "-----END PUBLIC KEY-----" ++ String (ascii_of_nat 10) "")%string.
Definition read_key {Pub} (load_pub : bytes -> option Pub) (s : string) : option Pub :=
  let b := list_ascii_of_string s in
  let f := list_ascii_of_string first_line in
  let l := list_ascii_of_string last_line in
  let body := firstn (length b - length f - length l) (skipn (length f) b) in
  if list_eq_dec ascii_dec b (f ++ body ++ l) then
    match b64decode body with Ok d => load_pub d | Err _ => None end
  else None.
(** The public key offered by a handshake request *)
Definition offered {Pub} (load_pub : bytes -> option Pub) (j : json) : option Pub :=
  match j with
  | JObj d =>
      match dget "method" d, dget "params" d with
      | Some (JStr m), Some (JObj p) =>
          if String.eqb m "handshake" then
            match dget "key" p with Some (JStr s) => read_key load_pub s | _ => None end
          else None
      | _, _ => None
      end
  | _ => None
  end.

Section Laws.
Variables Priv Pub : Type.
(** The library: a key is read back from its encoding; what was sealed for the public key of
    a pair is opened with its private key *)
Variable der_priv : Priv -> bytes.
Variable der_pub : Pub -> bytes.
Variable load_priv : bytes -> option Priv.
Variable load_pub : bytes -> option Pub.
Variable rsa_open : Priv -> bytes -> option bytes.
Variable seal : Pub -> bytes -> bytes -> bytes.
Definition matching (k : Priv * Pub) : Prop := forall m r, rsa_open (fst k) (seal (snd k) m r) = Some m.
Definition encodings : Prop := (forall p, load_priv (der_priv p) = Some p) /\ (forall q, load_pub (der_pub q) = Some q).
(** The configuration to start with has no keys, or those of a pair *)
Definition text_of (b : bytes) : string := string_of_list_ascii (b64encode b).
Definition starts (c : devconfig) : Prop :=
  aes_keys c = None \/ exists k, matching k /\ aes_keys c = Some (text_of (der_priv (fst k)), text_of (der_pub (snd k))).
(** New pairs match *)
Definition fresh_match (e : event Priv Pub) : Prop := match e with EHandshake k => matching k | _ => True end.
End Laws.

(** JSON without blanks, for objects of texts: what json_dumps writes.  A new line, a quote
    and a backslash take two characters; other control characters do not occur here. *)
Definition escaped (c : ascii) : bytes :=
  if Ascii.eqb c (ascii_of_nat 10) then ["\"%char; "n"%char]
  else if Ascii.eqb c """" then ["\"%char; """"%char]
  else if Ascii.eqb c "\" then ["\"%char; "\"%char]
  else [c].
Definition quoted (s : string) : bytes := """"%char :: flat_map escaped (list_ascii_of_string s) ++ [""""%char].
Fixpoint joined (l : list bytes) : bytes :=
  match l with
  | [] => []
  | [x] => x
  | x :: l' => x ++ ","%char :: joined l'
  end.
Fixpoint written (j : json) : bytes :=
  match j with
  | JStr s => quoted s
  | JObj d => "{"%char :: joined (map (fun kv => quoted (fst kv) ++ ":"%char :: written (snd kv)) d) ++ ["}"%char]
  | _ => []
  end.

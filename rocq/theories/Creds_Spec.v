(** Specification of C117: stored credentials. *)
From Verif Require Import Base Py Crypto_Model Factory_Model Creds_Model.
Open Scope string_scope.
Open Scope list_scope.
Open Scope Z_scope.

(** JSON texts: an object of texts is read back as it was written, so is whatever
    was itself read from a text; no text is empty. *)
Definition texts_only (d : dict json) : Prop :=
  NoDup (map fst d) /\ forall k v, In (k, v) d -> exists s, v = JStr s.
Definition json_texts (dumps : json -> bytes) (loads : bytes -> option json) : Prop :=
  (forall d, texts_only d -> loads (dumps (JObj d)) = Some (JObj d)) /\
  (forall b j, loads b = Some j -> loads (dumps j) = Some j) /\
  (forall j, dumps j <> []).
(** The digests KLAP stores are not empty. *)
Definition digests (md5 sha256 : bytes -> bytes) : Prop :=
  forall m, md5 m <> [] /\ sha256 m <> [].

(** The configuration names one source of credentials, not both. *)
Definition one_source (c : devconfig) : Prop := creds c = None \/ creds_hash c = None.
(** A camera's user name and password are both given or both empty. *)
Definition whole_pair (c : devconfig) : Prop :=
  forall u p, creds c = Some (u, p) -> (u = "" <-> p = "").

(** A base64 text of [b] *)
Definition base64_of (j : json) (b : bytes) : Prop :=
  exists s, j = JStr s /\ b64decode (list_ascii_of_string s) = Ok b.
(** What a login_device request must hold for the account ([u], [p]): the user
    name's SHA-1, and the password itself (first version) or its SHA-1 under
    another name (second version), all in base64; nothing else. *)
Definition login_v1 (sha1_hex : bytes -> string) (u p : string) (params : json) : Prop :=
  exists d un pw, params = JObj d /\ dget "username" d = Some un /\ dget "password" d = Some pw /\ length d = 2%nat /\
    base64_of un (list_ascii_of_string (sha1_hex (list_ascii_of_string u))) /\
    base64_of pw (list_ascii_of_string p).
Definition login_v2 (sha1_hex : bytes -> string) (u p : string) (params : json) : Prop :=
  exists d un pw, params = JObj d /\ dget "username" d = Some un /\ dget "password2" d = Some pw /\ length d = 2%nat /\
    base64_of un (list_ascii_of_string (sha1_hex (list_ascii_of_string u))) /\
    base64_of pw (list_ascii_of_string (sha1_hex (list_ascii_of_string p))).

(** The reading of a stored camera hash: base64, then JSON *)
Definition read_hash (loads : bytes -> option json) (h : string) : option json :=
  match b64decode (list_ascii_of_string h) with Ok b => loads b | Err _ => None end.

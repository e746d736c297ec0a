(** Specification vocabulary for KLAP (C12, C13, C14, C61). *)
From Verif Require Import Base Crypto_Model Klap_Model.
Open Scope Z_scope.

(** The HTTP body of handshake 1: the server's seed and its proof. *)
Definition server_seed (data : bytes) : bytes := firstn 16 data.
Definition server_proof (data : bytes) : bytes := skipn 16 data.

(** What a server knowing [a] has to hash to prove it. *)
Definition proof_input (v : version) (local_seed remote_seed a : bytes) : bytes :=
  match v with V1 => local_seed ++ a | V2 => local_seed ++ remote_seed ++ a end.

Section Spec.
Variables md5 sha1 sha256 : bytes -> bytes.
Variables enc_block dec_block : bytes -> bytes -> bytes.
Variable J : Type.

(** ** What a run shows: events with what was posted. *)
Definition history := list (event * list post).

Definition is_h1 (p : post) : bool := match p with PHandshake1 _ => true | _ => false end.
Definition is_h2 (p : post) : bool := match p with PHandshake2 _ _ => true | _ => false end.
Definition is_request (p : post) : bool := match p with PRequest _ _ _ _ => true | _ => false end.

Definition status_of {A} (r : res (Z * A)) : option Z := match r with Ok (s, _) => Some s | Err _ => None end.

(** The life time a device grants. *)
Definition granted (t : timeout_cookie) : Z := match t with Timeout z => z | _ => 86400 end.

(** Which session is live after one more event, seen from outside: the time it
    expires and the handshake that made it. *)
Definition session_step (s : option (Z * world)) (ep : event * list post) : option (Z * world) :=
  match ep with
  | (EReset, _) => None
  | (ESend w _, posts) =>
      let s1 := if existsb is_h1 posts then
                  if existsb is_h2 posts && match w_h2 w with Ok z => z =? 200 | Err _ => false end
                  then Some (w_now1 w + granted (w_timeout w) - 1200, w)
                  else None
                else s in
      if existsb is_request posts && match status_of (w_req w) with Some z => z =? 403 | None => false end
      then None else s1
  end.
Definition session_after (h : history) : option (Z * world) := fold_left session_step h None.

(** ** What the server can decrypt: it derives key and IV from the seeds and the
    auth hash of the handshake. *)
Definition server_key (w : world) (auth : bytes) : bytes :=
  match w_h1 w with
  | Ok (_, data) => firstn 16 (sha256 (lit "lsk" ++ w_seed w ++ server_seed data ++ auth))
  | Err _ => []
  end.
Definition server_iv (w : world) (auth : bytes) : bytes :=
  match w_h1 w with
  | Ok (_, data) => firstn 12 (sha256 (lit "iv" ++ w_seed w ++ server_seed data ++ auth))
  | Err _ => []
  end.
Definition server_sig (w : world) (auth : bytes) : bytes :=
  match w_h1 w with
  | Ok (_, data) => firstn 28 (sha256 (lit "ldk" ++ w_seed w ++ server_seed data ++ auth))
  | Err _ => []
  end.
Definition server_reads (w : world) (auth : bytes) (seq : Z) (payload request : bytes) : Prop :=
  exists packed d, pack_i32 seq = Ok packed /\
    firstn 32 payload = sha256 (server_sig w auth ++ packed ++ skipn 32 payload) /\
    cbc_decrypt dec_block (server_key w auth) (server_iv w auth ++ packed) (skipn 32 payload) = Ok d /\
    pkcs7_unpad d = Ok request.

(** The body the server posts to make [reply] readable. *)
Definition server_writes (w : world) (auth : bytes) (seq : Z) (body reply : bytes) : Prop :=
  exists packed ct, pack_i32 seq = Ok packed /\ length (firstn 32 body) = 32%nat /\ skipn 32 body = ct /\
    cbc_encrypt enc_block (server_key w auth) (server_iv w auth ++ packed) (pkcs7_pad reply) = Ok ct.

(** What a server and a client knowing [a] compute from the two seeds. *)
Definition expected_proof (v : version) (local_seed remote_seed a : bytes) : bytes :=
  match v with V1 => sha256 (local_seed ++ a) | V2 => sha256 (local_seed ++ remote_seed ++ a) end.
Definition client_proof (v : version) (w : world) (a : bytes) : bytes :=
  match w_h1 w with
  | Ok (_, data) => match v with V1 => sha256 (server_seed data ++ a)
                            | V2 => sha256 (server_seed data ++ w_seed w ++ a) end
  | Err _ => []
  end.

(** The auth hash [a] explains the server's proof in the handshake [w]. *)
Definition proof_matches (v : version) (w : world) (a : bytes) : Prop :=
  exists data, w_h1 w = Ok (200, data) /\ length (server_proof data) = 32%nat /\
    server_proof data = expected_proof v (w_seed w) (server_seed data) a.

(** The device of handshake [w0] can read the posted request [m], and what it
    writes back as reply is what the caller gets. *)
Variable json_loads : bytes -> option (option J).
Definition readable (c : config) (w0 w : world) (q : Z) (payload m : bytes) (r : res J) : Prop :=
  exists a, In a (candidates md5 sha1 sha256 c) /\ proof_matches (c_version c) w0 a /\
    server_reads w0 a q payload m /\
    forall body reply, w_req w = Ok (200, body) -> server_writes w0 a q body reply ->
      r = match json_loads reply with Some (Some j) => Ok j | Some None => Err PyValueError | None => Err KKasa end.

(** The requests posted in a run. *)
Definition request_numbers (outs : list (list post * option (res J))) : list (nat * Z) :=
  flat_map (fun o => flat_map (fun p => match p with PRequest g s _ _ => [(g, s)] | _ => [] end) (fst o)) outs.
Definition later (a b : nat * Z) : Prop := (fst a < fst b)%nat \/ (fst a = fst b /\ snd a < snd b).
End Spec.

(** Assumed of the cryptographic library: digest size, block size, and that
    decryption inverts encryption under the same key. *)
Definition crypto_ok (sha256 : bytes -> bytes) (enc_block dec_block : bytes -> bytes -> bytes) : Prop :=
  (forall m, length (sha256 m) = 32%nat) /\
  (forall key b, length b = block -> length (enc_block key b) = block) /\
  (forall key b, length b = block -> dec_block key (enc_block key b) = b).

(** A sequence of messages encrypted one after the other, with the session after each. *)
Fixpoint encrypt_all (sha256 : bytes -> bytes) (enc_block : bytes -> bytes -> bytes) (s : session) (ms : list bytes)
  : list (session * res (bytes * Z)) :=
  match ms with
  | [] => []
  | m :: ms' => let o := klap_encrypt sha256 enc_block s m in o :: encrypt_all sha256 enc_block (fst o) ms'
  end.

(** The digest of a user's credentials: MD5-based for the first version of the
    protocol, SHA-based for the second. *)
Definition auth_of (md5 sha1 sha256 : bytes -> bytes) (v : version) (c : credentials) : bytes :=
  match v with
  | V1 => md5 (md5 (username c) ++ md5 (password c))
  | V2 => sha256 (sha1 (username c) ++ sha1 (password c))
  end.

(** The credentials a server may use, in the order in which they are tried:
    the user's, the built-in ones, none. *)
Definition accepted_credentials (user : credentials) : list credentials :=
  user :: map (fun kv => get_default_credentials (snd kv)) default_credentials_b64 ++ [blank_credentials].

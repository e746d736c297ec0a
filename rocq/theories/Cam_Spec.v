(** Specification vocabulary for the camera transport (C17, C63, C64): what an
    observer of the posts and replies knows about the session. *)
From Verif Require Import Base Py Codes_Model Crypto_Model Cam_Model.
From Verif Require Aes_Model Aes_Spec.
Open Scope string_scope.
Open Scope list_scope.
Open Scope Z_scope.

Notation code_in := Aes_Spec.code_in.
Notation field := Aes_Spec.field.
Notation auth_code := Aes_Spec.auth_code.

(** The body of a reply with status 200. *)
Definition body (r : reply) : option json :=
  match r with Ok (status, j) => if status =? 200 then Some j else None | Err _ => None end.
Definition obind {A B} (o : option A) (f : A -> option B) : option B :=
  match o with Some a => f a | None => None end.
(** j["result"]["data"][k] *)
Definition data_field (k : string) (j : json) : option json :=
  obind (field "result" j) (fun r => obind (field "data" r) (field k)).

(** The device asks for the less secure login: it reports an expired session and
    encryption types other than just "3". *)
Definition asks_plain (r : reply) : Prop :=
  exists j et, body r = Some j /\ code_in j = Some (-40401) /\ data_field "encrypt_type" j = Some et /\
    truthy et = true /\ et <> JArr [JStr "3"].

(** A session: keys, token, nonce and password hash. *)
Record session := mkSes { s_keys : bytes * bytes; s_url : string; s_nonce : string; s_pwd : string }.

Section Spec.
Variables enc_block dec_block : bytes -> bytes -> bytes.
Variable json_loads : bytes -> option json.
Variables md5_hex sha256_hex : bytes -> string.
Variable sha256 : bytes -> bytes.
Variable str_int : Z -> string.
Variable str_json : json -> string.
Variable wrap : bytes -> bytes.
Variable cfg : config.

(** The password in force: the credentials' unless blank, else the stored one,
    else the default one. *)
Definition secret : string :=
  let stored := match c_hash cfg with
                | Some (_, p) => if String.eqb p "" then "admin" else p
                | None => "admin" end in
  match c_creds cfg with
  | Some (u, p) => if String.eqb u "" && String.eqb p "" then stored else p
  | None => stored
  end.
(** The configured user name. *)
Definition user_name : option string :=
  match c_creds cfg with
  | Some (u, p) => if String.eqb u "" && String.eqb p "" then
                     match c_hash cfg with Some (u, _) => Some u | None => None end else Some u
  | None => match c_hash cfg with Some (u, _) => Some u | None => None end
  end.

(** The device's proof for a password hash. *)
Definition expected_confirm (n server ph : string) : string :=
  (sha256_hex (lit n ++ lit ph ++ lit server)%list ++ server ++ n)%string.

Definition hello_reply (w : world) (d : bool) : reply := if d then w_hello2 w else w_hello w.
(** The reply to a greeting proves the password: it offers a nonce, and confirms
    one of the two hashes of the password. *)
Definition proves (w : world) (d : bool) (n server ph : string) : Prop :=
  exists j, body (hello_reply w d) = Some j /\ code_in j = Some (-40413) /\
    data_field "nonce" j = Some (JStr server) /\
    data_field "device_confirm" j = Some (JStr (expected_confirm n server ph)) /\
    (ph = sha256_hex (lit secret) \/ ph = md5_hex (lit secret)).

(** Keys of the session. *)
Definition key_part (kind n server ph : string) : bytes :=
  firstn 16 (sha256 (lit kind ++ lit n ++ lit server ++ lit (sha256_hex (lit n ++ lit ph ++ lit server)))).
Definition keys (n server ph : string) : bytes * bytes :=
  (key_part "lsk" n server ph, key_part "ivb" n server ph).

(** The answer to the client's proof grants a session: first number and token. *)
Definition proof_grant (r : reply) : option (Z * string) :=
  obind (body r) (fun j =>
    match code_in j with
    | Some 0 => match obind (field "result" j) (field "start_seq"), obind (field "result" j) (field "stok") with
                | Some (JInt z), Some stok => Some (z, str_json stok)
                | _, _ => None
                end
    | _ => None
    end).
(** The less secure login was accepted: its token. *)
Definition plain_grant (r : reply) : option string :=
  obind (body r) (fun j =>
    match field "error_code" j with
    | Some (JInt 0) | Some (JBool false) =>
        match obind (field "result" j) (field "stok") with
        | Some stok => if truthy stok then Some (str_json stok) else None
        | None => None
        end
    | _ => None
    end).

(** ** The observer *)
Inductive known :=
| KNone
| KHello (d : bool) (n : string)            (* greeted, with this nonce *)
| KSecure (s : session) (next : Z)          (* session, number of the next request *)
| KOpen (url : string).                     (* logged in the less secure way *)
Record obs := mkObs { o_k : known; o_sent : bool }.

Definition refused (r : reply) : bool :=
  match body r with
  | Some j => match code_in j with Some c => auth_code c | None => false end
  | None => false
  end.

(** [srv] is the server's nonce in the reply to the greeting, [ph] the hash it
    confirms (the stronger one if it confirms both). *)
Definition server_nonce (w : world) (d : bool) : string :=
  match obind (body (hello_reply w d)) (data_field "nonce") with Some (JStr s) => s | _ => "" end.
Definition confirmed_hash (w : world) (d : bool) (n : string) : string :=
  let h := sha256_hex (lit secret) in
  match obind (body (hello_reply w d)) (data_field "device_confirm") with
  | Some (JStr c) => if String.eqb c (expected_confirm n (server_nonce w d) h) then h else md5_hex (lit secret)
  | _ => md5_hex (lit secret)
  end.

Definition obs_post (w : world) (o : obs) (p : post) : obs :=
  match p with
  | PHello d _ n => mkObs (KHello d n) (o_sent o)
  | PPlainLogin d _ _ =>
      mkObs (match plain_grant (if d then w_plain2 w else w_plain w) with
             | Some u => KOpen u | None => o_k o end) (o_sent o)
  | PProof _ n _ =>
      match o_k o with
      | KHello d n =>
          let server := server_nonce w d in
          let ph := confirmed_hash w d n in
          mkObs (match proof_grant (w_proof w) with
                 | Some (z, stok) => KSecure (mkSes (keys n server ph) stok n ph) z
                 | None => KNone end) (o_sent o)
      | _ => o
      end
  | PSecure _ _ _ _ =>
      mkObs (if refused (w_req w) then KNone
             else match o_k o with KSecure s q => KSecure s (q + 1) | k => k end) true
  | POpen _ _ => mkObs (if refused (w_req w) then KNone else o_k o) true
  end.
Definition obs_posts (w : world) (k : known) (ps : list post) : obs := fold_left (obs_post w) ps (mkObs k false).
Definition settle (k : known) : known := match k with KHello _ _ => KNone | _ => k end.
Definition known_step (k : known) (ep : event * list post) : known :=
  match ep with
  | (EReset, _) => KNone
  | (ESend w _, ps) => settle (o_k (obs_posts w k ps))
  end.
Definition known_after (h : list (event * list post)) : known := fold_left known_step h KNone.

(** ** What may be posted *)
Definition may_post (w : world) (request : bytes) (o : obs) (p : post) : Prop :=
  o_sent o = false /\
  match p with
  | PHello false u n => o_k o = KNone /\ n = w_n1 w /\ (Some u = user_name \/ u = "admin")
  | PHello true u n => (o_k o = KNone \/ exists n', o_k o = KHello false n') /\ n = w_n2 w /\ u = "admin"
  | PPlainLogin d u ph =>
      (exists n, o_k o = KHello d n) /\ asks_plain (hello_reply w d) /\
      (ph = md5_hex (lit secret) \/ ph = md5_hex (lit "admin"))
  | PProof _ n digest =>
      exists d server ph, o_k o = KHello d n /\ proves w d n server ph /\
        digest = (sha256_hex (lit ph ++ lit n ++ lit server)%list ++ n ++ server)%string
  | PSecure u payload q tag =>
      exists s, o_k o = KSecure s q /\ u = Some (s_url s) /\
        Aes_Model.aes_decrypt dec_block (s_keys s) payload = Ok request /\
        tag = sha256_hex (lit (sha256_hex (lit (s_pwd s) ++ lit (s_nonce s))) ++ wrap payload ++ lit (str_int q))
  | POpen u m => m = request /\ exists url, o_k o = KOpen url /\ u = Some url
  end.
Definition lawful (w : world) (request : bytes) (k : known) (ps : list post) : Prop :=
  forall pre p post, ps = pre ++ p :: post -> may_post w request (obs_posts w k pre) p.

(** Devices of one kind: never granting the less secure login, or never granting
    an encrypted session. *)
Definition only_secure (e : event) : Prop :=
  match e with ESend w _ => plain_grant (w_plain w) = None /\ plain_grant (w_plain2 w) = None | EReset => True end.
Definition only_plain (e : event) : Prop :=
  match e with ESend w _ => proof_grant (w_proof w) = None | EReset => True end.

(** How the reply to a request under the session keys [s] is reported.  A reply
    without an encrypted part is the answer itself. *)
Definition answer (s : bytes * bytes) (j : json) : option json :=
  match field "result" j with
  | None => Some j
  | Some (JObj result) =>
      match dget "response" result with
      | None => Some j
      | Some (JStr raw) =>
          match Aes_Model.aes_decrypt dec_block s (lit raw) with
          | Ok text => match json_loads text with Some v => Some v | None => json_loads (lit raw) end
          | Err _ => json_loads (lit raw)
          end
      | Some _ => None
      end
  | Some _ => None
  end.
Definition outcome (ans : json -> option json) (r : reply) (out : res json) : Prop :=
  match r with
  | Err e => out = Err e
  | Ok (status, j) =>
      if status =? 200 then
        match code_in j with
        | Some 0 => match ans j with Some v => out = Ok v | None => True end
        | Some c => if auth_code c then out = Err (KAuth (Some c)) else exists e, out = Err e
        | None => exists e, out = Err e
        end
      else exists e, out = Err e
  end.
Definition secure_outcome (s : bytes * bytes) := outcome (answer s).
Definition open_outcome := outcome Some.
End Spec.

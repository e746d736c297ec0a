(** Properties C15 and C16: the AES transport. *)
From Verif Require Import Base Base_Lemmas Py Codes_Model Crypto_Model Crypto_Proofs Aes_Model Aes_Spec Aes_Proofs.
From Verif Require Klap_Model.
Open Scope Z_scope.
Open Scope string_scope.
Open Scope list_scope.

(** The block cipher: [dec_block key] undoes [enc_block key] on blocks. *)
Definition cipher_ok (enc_block dec_block : bytes -> bytes -> bytes) : Prop :=
  (forall key b, length b = block -> length (enc_block key b) = block) /\
  (forall key b, length b = block -> dec_block key (enc_block key b) = b).

(** Every handshake key offered in the history can be used. *)
Definition all_keys_usable (open_key : json -> res bytes) (es : list event) : Prop :=
  forall w m, In (ESend w m) es -> keys_usable open_key (w_hs w) /\ keys_usable open_key (w_hs2 w).

Lemma all_keys_ok open_key es : all_keys_usable open_key es -> Forall (keys_ok open_key) es.
Proof. intro H. apply Forall_forall. intros [w m|] Hin; [exact (H _ _ Hin) | exact I]. Qed.

(** * C15: order of handshake, login and request *)

(** After any history of sends and resets, the posts of the next send follow the
    rules of [may_post], judged by what the replies so far said. *)
Theorem aes_order_partial : forall enc_block dec_block json_loads open_key login_text es t outs w m t' p r,
  cipher_ok enc_block dec_block ->
  all_keys_usable open_key (es ++ [ESend w m]) ->
  run enc_block dec_block json_loads open_key login_text init es = (t, outs) ->
  step enc_block dec_block json_loads open_key login_text t (ESend w m) = (t', p, r) ->
  lawful dec_block json_loads open_key login_text w m
    (known_after dec_block json_loads open_key (combine es (map fst outs))) p.
Proof.
  intros eb db jl ok lt es t outs w m t' p r [H1 H2] Hk. apply all_keys_ok in Hk. apply Forall_app in Hk.
  destruct Hk as [Hk1 Hk2]. inversion Hk2; subst. now apply history_lemma.
Qed.
Print Assumptions aes_order_partial.

(** What the next send posts and returns: with a live session only the request;
    after a handshake whose login failed otherwise, login and request; with no
    or an expired session, handshake, login and request; a login refused with an
    authentication error other than a login error ends the send with that error. *)
Theorem aes_send_outcome_partial : forall enc_block dec_block json_loads open_key login_text es t outs w m t' p r,
  cipher_ok enc_block dec_block ->
  all_keys_usable open_key es ->
  run enc_block dec_block json_loads open_key login_text init es = (t, outs) ->
  step enc_block dec_block json_loads open_key login_text t (ESend w m) = (t', p, Some r) ->
  let s := known_after dec_block json_loads open_key (combine es (map fst outs)) in
  let outcome g := reply_outcome dec_block json_loads (g_sess g) (w_req w) r in
  let verdict g := login_verdict dec_block json_loads (g_sess g) (w_login w) in
  (forall g tok, s = OLive g tok -> w_now w < g_exp g ->
     outcome g /\ exists p2, p = [PRequest (Some tok) (g_cookie g) p2]) /\
  (forall g tok, s = OShaken g -> w_now w < g_exp g -> verdict g = LToken tok ->
     outcome g /\
     exists p1 p2, p = [PLogin false None (g_cookie g) p1; PRequest (Some tok) (g_cookie g) p2]) /\
  (match expires s with Some e => e <= w_now w | None => True end ->
     forall g, grant_of open_key (w_hs w) = Some g ->
     (forall tok, verdict g = LToken tok ->
        outcome g /\
        exists p1 p2, p = [PHandshake; PLogin false None (g_cookie g) p1; PRequest (Some tok) (g_cookie g) p2]) /\
     (forall c, verdict g = LAuth c -> c <> Some (-1501) ->
        r = Err (KAuth c) /\ exists p1, p = [PHandshake; PLogin false None (g_cookie g) p1])).
Proof.
  intros eb db jl ok lt es t outs w m t' p r [H1 H2] Hk Hr Hs s outcome verdict.
  exact (outcome_lemma eb db jl ok lt H1 H2 es t outs w m t' p r (all_keys_ok _ _ Hk) Hr Hs).
Qed.
Print Assumptions aes_send_outcome_partial.

(** * C16: the session cipher *)

(** For every 16-byte IV, what is encrypted decrypts to itself. *)
Theorem aes_round_trip : forall enc_block dec_block key iv m,
  cipher_ok enc_block dec_block -> length iv = 16%nat ->
  exists c, aes_encrypt enc_block (key, iv) m = Ok c /\ aes_decrypt dec_block (key, iv) c = Ok m.
Proof. intros eb db key iv m [H1 H2] Hl. now apply round_trip_lemma. Qed.
Print Assumptions aes_round_trip.

(** Distinct messages have distinct ciphertexts. *)
Theorem aes_injective : forall enc_block dec_block key iv m1 m2,
  cipher_ok enc_block dec_block -> length iv = 16%nat ->
  aes_encrypt enc_block (key, iv) m1 = aes_encrypt enc_block (key, iv) m2 -> m1 = m2.
Proof.
  intros eb db key iv m1 m2 [H1 H2] Hl H.
  destruct (round_trip_lemma eb db H1 H2 (key, iv) m1 Hl) as (c1 & E1 & D1).
  destruct (round_trip_lemma eb db H1 H2 (key, iv) m2 Hl) as (c2 & E2 & D2). congruence.
Qed.
Print Assumptions aes_injective.

(** The padding: a whole number of blocks, at least one byte, and unpadding
    accepts exactly the padded texts. *)
Theorem aes_padding : forall m d,
  Nat.modulo (length (pkcs7_pad m)) 16 = 0%nat /\ (length m < length (pkcs7_pad m) <= length m + 16)%nat /\
  (pkcs7_unpad d = Ok m <-> d = pkcs7_pad m).
Proof.
  intros m d. split; [apply pad_whole|]. split.
  - unfold pkcs7_pad. rewrite app_length, repeat_length.
    pose proof (Nat.mod_upper_bound (length m) 16 ltac:(lia)). unfold block. lia.
  - split; [apply pad_unpad | intros ->; apply unpad_pad].
Qed.
Print Assumptions aes_padding.

(** A session key is accepted only with exactly 32 bytes: 16 of key, 16 of IV. *)
Theorem aes_session_key : forall kv s,
  new_session kv = Ok s <-> (length kv = 32%nat /\ kv = fst s ++ snd s /\ length (fst s) = 16%nat).
Proof.
  intros kv [k v]. rewrite new_session_total. cbn [fst snd]. destruct (Nat.eqb (length kv) 32) eqn:E.
  - apply Nat.eqb_eq in E. split.
    + pose proof (firstn_skipn 16 kv) as Hfs. pose proof (firstn_length 16 kv) as Hf. rewrite E in Hf. revert Hfs Hf.
      generalize (firstn 16 kv) (skipn 16 kv). intros a b <- Hf H. injection H as <- <-. split; [exact E|]. split; [reflexivity | exact Hf].
    + intros (_ & -> & Hk).
      assert (F : firstn 16 (k ++ v) = k) by (rewrite <- Hk; now rewrite firstn_app, firstn_all, Nat.sub_diag, app_nil_r).
      assert (S : skipn 16 (k ++ v) = v) by (rewrite <- Hk; now rewrite skipn_app, skipn_all, Nat.sub_diag).
      now rewrite F, S.
  - apply Nat.eqb_neq in E. split; [discriminate | intros [H _]; contradiction].
Qed.
Print Assumptions aes_session_key.

(** * Concrete cases *)
Definition toy_cipher (key b : bytes) : bytes := map (fun c => ascii_of_nat (255 - nat_of_ascii c)) b.
Lemma toy_ok : cipher_ok toy_cipher toy_cipher.
Proof.
  split; intros key b Hb; unfold toy_cipher; [now rewrite map_length|].
  rewrite map_map. rewrite <- map_id. apply map_ext. intros [[] [] [] [] [] [] [] []]; vm_compute; reflexivity.
Qed.
Definition toy_token : json := JObj [("error_code", JInt 0); ("result", JObj [("token", JStr "tok")])].
Definition toy_json (b : bytes) : option json :=
  if Klap_Model.bytes_eqb b (lit "T") then Some toy_token
  else if Klap_Model.bytes_eqb b (lit "A") then Some (JStr "answer") else None.
Definition toy_open (j : json) : res bytes := match j with JStr s => Ok (lit s) | _ => Err PyTypeError end.
Definition toy_text (default : bool) : bytes := lit (if default then "login-default" else "login").
Definition key_a : string := "0123456789abcdefFEDCBA9876543210".
Definition key_b : string := "fedcba98765432100123456789ABCDEF".
Definition toy_sess (k : string) : bytes * bytes := (firstn 16 (lit k), skipn 16 (lit k)).
Definition toy_hs (now timeout : Z) (key : string) : hs_reply :=
  mkHs (Ok (200, JObj [("error_code", JInt 0); ("result", JObj [("key", JStr key)])]))
       (Some "cookie") (Klap_Model.Timeout timeout) now.
Definition toy_reply (key text : string) : reply :=
  match aes_encrypt toy_cipher (toy_sess key) (lit text) with
  | Ok c => Ok (200, JObj [("error_code", JInt 0); ("result", JObj [("response", JStr (string_of_list_ascii c))])])
  | Err e => Err e
  end.
Definition toy_code (c : Z) : reply := Ok (200, JObj [("error_code", JInt c)]).
Notation toy_run := (run toy_cipher toy_cipher toy_json toy_open toy_text).
Notation toy_step := (step toy_cipher toy_cipher toy_json toy_open toy_text).
Definition kinds (ps : list post) : list string :=
  map (fun p => match p with
                | PHandshake => "handshake"
                | PLogin false _ _ _ => "login" | PLogin true _ _ _ => "login default"
                | PRequest None _ _ => "request without token" | PRequest (Some _) _ _ => "request" end) ps.
(** A device that grants sessions of 100 usable seconds. *)
Definition toy_world (now : Z) (key : string) (login login2 req : reply) : world :=
  mkW now (toy_hs now 1300 key) login (toy_hs now 1300 key) login2 req.
Definition toy_history : list event :=
  let good := toy_reply key_a "T" in
  let answer := toy_reply key_a "A" in
  [ESend (toy_world 0 key_a good good answer) (lit "one");
   ESend (toy_world 99 key_a good good answer) (lit "two");
   ESend (toy_world 100 key_a (toy_code (-1501)) good answer) (lit "three");
   ESend (toy_world 101 key_a good good (toy_code 9999)) (lit "four");
   ESend (toy_world 102 key_a (toy_code 1002) good answer) (lit "five");
   ESend (toy_world 103 key_a (toy_code 1003) good answer) (lit "six");
   EReset; ESend (toy_world 104 key_a good good answer) (lit "seven")].

Example aes_history_ex :
  map (fun o => (kinds (fst o), snd o)) (snd (toy_run init toy_history)) =
    [(["handshake"; "login"; "request"], Some (Ok (JStr "answer")));
     (["request"], Some (Ok (JStr "answer")));
     (["handshake"; "login"; "handshake"; "login default"; "request"], Some (Ok (JStr "answer")));
     (["request"], Some (Err (KRetry (Some 9999))));
     (["request"], Some (Ok (JStr "answer")));
     (["request"], Some (Ok (JStr "answer")));
     ([], None);
     (["handshake"; "login"; "request"], Some (Ok (JStr "answer")))].
Proof. vm_compute. reflexivity. Qed.

Lemma toy_keys now timeout key : length (lit key) = 32%nat -> keys_usable toy_open (toy_hs now timeout key).
Proof.
  intros H k. unfold offered_key, toy_hs. cbn. intro E. injection E as <-. unfold usable, toy_open. now rewrite H.
Qed.
Example aes_history_keys : all_keys_usable toy_open toy_history.
Proof.
  intros w m H. unfold toy_history in H. cbn [In] in H.
  repeat (destruct H as [H|H]; [try discriminate; injection H as <- <-; split; apply toy_keys; reflexivity|]).
  contradiction.
Qed.

(** Login failures: an authentication error calls for a new handshake, other
    errors only for a new login. *)
Example aes_login_failure_ex :
  let good := toy_reply key_a "T" in
  let answer := toy_reply key_a "A" in
  map (fun o => (kinds (fst o), snd o)) (snd (toy_run init
    [ESend (toy_world 0 key_a (toy_code 1003) good answer) (lit "one");
     ESend (toy_world 1 key_a (toy_code 1002) good answer) (lit "two");
     ESend (toy_world 2 key_a good good (toy_code 1003)) (lit "three");
     ESend (toy_world 3 key_a good good answer) (lit "four")])) =
    [(["handshake"; "login"], Some (Err (KAuth (Some 1003))));
     (["handshake"; "login"], Some (Err (KRetry (Some 1002))));
     (["login"; "request"], Some (Err (KAuth (Some 1003))));
     (["handshake"; "login"; "request"], Some (Ok (JStr "answer")))].
Proof. vm_compute. reflexivity. Qed.

(** Without usable keys the order is broken: a session that expires, and whose
    renewal offers a key that cannot be used, leaves the transport established
    under the old key and without token; the next request is posted at once,
    without handshake, login or token. *)
Definition bug_es : list event :=
  let good := toy_reply key_a "T" in
  let answer := toy_reply key_a "A" in
  [ESend (toy_world 0 key_a good good answer) (lit "one");
   ESend (toy_world 100 "short" good good answer) (lit "two")].
Definition bug_t : aes := fst (toy_run init bug_es).
Definition bug_w : world := toy_world 101 key_b (toy_reply key_a "T") (toy_reply key_a "T") (toy_reply key_a "A").
Lemma no_request db jl ok lt w m s ps : s = ONone -> kinds ps = ["request without token"] -> ~ lawful db jl ok lt w m s ps.
Proof.
  intros -> Hk H. destruct ps as [|p [|q ps]]; try discriminate Hk.
  specialize (H [] p [] eq_refl). cbn [obs_posts fold_left] in H. destruct p as [|[] ? ? ?|[] ? ?]; try discriminate Hk.
  destruct H as (_ & g & tok & Ho & _). discriminate Ho.
Qed.
Theorem aes_order_unusable_key_refuted :
  exists es t outs w m t' p r,
    cipher_ok toy_cipher toy_cipher /\
    toy_run init es = (t, outs) /\ toy_step t (ESend w m) = (t', p, Some r) /\
    known_after toy_cipher toy_json toy_open (combine es (map fst outs)) = ONone /\
    kinds p = ["request without token"] /\
    ~ lawful toy_cipher toy_json toy_open toy_text w m
        (known_after toy_cipher toy_json toy_open (combine es (map fst outs))) p.
Proof.
  exists bug_es, bug_t, (snd (toy_run init bug_es)), bug_w, (lit "three"),
    (fst (fst (toy_step bug_t (ESend bug_w (lit "three"))))),
    (snd (fst (toy_step bug_t (ESend bug_w (lit "three"))))), (Ok (JStr "answer")).
  split; [exact toy_ok|]. split; [vm_compute; reflexivity|]. split; [vm_compute; reflexivity|].
  split; [vm_compute; reflexivity|]. split; [vm_compute; reflexivity|].
  apply no_request; vm_compute; reflexivity.
Qed.
Print Assumptions aes_order_unusable_key_refuted.

Example aes_round_trip_ex : exists c,
  aes_encrypt toy_cipher (toy_sess key_a) (lit "hello") = Ok c /\ length c = 24%nat /\
  aes_decrypt toy_cipher (toy_sess key_a) c = Ok (lit "hello") /\
  (exists e, aes_decrypt toy_cipher (toy_sess key_b) (lit "AAAA") = Err e).
Proof. eexists. repeat split; try (vm_compute; reflexivity). eexists. vm_compute. reflexivity. Qed.

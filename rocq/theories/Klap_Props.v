(** Properties C12, C13, C14, C61, C62: the KLAP transport. *)
From Coq Require Import Sorted.
From Verif Require Import Base Base_Lemmas Crypto_Model Crypto_Proofs Klap_Model Klap_Spec Klap_Proofs.
Open Scope Z_scope.

(** * C12: whom the client accepts *)

(** A successful handshake 1 names the first accepted credential that explains
    the server's proof. *)
Theorem klap_handshake_accepts : forall md5 sha1 sha256 v user h c seed status data l r a,
  make_config md5 sha1 sha256 v (Some user) h = Ok c ->
  handshake1 md5 sha1 sha256 c seed status data = Ok (l, r, a) ->
  status = 200 /\ length (server_proof data) = 32%nat /\ l = seed /\ r = server_seed data /\
  exists pre cred post, accepted_credentials user = pre ++ cred :: post /\
    a = auth_of md5 sha1 sha256 v cred /\
    server_proof data = expected_proof sha256 v seed (server_seed data) (auth_of md5 sha1 sha256 v cred) /\
    Forall (fun cr => server_proof data <>
              expected_proof sha256 v seed (server_seed data) (auth_of md5 sha1 sha256 v cr)) pre.
Proof. exact handshake_user_lemma. Qed.
Print Assumptions klap_handshake_accepts.

(** A server that proves any accepted credential is accepted. *)
Theorem klap_handshake_complete : forall md5 sha1 sha256 v user h c seed data cred,
  make_config md5 sha1 sha256 v (Some user) h = Ok c ->
  In cred (accepted_credentials user) -> length (server_proof data) = 32%nat ->
  server_proof data = expected_proof sha256 v seed (server_seed data) (auth_of md5 sha1 sha256 v cred) ->
  exists a, handshake1 md5 sha1 sha256 c seed 200 data = Ok (seed, server_seed data, a).
Proof. exact handshake_user_complete. Qed.
Print Assumptions klap_handshake_complete.

(** Otherwise it fails: malformed answers with a plain error, an unexplained
    proof with an authentication error. *)
Theorem klap_handshake_refuses : forall md5 sha1 sha256 v user h c seed status data e,
  make_config md5 sha1 sha256 v (Some user) h = Ok c ->
  handshake1 md5 sha1 sha256 c seed status data = Err e ->
  ((status <> 200 \/ length (server_proof data) <> 32%nat) /\ e = KKasa) \/
  (e = KAuth None /\ forall cred, In cred (accepted_credentials user) ->
     server_proof data <> expected_proof sha256 v seed (server_seed data) (auth_of md5 sha1 sha256 v cred)).
Proof. exact handshake_user_errors. Qed.
Print Assumptions klap_handshake_refuses.

(** A server holding another secret is accepted only if the two different inputs of the proofs
    happen to have the same hash. *)
Theorem klap_handshake_secret : forall md5 sha1 sha256 v c seed status data l r a b,
  c_version c = v -> handshake1 md5 sha1 sha256 c seed status data = Ok (l, r, a) ->
  server_proof data = expected_proof sha256 v seed (server_seed data) b ->
  a = b \/ (proof_input v seed (server_seed data) a <> proof_input v seed (server_seed data) b /\
            sha256 (proof_input v seed (server_seed data) a) = sha256 (proof_input v seed (server_seed data) b)).
Proof. exact handshake_collision. Qed.
Print Assumptions klap_handshake_secret.

(** * C13: message encryption *)

(** The i-th message after a handshake carries the number start + 1 + i, its IV
    is the session's IV followed by that number, and it decrypts to itself.
    Outside the signed 32-bit range encryption fails. *)
Theorem klap_messages_round_trip : forall sha256 enc_block dec_block local remote auth,
  crypto_ok sha256 enc_block dec_block ->
  let s := new_session sha256 local remote auth in
  forall ms i m, nth_error ms i = Some m ->
  let q := s_seq s + 1 + Z.of_nat i in
  exists s' r, nth_error (encrypt_all sha256 enc_block s ms) i = Some (s', r) /\
    s_iv s' = s_iv s /\ s_key s' = s_key s /\
    match r with
    | Ok (payload, q') => q' = q /\ - 2 ^ 31 <= q < 2 ^ 31 /\ klap_decrypt dec_block s' payload = Ok m /\
        (exists packed, pack_i32 q = Ok packed /\ s_cipher s' = Some (s_iv s ++ packed))
    | Err e => e = PyStructError /\ ~ (- 2 ^ 31 <= q < 2 ^ 31)
    end.
Proof.
  intros sha256 enc_block dec_block local remote auth (H1 & H2 & H3) s ms i m Hn.
  exact (encrypt_all_nth sha256 sha256 sha256 enc_block dec_block unit (fun _ => None) H1 H2 H3 ms s i m Hn (new_session_iv sha256 H1 local remote auth)).
Qed.
Print Assumptions klap_messages_round_trip.

(** Different numbers give different IVs. *)
Theorem klap_iv_distinct : forall (iv : bytes) q q' p p',
  pack_i32 q = Ok p -> pack_i32 q' = Ok p' -> iv ++ p = iv ++ p' -> q = q'.
Proof. intros iv q q' p p' H1 H2 H. apply app_inv_head in H. subst p'. eapply pack_i32_injective; eauto. Qed.
Print Assumptions klap_iv_distinct.

(** The start of the counter lies in the range. *)
Theorem klap_counter_start : forall sha256 local remote auth, (forall m, length (sha256 m) = 32%nat) ->
  - 2 ^ 31 <= s_seq (new_session sha256 local remote auth) < 2 ^ 31.
Proof. intros sha256 local remote auth H. apply new_session_seq, H. Qed.
Print Assumptions klap_counter_start.

(** * C14: the life of a session *)

(** With a live session the request is posted at once under that session;
    without one, or after its expiry, nothing but a handshake is posted first,
    and the request only follows a handshake the device completed.  Either way
    the device can read exactly the request, and the answer it encrypts is the
    one returned. *)
Theorem klap_request_needs_session : forall md5 sha1 sha256 enc_block dec_block J json_loads c es t outs w m t' p r,
  crypto_ok sha256 enc_block dec_block ->
  run md5 sha1 sha256 enc_block dec_block J json_loads c init es = (t, outs) ->
  klap_send md5 sha1 sha256 enc_block dec_block J json_loads c w t m = (t', p, r) ->
  match session_after (combine es (map fst outs)) with
  | Some (exp, w0) =>
      w_now w < exp ->
      (p = [] /\ r = Err PyStructError) \/
      exists q payload, p = [PRequest (gen t) q payload (w_cookie w0)] /\
        readable md5 sha1 sha256 enc_block dec_block J json_loads c w0 w q payload m r
  | None => True
  end /\
  (match session_after (combine es (map fst outs)) with Some (exp, _) => exp <= w_now w | None => True end ->
   exists rest, p = PHandshake1 (w_seed w) :: rest /\
     (rest = [] \/
      exists y rest', rest = PHandshake2 y (w_cookie w) :: rest' /\
        (exists a, In a (candidates md5 sha1 sha256 c) /\ proof_matches sha256 (c_version c) w a /\
                   y = client_proof sha256 (c_version c) w a) /\
        (rest' = [] \/
         exists q payload, rest' = [PRequest (S (gen t)) q payload (w_cookie w)] /\ w_h2 w = Ok 200 /\
           readable md5 sha1 sha256 enc_block dec_block J json_loads c w w q payload m r))).
Proof.
  intros md5 sha1 sha256 enc_block dec_block J json_loads c es t outs w m t' p r (H1 & H2 & H3) Hr Hs.
  eapply send_shape; eauto. eapply run_session; eauto.
Qed.
Print Assumptions klap_request_needs_session.

(** The next state: [session_after] itself is the observer's bookkeeping of what
    was posted and answered; 403 ends the session, other statuses keep it. *)
Theorem klap_request_outcome : forall md5 sha1 sha256 enc_block dec_block J json_loads c es t outs w m t' p r,
  crypto_ok sha256 enc_block dec_block ->
  run md5 sha1 sha256 enc_block dec_block J json_loads c init es = (t, outs) ->
  klap_send md5 sha1 sha256 enc_block dec_block J json_loads c w t m = (t', p, r) ->
  existsb is_request p = true ->
  match w_req w with
  | Err e => r = Err e
  | Ok (st, _) => (st = 403 -> r = Err (KRetry None)) /\ (st <> 403 -> st <> 200 -> r = Err KKasa)
  end.
Proof.
  intros md5 sha1 sha256 enc_block dec_block J json_loads c es t outs w m t' p r (H1 & H2 & H3) Hr Hs Hp.
  eapply send_outcome; eauto. eapply run_session; eauto.
Qed.
Print Assumptions klap_request_outcome.

(** No two requests of a transport share a session and a number. *)
Theorem klap_numbers_increase : forall md5 sha1 sha256 enc_block dec_block J json_loads c es t outs,
  crypto_ok sha256 enc_block dec_block ->
  run md5 sha1 sha256 enc_block dec_block J json_loads c init es = (t, outs) ->
  StronglySorted later (request_numbers J outs).
Proof.
  intros md5 sha1 sha256 enc_block dec_block J json_loads c es t outs (H1 & H2 & H3) Hr.
  eapply run_numbers with (s := None); eauto. reflexivity.
Qed.
Print Assumptions klap_numbers_increase.

(** * C61: the stored credentials hash *)

(** A transport built from the stored hash accepts the same servers as the one
    built from the credentials, and stores the same hash again. *)
Theorem klap_credentials_hash_restores : forall md5 sha1 sha256 v user c h,
  auth_of md5 sha1 sha256 v user <> [] ->
  make_config md5 sha1 sha256 v (Some user) None = Ok c -> credentials_hash c = Some h ->
  exists c', make_config md5 sha1 sha256 v None (Some h) = Ok c' /\
    c_version c' = c_version c /\ credentials_hash c' = Some h /\
    forall seed status data, handshake1 md5 sha1 sha256 c' seed status data =
                             handshake1 md5 sha1 sha256 c seed status data.
Proof.
  intros md5 sha1 sha256 v user c h Hne Hc Hh.
  destruct (cred_hash_total md5 sha1 sha256 v user c h Hc Hh) as [c' Hc'].
  destruct (cred_hash_lemma md5 sha1 sha256 v user c h c' Hc Hne Hh Hc') as (E1 & E2 & E3).
  exists c'. repeat split; auto. intros. unfold handshake1. now rewrite E1, E2.
Qed.
Print Assumptions klap_credentials_hash_restores.

(** * C62: what escapes from a KLAP send *)

(** Given an HTTP client that raises library exceptions only, every failure of a
    send is a library exception, except in three cases. *)
Theorem klap_send_failures_partial : forall md5 sha1 sha256 enc_block dec_block J json_loads c es t outs w m t' p e,
  crypto_ok sha256 enc_block dec_block ->
  run md5 sha1 sha256 enc_block dec_block J json_loads c init es = (t, outs) ->
  klap_send md5 sha1 sha256 enc_block dec_block J json_loads c w t m = (t', p, Err e) ->
  (forall e', w_h1 w = Err e' -> is_kasa e' = true) -> (forall e', w_h2 w = Err e' -> is_kasa e' = true) ->
  (forall e', w_req w = Err e' -> is_kasa e' = true) ->
  is_kasa e = true \/ e = PyStructError \/
  (e = PyValueError /\ (w_timeout w = BadTimeout \/ exists plain, json_loads plain = Some None)).
Proof.
  intros md5 sha1 sha256 enc_block dec_block J json_loads c es t outs w m t' p e (H1 & H2 & H3) Hr Hs.
  eapply send_errors; eauto. eapply run_session; eauto.
Qed.
Print Assumptions klap_send_failures_partial.

(** ** A concrete device, with a transparent "hash" and "cipher" *)
Definition toy_hash (n : nat) (m : bytes) : bytes := firstn n (m ++ repeat Ascii.zero n).
Definition toy_sha256 := toy_hash 32.
Definition toy_md5 (m : bytes) : bytes := firstn 4 m ++ lit "h".
Definition toy_cipher (key b : bytes) : bytes := b.
Definition toy_json (b : bytes) : option (option nat) := match b with [] => Some None | _ => Some (Some (length b)) end.

Lemma toy_ok : crypto_ok toy_sha256 toy_cipher toy_cipher.
Proof.
  split; [|split].
  - intro m. unfold toy_sha256, toy_hash. rewrite firstn_length, app_length, repeat_length. lia.
  - auto.
  - auto.
Qed.

Definition me : credentials := mkCred (lit "user") (lit "pass").
Definition toy_config (v : version) : config :=
  mkCfg v (Some me) (auth_of toy_md5 toy_md5 toy_sha256 v me).
Definition seed_a : bytes := lit "localseed-123456".
Definition seed_b : bytes := lit "remoteseed-12345".
Definition good_h1 (v : version) (remote : bytes) : bytes :=
  remote ++ expected_proof toy_sha256 v seed_a remote (auth_of toy_md5 toy_md5 toy_sha256 v me).
Definition toy_world (now : Z) (remote : bytes) (timeout : timeout_cookie) (req : res (Z * bytes)) : world :=
  mkWorld now seed_a (Ok (200, good_h1 V2 remote)) (Some "cookie"%string) timeout now (Ok 200) req.
Notation toy_run := (run toy_md5 toy_md5 toy_sha256 toy_cipher toy_cipher nat toy_json (toy_config V2)).

Example klap_handshake_ex :
  make_config toy_md5 toy_md5 toy_sha256 V2 (Some me) None = Ok (toy_config V2) /\
  handshake1 toy_md5 toy_md5 toy_sha256 (toy_config V2) seed_a 200 (good_h1 V2 seed_b) =
    Ok (seed_a, seed_b, auth_of toy_md5 toy_md5 toy_sha256 V2 me) /\
  handshake1 toy_md5 toy_md5 toy_sha256 (toy_config V1) seed_a 200 (seed_b ++ repeat Ascii.zero 32) = Err (KAuth None) /\
  handshake1 toy_md5 toy_md5 toy_sha256 (toy_config V1) seed_a 200 seed_b = Err KKasa.
Proof. vm_compute. repeat split. Qed.

(** Two requests in one session, a 403, a new handshake, an expired session. *)
Example klap_run_ex :
  let bad := Ok (500, []) in
  map (fun o => (map (fun p => match p with PHandshake1 _ => 1 | PHandshake2 _ _ => 2 | PRequest g _ _ _ => 10 + Z.of_nat g end) (fst o), snd o))
    (snd (toy_run init
       [ESend (toy_world 0 seed_b NoTimeout bad) (lit "one"); ESend (toy_world 5 seed_b NoTimeout bad) (lit "two");
        ESend (toy_world 6 seed_b NoTimeout (Ok (403, []))) (lit "three");
        ESend (toy_world 7 seed_b (Timeout 1300) bad) (lit "four");
        ESend (toy_world 106 seed_b NoTimeout bad) (lit "five"); ESend (toy_world 107 seed_b NoTimeout bad) (lit "six")]))
  = [([1; 2; 11], Some (Err KKasa)); ([11], Some (Err KKasa)); ([11], Some (Err (KRetry None)));
     ([1; 2; 12], Some (Err KKasa)); ([12], Some (Err KKasa)); ([1; 2; 13], Some (Err KKasa))].
Proof. vm_compute. reflexivity. Qed.

Example klap_hash_ex : exists h, credentials_hash (toy_config V2) = Some h /\ auth_of toy_md5 toy_md5 toy_sha256 V2 me <> [].
Proof. eexists. split; [vm_compute; reflexivity | vm_compute; discriminate]. Qed.

(** The counter starts at the top of its range: the first request already fails
    with struct.error, and so does every later one, since the session stays. *)
Definition seed_top : bytes := firstn 10 seed_b ++ [ascii_of_N 127; ascii_of_N 255; ascii_of_N 255; ascii_of_N 255; ascii_of_N 0; ascii_of_N 0].
Theorem klap_counter_exhausted_refuted :
  exists es1 t, fst (toy_run init es1) = t /\
  (forall e, In e es1 -> exists w m, e = ESend w m /\ w_req w = Ok (200, [])) /\
  forall es, (forall e, In e es -> exists now m, e = ESend (toy_world now seed_b NoTimeout (Ok (200, []))) m /\ now < 85200) ->
    Forall (fun o => o = ([], Some (Err PyStructError))) (snd (toy_run t es)).
Proof.
  exists [ESend (toy_world 0 seed_top NoTimeout (Ok (200, []))) (lit "x")].
  eexists. split; [reflexivity|]. split.
  { intros e [<-|[]]. do 2 eexists. split; reflexivity. }
  set (t := fst _).
  assert (G : forall es t, done t = true -> expire_at t = Some 85200 ->
    (exists s, sess t = Some s /\ 2 ^ 31 <= s_seq s) ->
    (forall e, In e es -> exists now m, e = ESend (toy_world now seed_b NoTimeout (Ok (200, []))) m /\ now < 85200) ->
    Forall (fun o => o = ([], Some (Err PyStructError))) (snd (toy_run t es))).
  { clear t. induction es as [|e es IH]; intros t Hd He (s & Hs & Hq) Hes; [constructor|].
    destruct (Hes e (or_introl eq_refl)) as (now & m & -> & Hnow).
    cbn [run step]. unfold klap_send, session_expired. rewrite Hd, He.
    replace (85200 - w_now (toy_world now seed_b NoTimeout (Ok (200, []))) <=? 0) with false
      by (symmetry; apply Z.leb_gt; unfold toy_world; cbn [w_now]; lia).
    cbn [negb orb]. unfold send_request. rewrite Hs. rewrite (encrypt_spec toy_sha256 toy_cipher).
    replace (s_seq s + 1 <? 2 ^ 31) with false by (symmetry; apply Z.ltb_ge; lia). rewrite andb_false_r.
    cbv beta iota zeta.
    match goal with |- context [toy_run ?t1 es] => specialize (IH t1); destruct (toy_run t1 es) as [t2 out] eqn:E end. cbn [snd] in *. constructor; [reflexivity|]. apply IH; auto.
    - eexists. split; [reflexivity|]. cbn [s_seq]. lia.
    - intros e He'. apply Hes. right. exact He'. }
  intros es Hes. apply G; auto; try reflexivity.
  eexists. split; [reflexivity|]. vm_compute. discriminate.
Qed.
Print Assumptions klap_counter_exhausted_refuted.

(** A session cookie with a TIMEOUT that is no integer, and an answer that
    decrypts to something that is not JSON: ValueError. *)
Theorem klap_value_error_refuted :
  map snd (snd (toy_run init [ESend (toy_world 0 seed_b BadTimeout (Ok (200, []))) (lit "x")])) = [Some (Err PyValueError)] /\
  map snd (snd (toy_run init [ESend (toy_world 0 seed_b NoTimeout (Ok (200, repeat Ascii.zero 32 ++
      xor_bytes (firstn 12 (lit "iv" ++ seed_a ++ seed_b) ++ lit "-124") (repeat (ascii_of_N 16) 16)))) (lit "x")])) = [Some (Err PyValueError)].
Proof. vm_compute. split; reflexivity. Qed.
Print Assumptions klap_value_error_refuted.

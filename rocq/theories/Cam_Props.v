(** Properties C17 and C63: the camera transport. *)
From Verif Require Import Base Base_Lemmas Py Codes_Model Crypto_Model Crypto_Proofs Cam_Model Cam_Spec Cam_Proofs Cam_Fresh_Proofs.
From Verif Require Klap_Model Aes_Model Aes_Spec Aes_Props.
Open Scope string_scope.
Open Scope list_scope.
Open Scope Z_scope.

Notation cipher_ok := Aes_Props.cipher_ok.

(** All events of a history come from devices of one kind. *)
Definition one_kind (str_json : json -> string) (es : list event) : Prop :=
  Forall (only_secure str_json) es \/ Forall (only_plain str_json) es.
(** No device of the history accepts the default user name. *)
Definition default_never_accepted (str_json : json -> string) (es : list event) : Prop :=
  forall w m, In (ESend w m) es ->
    plain_grant str_json (w_plain2 w) = None /\
    forall j, body (w_hello2 w) = Some j -> code_in j <> Some (-40413).

(** * C63: order of greeting, proof, login and request *)

Theorem cam_order_partial : forall enc_block dec_block json_loads md5_hex sha256_hex sha256 str_int str_json wrap cfg es t outs w m t' p r,
  cipher_ok enc_block dec_block -> (forall b, length (sha256 b) = 32%nat) ->
  one_kind str_json (es ++ [ESend w m]) ->
  run enc_block dec_block json_loads md5_hex sha256_hex sha256 str_int str_json wrap cfg (init cfg) es = (t, outs) ->
  step enc_block dec_block json_loads md5_hex sha256_hex sha256 str_int str_json wrap cfg t (ESend w m) = (t', p, r) ->
  lawful dec_block md5_hex sha256_hex sha256 str_int str_json wrap cfg w m
    (known_after md5_hex sha256_hex sha256 str_json cfg (combine es (map fst outs))) p.
Proof.
  intros eb db jl md sh s256 si sj wr cfg es t outs w m t' p r [H1 H2] H3 [Hk|Hk] Hr Hs.
  - exact (history_lemma eb db jl md sh s256 si sj wr cfg H1 H2 H3 true es t outs w m t' p r Hk Hr Hs).
  - exact (history_lemma eb db jl md sh s256 si sj wr cfg H1 H2 H3 false es t outs w m t' p r Hk Hr Hs).
Qed.
Print Assumptions cam_order_partial.

(** A live session is used without further ado, and the device's answer to the
    request is the outcome. *)
Theorem cam_live_outcome_partial : forall enc_block dec_block json_loads md5_hex sha256_hex sha256 str_int str_json wrap cfg es t outs w m t' p r,
  cipher_ok enc_block dec_block -> (forall b, length (sha256 b) = 32%nat) ->
  one_kind str_json es ->
  run enc_block dec_block json_loads md5_hex sha256_hex sha256 str_int str_json wrap cfg (init cfg) es = (t, outs) ->
  step enc_block dec_block json_loads md5_hex sha256_hex sha256 str_int str_json wrap cfg t (ESend w m) = (t', p, Some r) ->
  match known_after md5_hex sha256_hex sha256 str_json cfg (combine es (map fst outs)) with
  | KSecure s q =>
      (exists payload tag, p = [PSecure (Some (s_url s)) payload q tag]) /\
      secure_outcome dec_block json_loads (s_keys s) (w_req w) r
  | KOpen u => p = [POpen (Some u) m] /\ open_outcome (w_req w) r
  | _ => True
  end.
Proof.
  intros eb db jl md sh s256 si sj wr cfg es t outs w m t' p r [H1 H2] H3 Hk Hr Hs.
  assert (exists kind, Forall (ev_ok sj kind) es) as [kind Hk'] by (destruct Hk; [exists true | exists false]; assumption).
  destruct (reach_inv eb db jl md sh s256 si sj wr cfg H1 H2 H3 kind es t outs Hk' Hr) as (Hi & Hse & Hl).
  cbn [step] in Hs. destruct (send eb db jl md sh s256 si sj wr cfg w m t) as [t1 out] eqn:E. injection Hs as <- <- <-.
  set (k := known_after md sh s256 sj cfg (combine es (map fst outs))) in *. unfold send, mbind in E.
  assert (Ht : told db md sh s256 si sj wr cfg w m k t (mkObs k false)).
  { split; rewrite Hl; [apply law_nil | reflexivity]. }
  destruct k as [|d n|s q|u]; try exact I.
  - pose proof Hi as (_ & Hsec & Hkd & Hst & _). rewrite Hst, (Hsec Hkd) in E.
    destruct (send_secure_spec eb db jl md sh s256 si sj wr cfg H1 H2 kind w m _ t t1 out s q Ht Hi E) as (_ & Ho & pl & tg & HL).
    rewrite Hl in HL. split; [exists pl, tg; exact HL | exact Ho].
  - pose proof Hi as (_ & _ & Hst & Hsec & _). rewrite Hst, Hsec in E.
    destruct (send_open_spec db md sh s256 si sj wr cfg kind w m _ t t1 out u Ht Hi E) as (_ & Ho & HL).
    rewrite Hl in HL. split; [exact HL | exact Ho].
Qed.
Print Assumptions cam_live_outcome_partial.

(** Without a session, a device that proves the password under the configured
    user name and accepts the client's proof gets greeting, proof and request,
    and its answer is the outcome. *)
Theorem cam_new_session_partial : forall enc_block dec_block json_loads md5_hex sha256_hex sha256 str_int str_json wrap cfg es t outs w m t' p r u server ph z tok,
  cipher_ok enc_block dec_block -> (forall b, length (sha256 b) = 32%nat) ->
  Forall (only_secure str_json) (es ++ [ESend w m]) ->
  run enc_block dec_block json_loads md5_hex sha256_hex sha256 str_int str_json wrap cfg (init cfg) es = (t, outs) ->
  step enc_block dec_block json_loads md5_hex sha256_hex sha256 str_int str_json wrap cfg t (ESend w m) = (t', p, Some r) ->
  known_after md5_hex sha256_hex sha256 str_json cfg (combine es (map fst outs)) = KNone ->
  user_name cfg = Some u -> u <> "" ->
  proves md5_hex sha256_hex cfg w false (w_n1 w) server ph ->
  proof_grant str_json (w_proof w) = Some (z, tok) ->
  exists u' ph' digest payload tag,
    p = [PHello false u' (w_n1 w); PProof (Some u') (w_n1 w) digest; PSecure (Some tok) payload z tag] /\
    secure_outcome dec_block json_loads (keys sha256_hex sha256 (w_n1 w) server ph') (w_req w) r.
Proof.
  intros eb db jl md sh s256 si sj wr cfg es t outs w m t' p r u server ph z tok [H1 H2] H3 Hk Hr Hs Hkn Hun Hne Hpr Hgr.
  apply Forall_app in Hk. destruct Hk as [Hk1 Hk2]. inversion Hk2 as [|x l Hkw Hnil Heq]; subst x l. clear Hk2 Hnil.
  destruct (reach_inv eb db jl md sh s256 si sj wr cfg H1 H2 H3 true es t outs Hk1 Hr) as (Hi & _ & Hl). rewrite Hkn in Hi.
  cbn [step] in Hs. destruct (send eb db jl md sh s256 si sj wr cfg w m t) as [t1 out] eqn:E. injection Hs as <- <- <-.
  assert (exists u', user t = Some u' /\ u' <> "") as (u' & Hu' & Hn').
  { destruct Hi as ([Hu|Hu] & _); [exists u; split; [congruence | exact Hne] | exists "admin"; split; [exact Hu | discriminate]]. }
  destruct (hello_complete md sh sj cfg w t u' server ph Hu' Hn' Hpr) as (ph' & Eh1).
  destruct (proof_complete sh s256 sj w (add_log (PHello false u' (w_n1 w)) t) (w_n1 w) server ph' z tok Hgr) as (t2 & dg & Eh2 & Hlog2 & Hst2 & Hsec2).
  assert (Eh : handshake md sh s256 sj cfg w t = (t2, Ok tt)) by (unfold handshake, mbind; rewrite Eh1; exact Eh2).
  destruct (handshake_spec db md sh s256 si sj wr cfg H3 true w m t t2 (Ok tt) Hkw Hi Hl Eh) as (k' & Ht2 & Hi2 & Hset & Hnk).
  cbn [add_log log user] in Hlog2. rewrite Hl, Hu' in Hlog2. cbn [app] in Hlog2.
  assert (Hk' : exists s, k' = KSecure s z /\ s_url s = tok /\ exists ph'', s_keys s = keys sh s256 (w_n1 w) server ph'').
  { destruct Ht2 as [_ Ho]. rewrite Hlog2 in Ho. unfold obs_posts in Ho. cbn [fold_left obs_post o_k o_sent] in Ho. rewrite Hgr in Ho.
    injection Ho as <-. eexists. split; [reflexivity|]. split; [reflexivity|]. eexists. cbn [s_keys].
    destruct Hpr as (j & Hb & _ & Hsn & _). unfold server_nonce. rewrite Hb. cbn [obind]. rewrite Hsn. reflexivity. }
  destruct Hk' as (s & -> & Hurl & ph'' & Hkeys).
  assert (Hst : st t = HANDSHAKE_REQUIRED) by apply Hi.
  unfold send, mbind in E. rewrite Hst, Eh in E. rewrite Hsec2 in E. cbn [add_log secure] in E.
  assert (Hsec : secure t = true) by (destruct Hi as (_ & Hx & _); auto). rewrite Hsec in E.
  destruct (send_secure_spec eb db jl md sh s256 si sj wr cfg H1 H2 true w m KNone t2 t1 out s z Ht2 Hi2 E) as (_ & Ho & pl & tg & HL).
  rewrite Hlog2, Hurl in HL. rewrite Hkeys in Ho. exists u', ph'', dg, pl, tg. split; [exact HL | exact Ho].
Qed.
Print Assumptions cam_new_session_partial.

(** * C17: after a reset the transport is as good as new *)

(** If no device of the history accepted a less secure login or the default user
    name, then whatever comes after a reset, posts and results are those of a
    fresh transport with the same configuration. *)
Theorem cam_reset_like_fresh_partial : forall enc_block dec_block json_loads md5_hex sha256_hex sha256 str_int str_json wrap cfg es t outs es',
  cipher_ok enc_block dec_block -> (forall b, length (sha256 b) = 32%nat) ->
  Forall (only_secure str_json) es -> default_never_accepted str_json es ->
  run enc_block dec_block json_loads md5_hex sha256_hex sha256 str_int str_json wrap cfg (init cfg) es = (t, outs) ->
  snd (run enc_block dec_block json_loads md5_hex sha256_hex sha256 str_int str_json wrap cfg t (EReset :: es')) =
  ([], None) :: snd (run enc_block dec_block json_loads md5_hex sha256_hex sha256 str_int str_json wrap cfg (init cfg) es').
Proof.
  intros eb db jl md sh s256 si sj wr cfg es t outs es' [H1 H2] H3 Hk Hd Hr.
  destruct (reach_inv eb db jl md sh s256 si sj wr cfg H1 H2 H3 true es t outs Hk Hr) as (Hi & _ & Hl).
  assert (Hu : user t = user (init cfg)).
  { pose proof (run_user eb db jl md sh s256 si sj wr cfg es (init cfg) Hd) as G. rewrite Hr in G. exact G. }
  cbn [run step]. set (fresh := run eb db jl md sh s256 si sj wr cfg (init cfg) es').
  assert (G : snd (run eb db jl md sh s256 si sj wr cfg (reset t) es') = snd fresh).
  { apply r_run. assert (Hsec : secure t = true) by (destruct Hi as (_ & Hx & _); auto).
    repeat split; cbn [reset init st secure user log url seq sess pwdh nonce]; try assumption; try congruence; discriminate. }
  destruct (run eb db jl md sh s256 si sj wr cfg (reset t) es') as [a b]. cbn [snd] in *. now rewrite G.
Qed.
Print Assumptions cam_reset_like_fresh_partial.

(** The same for a session the device ended by an authentication error. *)
Theorem cam_refused_like_fresh_partial : forall enc_block dec_block json_loads md5_hex sha256_hex sha256 str_int str_json wrap cfg es t outs es',
  cipher_ok enc_block dec_block -> (forall b, length (sha256 b) = 32%nat) ->
  Forall (only_secure str_json) es -> default_never_accepted str_json es ->
  run enc_block dec_block json_loads md5_hex sha256_hex sha256 str_int str_json wrap cfg (init cfg) es = (t, outs) ->
  known_after md5_hex sha256_hex sha256 str_json cfg (combine es (map fst outs)) = KNone ->
  snd (run enc_block dec_block json_loads md5_hex sha256_hex sha256 str_int str_json wrap cfg t es') =
  snd (run enc_block dec_block json_loads md5_hex sha256_hex sha256 str_int str_json wrap cfg (init cfg) es').
Proof.
  intros eb db jl md sh s256 si sj wr cfg es t outs es' [H1 H2] H3 Hk Hd Hr Hkn.
  destruct (reach_inv eb db jl md sh s256 si sj wr cfg H1 H2 H3 true es t outs Hk Hr) as (Hi & _ & Hl). rewrite Hkn in Hi.
  assert (Hu : user t = user (init cfg)).
  { pose proof (run_user eb db jl md sh s256 si sj wr cfg es (init cfg) Hd) as G. rewrite Hr in G. exact G. }
  apply r_run. destruct Hi as (_ & Hsec & Hst). specialize (Hsec eq_refl).
  repeat split; cbn [init st secure user log url seq sess pwdh nonce]; try assumption; try congruence;
    intros Hx; rewrite Hst in Hx; discriminate Hx.
Qed.
Print Assumptions cam_refused_like_fresh_partial.

(** * Concrete cases *)
Notation toy_cipher := Aes_Props.toy_cipher.
Definition toy_json (b : bytes) : option json :=
  if Klap_Model.bytes_eqb b (lit "A") then Some (JStr "answer") else None.
(** Stand-ins for the hash functions, with their output lengths. *)
Definition toy_md5 (b : bytes) : string := ("md5:" ++ string_of_list_ascii b)%string.
Definition toy_hex (b : bytes) : string := ("sha:" ++ string_of_list_ascii b)%string.
Definition toy_sha (b : bytes) : bytes := repeat (ascii_of_nat (Nat.modulo (length b) 256)) 32.
Definition toy_int (z : Z) : string := if z =? 7 then "7" else "other".
Definition toy_str (j : json) : string := match j with JStr s => s | _ => "" end.
Definition toy_wrap (b : bytes) : bytes := b.
Definition toy_cfg : config := mkCfg (Some ("me", "pw")) None.
Notation toy_run := (run toy_cipher toy_cipher toy_json toy_md5 toy_hex toy_sha toy_int toy_str toy_wrap toy_cfg).
Notation toy_step := (step toy_cipher toy_cipher toy_json toy_md5 toy_hex toy_sha toy_int toy_str toy_wrap toy_cfg).
Lemma toy_sha_length : forall b, length (toy_sha b) = 32%nat.
Proof. intro b. apply repeat_length. Qed.

Definition obj (code : Z) (result : list (string * json)) : reply :=
  Ok (200, JObj [("error_code", JInt code); ("result", JObj result)]).
(** The device's proof of a password, to the nonce n. *)
Definition toy_hello (n pw : string) : reply :=
  obj (-40413) [("data", JObj [("nonce", JStr "SN"); ("device_confirm",
     JStr (expected_confirm toy_hex n "SN" (toy_hex (lit pw))))])].
Definition toy_refusal : reply := Ok (200, JObj [("error_code", JInt (-40401))]).
Definition toy_asks : reply := obj (-40401) [("data", JObj [("encrypt_type", JArr [JStr "1"; JStr "2"])])].
Definition toy_plain : reply := obj 0 [("stok", JStr "plaintok")].
Definition toy_grant : reply := obj 0 [("start_seq", JInt 7); ("stok", JStr "tok")].
Definition toy_keys (n : string) := keys toy_hex toy_sha n "SN" (toy_hex (lit "pw")).
Definition toy_answer (n text : string) : reply :=
  match Aes_Model.aes_encrypt toy_cipher (toy_keys n) (lit text) with
  | Ok c => obj 0 [("response", JStr (string_of_list_ascii c))]
  | Err e => Err e
  end.
Definition kinds (ps : list post) : list string :=
  map (fun p => match p with
                | PHello _ u _ => "hello " ++ u
                | PPlainLogin _ u _ => "login " ++ u
                | PProof (Some u) _ _ => "proof " ++ u
                | PProof None _ _ => "proof"
                | PSecure _ _ _ _ => "secure request"
                | POpen _ _ => "open request" end)%string ps.
Definition good_world (req : reply) : world :=
  mkW "n1" "n2" (toy_hello "n1" "pw") toy_refusal toy_refusal toy_refusal toy_grant req.
Definition bad_world : world :=
  mkW "n1" "n2" (toy_hello "n1" "other") toy_refusal toy_refusal toy_refusal toy_grant toy_refusal.
Definition toy_history : list event :=
  [ESend bad_world (lit "zero");
   ESend (good_world (toy_answer "n1" "A")) (lit "one");
   ESend (good_world (toy_answer "n1" "A")) (lit "two");
   ESend (good_world toy_refusal) (lit "three");
   ESend (good_world (obj (-1501) [])) (lit "three again");
   ESend (good_world (toy_answer "n1" "A")) (lit "four");
   EReset; ESend (good_world (toy_answer "n1" "A")) (lit "five")].
Example cam_history_ex :
  map (fun o => (kinds (fst o), snd o)) (snd (toy_run (init toy_cfg) toy_history)) =
    [(["hello me"], Some (Err (KAuth None)));
     (["hello me"; "proof me"; "secure request"], Some (Ok (JStr "answer")));
     (["secure request"], Some (Ok (JStr "answer")));
     (["secure request"], Some (Err (KRetry (Some (-40401)))));
     (["secure request"], Some (Err (KAuth (Some (-1501)))));
     (["hello me"; "proof me"; "secure request"], Some (Ok (JStr "answer")));
     ([], None);
     (["hello me"; "proof me"; "secure request"], Some (Ok (JStr "answer")))].
Proof. vm_compute. reflexivity. Qed.
Example cam_history_kind_ex : Forall (only_secure toy_str) toy_history /\ default_never_accepted toy_str toy_history.
Proof.
  split; [repeat constructor|]. intros w m H. unfold toy_history in H. cbn [In] in H.
  repeat (destruct H as [H|H]; [first [discriminate H | injection H as <- <-;
    split; [vm_compute; reflexivity | intros j Hj; vm_compute in Hj; injection Hj as <-; vm_compute; discriminate]]|]).
  contradiction.
Qed.
Example cam_proves_ex : forall req, proves toy_md5 toy_hex toy_cfg (good_world req) false "n1" "SN" (toy_hex (lit "pw")) /\
  proof_grant toy_str (w_proof (good_world req)) = Some (7, "tok") /\ user_name toy_cfg = Some "me".
Proof. intro req. split; [eexists; repeat split; left; reflexivity | split; reflexivity]. Qed.

(** A device that only knows the less secure login. *)
Definition plain_world (req : reply) : world :=
  mkW "n1" "n2" toy_asks toy_plain toy_refusal toy_refusal toy_refusal req.
Example cam_plain_ex :
  map (fun o => (kinds (fst o), snd o)) (snd (toy_run (init toy_cfg)
    [ESend (plain_world (obj 0 [])) (lit "one"); ESend (plain_world (obj 0 [])) (lit "two")])) =
    [(["hello me"; "login me"; "open request"], Some (Ok (JObj [("error_code", JInt 0); ("result", JObj [])])));
     (["open request"], Some (Ok (JObj [("error_code", JInt 0); ("result", JObj [])])))] /\
  Forall (only_plain toy_str) [ESend (plain_world (obj 0 [])) (lit "one"); ESend (plain_world (obj 0 [])) (lit "two")].
Proof. split; [vm_compute; reflexivity | repeat constructor]. Qed.

(** * The violations *)

(** Once a less secure login has been accepted, neither a reset nor a full secure
    handshake brings encryption back: the device and the client agree on keys, and
    the request is posted in the clear. *)
Definition bug_es : list event := [ESend (plain_world (obj 0 [])) (lit "one"); EReset].
Definition bug_t : cam := fst (toy_run (init toy_cfg) bug_es).
Definition bug_w : world := good_world (obj 0 []).
Lemma no_open db md sh s256 si sj wr cfg w m k p1 p2 p3 : (forall u, o_k (obs_posts md sh s256 sj cfg w k [p1; p2]) <> KOpen u) ->
  kinds [p3] = ["open request"] -> ~ lawful db md sh s256 si sj wr cfg w m k [p1; p2; p3].
Proof.
  intros Hk He H. specialize (H [p1; p2] p3 [] eq_refl). destruct p3 as [| |[]| |]; try discriminate He.
  destruct H as (_ & _ & u & Ho & _). exact (Hk u Ho).
Qed.
Theorem cam_reset_stays_plain_refuted :
  exists es outs t w m t' p r,
    cipher_ok toy_cipher toy_cipher /\ (forall b, length (toy_sha b) = 32%nat) /\
    toy_run (init toy_cfg) (es ++ [EReset]) = (t, outs) /\
    toy_step t (ESend w m) = (t', p, Some r) /\
    (* a fresh transport encrypts *)
    kinds (snd (fst (toy_step (init toy_cfg) (ESend w m)))) = ["hello me"; "proof me"; "secure request"] /\
    (* this one does not *)
    kinds p = ["hello me"; "proof me"; "open request"] /\
    In (POpen (Some "tok") m) p /\
    ~ lawful toy_cipher toy_md5 toy_hex toy_sha toy_int toy_str toy_wrap toy_cfg w m
        (known_after toy_md5 toy_hex toy_sha toy_str toy_cfg (combine (es ++ [EReset]) (map fst outs))) p.
Proof.
  exists [ESend (plain_world (obj 0 [])) (lit "one")], (snd (toy_run (init toy_cfg) bug_es)), bug_t, bug_w, (lit "secret"),
    (fst (fst (toy_step bug_t (ESend bug_w (lit "secret"))))),
    (snd (fst (toy_step bug_t (ESend bug_w (lit "secret"))))), (Ok (JObj [("error_code", JInt 0); ("result", JObj [])])).
  split; [exact Aes_Props.toy_ok|]. split; [exact toy_sha_length|].
  split; [vm_compute; reflexivity|]. split; [vm_compute; reflexivity|]. split; [vm_compute; reflexivity|]. split; [vm_compute; reflexivity|].
  split; [vm_compute; auto|].
  assert (E : exists p1 p2 p3, snd (fst (toy_step bug_t (ESend bug_w (lit "secret")))) = [p1; p2; p3] /\ kinds [p3] = ["open request"] /\
    exists s q, obs_posts toy_md5 toy_hex toy_sha toy_str toy_cfg bug_w KNone [p1; p2] = mkObs (KSecure s q) false).
  { eexists. eexists. eexists. split; [vm_compute; reflexivity|]. split; [reflexivity|]. eexists. eexists. vm_compute. reflexivity. }
  destruct E as (p1 & p2 & p3 & -> & Hk & s & q & Ho). apply no_open; [|exact Hk].
  replace (known_after toy_md5 toy_hex toy_sha toy_str toy_cfg (combine ([ESend (plain_world (obj 0 [])) (lit "one")] ++ [EReset]) (map fst (snd (toy_run (init toy_cfg) bug_es)))))
    with KNone by (vm_compute; reflexivity).
  rewrite Ho. discriminate.
Qed.
Print Assumptions cam_reset_stays_plain_refuted.

(** Once the default user name has been accepted it stays in use after a reset:
    a device that then wants the configured name refuses, while a fresh transport
    gets through. *)
Definition default_world : world :=
  mkW "n1" "n2" toy_refusal toy_refusal (toy_hello "n2" "pw") toy_refusal toy_grant (toy_answer "n2" "A").
Theorem cam_reset_keeps_default_user_refuted :
  exists es w m,
    Forall (only_secure toy_str) (es ++ [EReset; ESend w m]) /\
    map (fun o => kinds (fst o)) (snd (toy_run (init toy_cfg) (es ++ [EReset; ESend w m]))) =
      [["hello me"; "hello admin"; "proof admin"; "secure request"]; []; ["hello admin"; "proof admin"; "secure request"]] /\
    map (fun o => kinds (fst o)) (snd (toy_run (init toy_cfg) [ESend w m])) = [["hello me"; "proof me"; "secure request"]].
Proof.
  exists [ESend default_world (lit "one")], (good_world (toy_answer "n1" "A")), (lit "two").
  split; [repeat constructor|]. split; vm_compute; reflexivity.
Qed.
Print Assumptions cam_reset_keeps_default_user_refuted.

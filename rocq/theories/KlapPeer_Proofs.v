(** Proofs about the KLAP client and a device together. *)
From Verif Require Import Base Base_Lemmas Crypto_Model Crypto_Proofs Klap_Model Klap_Spec Klap_Proofs KlapPeer_Spec.
Open Scope Z_scope.

Section Peer.
Variables md5 sha1 sha256 : bytes -> bytes.
Variables enc_block dec_block : bytes -> bytes -> bytes.
Variable J : Type.
Variable json_loads : bytes -> option (option J).
Variable S : Type.
Variable app : S -> bytes -> S * bytes.
Variable auth : bytes.
Variable c : config.
Hypothesis sha256_length : forall m, length (sha256 m) = 32%nat.
Hypothesis enc_length : forall key b, length b = block -> length (enc_block key b) = block.
Hypothesis dec_enc : forall key b, length b = block -> dec_block key (enc_block key b) = b.

Notation ksend := (klap_send md5 sha1 sha256 enc_block dec_block J json_loads).
Notation kreq := (send_request sha256 enc_block dec_block J json_loads).
Notation khs := (perform_handshake md5 sha1 sha256).
Notation serv := (served sha256 enc_block dec_block S app (c_version c) auth).
Notation apart := (told_apart md5 sha1 sha256 auth c).
Notation togeth := (together md5 sha1 sha256 enc_block dec_block J json_loads S app auth c).
Notation und := (understood J json_loads).
Notation pkey := (peer_key sha256 auth).
Notation piv := (peer_iv sha256 auth).
Notation psig := (peer_sig sha256 auth).
Notation pstart := (peer_start sha256 auth).

Lemma at_put x (d : device S) : at_cookie S (ds_cookie x) (put_session S x d) = Some x.
Proof. unfold at_cookie, put_session. cbn [dv_sessions find]. now rewrite String.eqb_refl. Qed.

Lemma new_session_parts l r : 
  s_key (new_session sha256 l r auth) = pkey l r /\ s_iv (new_session sha256 l r auth) = piv l r /\
  s_sig (new_session sha256 l r auth) = psig l r /\ s_seq (new_session sha256 l r auth) = pstart l r.
Proof.
  unfold new_session, peer_key, peer_iv, peer_sig, peer_start. cbn [s_key s_iv s_sig s_seq].
  rewrite sha256_length. repeat split.
Qed.
Lemma piv_length l r : length (piv l r) = 12%nat.
Proof. unfold peer_iv. rewrite firstn_length, sha256_length. reflexivity. Qed.

(** The client's session and the device's by its cookie are the same. *)
Definition tied (t : transport) (d : device S) (s : session) (k : string) (l r : bytes) : Prop :=
  sess t = Some s /\ cookie t = Some k /\ s_key s = pkey l r /\ s_iv s = piv l r /\ s_sig s = psig l r /\
  forall x, at_cookie S k d = Some x -> ds_local x = l /\ ds_remote x = r /\ ds_last x <= s_seq s.
Definition linked (t : transport) (d : device S) : Prop :=
  done t = true -> exists s k l r, tied t d s k l r.
(** … and good for [n] more requests. *)
Definition alive (n : nat) (t : transport) (d : device S) : Prop :=
  done t = true -> exists s k l r x e, tied t d s k l r /\ at_cookie S k d = Some x /\ ds_open x = true /\
    expire_at t = Some e /\ e + 600 <= ds_until x /\ s_seq s + Z.of_nat n < 2 ^ 31 /\ pstart l r <= s_seq s.

Lemma served_one h w d x p d' : serv h w d (x :: p) d' ->
  exists d1, serv h w d1 p d' /\
    match x with
    | PHandshake1 seed => on_handshake1 sha256 S (c_version c) auth h seed d = (d1, w_h1 w)
    | PHandshake2 y ck => on_handshake2 sha256 S (c_version c) auth h y ck d = (d1, w_h2 w)
    | PRequest _ q pl ck => on_request sha256 enc_block dec_block S app auth h ck q pl d = (d1, w_req w)
    end.
Proof. intros H. inversion H; subst; eexists; split; eauto. Qed.
Lemma served_none h w d d' : serv h w d [] d' -> d' = d.
Proof. intros H. now inversion H. Qed.

Lemma on_h1_state h seed d d1 r : on_handshake1 sha256 S (c_version c) auth h seed d = (d1, r) ->
  dv_state d1 = dv_state d.
Proof. unfold on_handshake1, lost. destruct (h_fate1 h); intros [= <- <-]; reflexivity. Qed.
Lemma on_h2_state h y ck d d1 r : on_handshake2 sha256 S (c_version c) auth h y ck d = (d1, r) ->
  dv_state d1 = dv_state d.
Proof.
  unfold on_handshake2, lost. destruct (h_fate2 h); try (intros [= <- <-]; reflexivity);
  (destruct ck as [k|]; [destruct (at_cookie S k d); [destruct (bytes_eqb _ _)|]|]; intros [= <- <-]; reflexivity).
Qed.

Lemma firstn_16 (a b : bytes) : length a = 16%nat -> firstn 16 (a ++ b) = a.
Proof. intros H. rewrite firstn_app, H, Nat.sub_diag, <- H, firstn_all. apply app_nil_r. Qed.
Lemma skipn_16 (a b : bytes) : length a = 16%nat -> skipn 16 (a ++ b) = b.
Proof. intros H. rewrite skipn_app, <- H, skipn_all, Nat.sub_diag. reflexivity. Qed.
Lemma proof_length l r a : length (device_proof sha256 (c_version c) l r a) = 32%nat.
Proof. unfold device_proof. destruct (c_version c); apply sha256_length. Qed.

(** A handshake that succeeds ties the two together and opens the session. *)
Lemma handshake_tied h w t d t1 p1 r1 d1 :
  khs c w t = (t1, p1, r1) -> serv h w d p1 d1 -> meets h w -> apart h w ->
  dv_state d1 = dv_state d /\
  match r1 with
  | Ok _ => done t1 = true /\ expire_at t1 = Some (w_now1 w + h_life h - 1200) /\
      tied t1 d1 (new_session sha256 (w_seed w) (h_remote h) auth) (h_cookie h) (w_seed w) (h_remote h) /\
      at_cookie S (h_cookie h) d1 = Some (mkD (h_cookie h) (w_seed w) (h_remote h) true
        (pstart (w_seed w) (h_remote h)) (h_time1 h + h_life h))
  | Err _ => done t1 = false
  end.
Proof.
  intros Hk Hs (Hl & Hr & Hck & Hto) Ha. unfold perform_handshake in Hk. cbv zeta in Hk.
  assert (Hx : exists p2, p1 = PHandshake1 (w_seed w) :: p2).
  { destruct (w_h1 w) as [[st data]|]; [|injection Hk as <- <- <-; eauto].
    destruct (handshake1 _ _ _ _ _ _ _) as [[[? ?] ?]|]; [|injection Hk as <- <- <-; eauto].
    destruct (int_timeout _); [|injection Hk as <- <- <-; eauto].
    destruct (w_h2 w) as [st2|]; [|injection Hk as <- <- <-; cbn; eauto].
    destruct (negb (st2 =? 200)); injection Hk as <- <- <-; cbn; eauto. }
  destruct Hx as (p2 & ->). apply served_one in Hs. destruct Hs as (da & Hs & H1).
  pose proof (on_h1_state _ _ _ _ _ H1) as Es1.
  destruct (w_h1 w) as [[st data]|e] eqn:E1.
  2:{ injection Hk as <- <- <-. apply served_none in Hs. subst d1. split; [exact Es1|reflexivity]. }
  unfold on_handshake1, lost in H1. destruct (h_fate1 h); try discriminate.
  injection H1 as <- <- <-.
  destruct (handshake1 md5 sha1 sha256 c (w_seed w) 200 _) as [[[l rs] a]|e] eqn:E2.
  2:{ injection Hk as <- <- <-. apply served_none in Hs. subst d1. split; reflexivity. }
  apply handshake1_ok in E2. destruct E2 as (_ & _ & -> & -> & b & af & Hc & Hm & _).
  unfold server_seed, server_proof in *. rewrite (firstn_16 _ _ Hr), (skipn_16 _ _ Hr) in Hm.
  rewrite (firstn_16 _ _ Hr) in Hk.
  assert (a = auth).
  { apply Ha; [rewrite Hc; apply in_elt|].
    rewrite <- Hm. unfold device_proof, handshake1_seed_auth_hash. now destruct (c_version c). }
  subst a. rewrite Hto in Hk. cbn [int_timeout] in Hk. rewrite Hck in Hk.
  assert (Hy : handshake2_seed_auth_hash sha256 (c_version c) (w_seed w) (h_remote h) auth =
               wanted_proof sha256 (c_version c) auth (w_seed w) (h_remote h)).
  { unfold handshake2_seed_auth_hash, wanted_proof. now destruct (c_version c). }
  rewrite Hy in Hk.
  set (x0 := mkD (h_cookie h) (w_seed w) (h_remote h) false _ _) in *.
  assert (Hp : p2 = [PHandshake2 (wanted_proof sha256 (c_version c) auth (w_seed w) (h_remote h)) (Some (h_cookie h))]).
  { destruct (w_h2 w) as [st2|]; [destruct (negb (st2 =? 200))|]; injection Hk as <- <- <-; reflexivity. }
  subst p2. apply served_one in Hs. destruct Hs as (db & Hs & H2). apply served_none in Hs. subst db.
  pose proof (on_h2_state _ _ _ _ _ _ H2) as Es2. split; [rewrite Es2; reflexivity|].
  unfold on_handshake2, lost in H2.
  change (at_cookie S (h_cookie h) (put_session S x0 d)) with (at_cookie S (ds_cookie x0) (put_session S x0 d)) in H2.
  rewrite at_put in H2. cbn [ds_local ds_remote x0] in H2.
  replace (bytes_eqb _ _) with true in H2 by (symmetry; now apply bytes_eqb_eq).
  destruct (w_h2 w) as [st2|]; [|destruct (h_fate2 h); injection Hk as <- <-; reflexivity].
  destruct (h_fate2 h); try discriminate. cbn [fst snd] in H2. injection H2 as <- <-.
  change (negb (200 =? 200)) with false in Hk. cbv iota in Hk. injection Hk as <- <-.
  cbn [done expire_at sess cookie].
  split; [reflexivity|]. split; [reflexivity|].
  match goal with |- _ /\ at_cookie S _ (put_session S ?x ?dd) = _ =>
    assert (Hat : at_cookie S (h_cookie h) (put_session S x dd) = Some x) by (apply (at_put x dd)) end.
  split; [|exact Hat].
  destruct (new_session_parts (w_seed w) (h_remote h)) as (P1 & P2 & P3 & P4).
  unfold tied. cbn [sess cookie]. split; [reflexivity|]. split; [reflexivity|]. split; [exact P1|].
  split; [exact P2|]. split; [exact P3|]. intros x Hx. rewrite Hat in Hx. injection Hx as <-.
  cbn [ds_local ds_remote ds_last]. repeat split. rewrite P4. cbn. lia.
Qed.

(** The other way around: a healthy handshake succeeds. *)
Lemma handshake_works h w t d t1 p1 r1 d1 n :
  khs c w t = (t1, p1, r1) -> serv h w d p1 d1 -> meets h w -> apart h w ->
  In auth (candidates md5 sha1 sha256 c) -> healthy sha256 auth n h w -> exists u, r1 = Ok u.
Proof.
  intros Hk Hs (Hl & Hr & Hck & Hto) Ha Hin (F1 & F2 & _).
  unfold perform_handshake in Hk. cbv zeta in Hk.
  assert (Hx : exists p2, p1 = PHandshake1 (w_seed w) :: p2).
  { destruct (w_h1 w) as [[st data]|]; [|injection Hk as <- <- <-; eauto].
    destruct (handshake1 _ _ _ _ _ _ _) as [[[? ?] ?]|]; [|injection Hk as <- <- <-; eauto].
    destruct (int_timeout _); [|injection Hk as <- <- <-; eauto].
    destruct (w_h2 w) as [st2|]; [|injection Hk as <- <- <-; cbn; eauto].
    destruct (negb (st2 =? 200)); injection Hk as <- <- <-; cbn; eauto. }
  destruct Hx as (p2 & ->). apply served_one in Hs. destruct Hs as (da & Hs & H1).
  unfold on_handshake1, lost in H1. rewrite F1 in H1. cbn [fst snd] in H1. injection H1 as <- E1.
  rewrite <- E1 in Hk.
  destruct (handshake1 md5 sha1 sha256 c (w_seed w) 200 _) as [[[l rs] a]|e] eqn:E2.
  2:{ exfalso. apply handshake1_errors in E2. unfold server_seed, server_proof in E2.
      rewrite (firstn_16 _ _ Hr), (skipn_16 _ _ Hr) in E2. destruct E2 as [[[?|Hbad] _]|[Hno _]].
      - congruence.
      - apply Hbad, proof_length.
      - apply (Hno auth Hin). unfold device_proof, handshake1_seed_auth_hash. now destruct (c_version c). }
  apply handshake1_ok in E2. destruct E2 as (_ & _ & -> & -> & b & af & Hc & Hm & _).
  unfold server_seed, server_proof in *. rewrite (firstn_16 _ _ Hr), (skipn_16 _ _ Hr) in Hm.
  rewrite (firstn_16 _ _ Hr) in Hk.
  assert (a = auth).
  { apply Ha; [rewrite Hc; apply in_elt|].
    rewrite <- Hm. unfold device_proof, handshake1_seed_auth_hash. now destruct (c_version c). }
  subst a. rewrite Hto in Hk. cbn [int_timeout] in Hk. rewrite Hck in Hk.
  assert (Hy : handshake2_seed_auth_hash sha256 (c_version c) (w_seed w) (h_remote h) auth =
               wanted_proof sha256 (c_version c) auth (w_seed w) (h_remote h)).
  { unfold handshake2_seed_auth_hash, wanted_proof. now destruct (c_version c). }
  rewrite Hy in Hk.
  set (x0 := mkD (h_cookie h) (w_seed w) (h_remote h) false _ _) in *.
  assert (Hp : p2 = [PHandshake2 (wanted_proof sha256 (c_version c) auth (w_seed w) (h_remote h)) (Some (h_cookie h))]).
  { destruct (w_h2 w) as [st2|]; [destruct (negb (st2 =? 200))|]; injection Hk as <- <- <-; reflexivity. }
  subst p2. apply served_one in Hs. destruct Hs as (db & Hs & H2).
  unfold on_handshake2, lost in H2. rewrite F2 in H2.
  change (at_cookie S (h_cookie h) (put_session S x0 d)) with (at_cookie S (ds_cookie x0) (put_session S x0 d)) in H2.
  rewrite at_put in H2. cbn [ds_local ds_remote x0] in H2.
  replace (bytes_eqb _ _) with true in H2 by (symmetry; now apply bytes_eqb_eq).
  cbn [fst snd] in H2. injection H2 as _ E3. rewrite <- E3 in Hk.
  change (negb (200 =? 200)) with false in Hk. cbv iota in Hk. injection Hk as _ <-. eauto.
Qed.

(** What the device reads of a request of the tied client, and the client of its answer. *)
Lemma opened_request s m s' payload q l r x :
  klap_encrypt sha256 enc_block s m = (s', Ok (payload, q)) ->
  s_key s = pkey l r -> s_iv s = piv l r -> s_sig s = psig l r -> ds_local x = l -> ds_remote x = r ->
  opened sha256 dec_block auth x q payload = Some m /\
  (forall answer, klap_decrypt dec_block s' (sealed sha256 enc_block auth x q answer) = Ok answer).
Proof.
  intros He Ek Ei Eg <- <-.
  assert (Hiv : length (s_iv s) = 12%nat) by (rewrite Ei; apply piv_length).
  destruct (encrypt_ok sha256 enc_block _ _ _ _ _ He Hiv)
    as (Eq & _ & _ & _ & _ & packed & Hp & _ & Hl & ct & Hct & Epl).
  subst q. split.
  - unfold opened. rewrite Hp. rewrite Epl. cbv zeta. rewrite (skipn_32 _ _ (sha256_length _)).
    replace (firstn 32 _) with (sha256 (s_sig s ++ packed ++ ct)).
    2:{ rewrite firstn_app, sha256_length, Nat.sub_diag. rewrite <- (sha256_length (s_sig s ++ packed ++ ct)) at 1.
        rewrite firstn_all. now rewrite app_nil_r. }
    rewrite <- Eg. replace (bytes_eqb _ _) with true by (symmetry; now apply bytes_eqb_eq).
    rewrite <- Ek, <- Ei.
    rewrite (cbc_round_trip enc_block dec_block enc_length dec_enc _ _ _ _ Hl Hct). now rewrite unpad_pad.
  - intros answer. unfold sealed. rewrite Hp.
    destruct (cbc_encrypt enc_block (pkey (ds_local x) (ds_remote x)) _ (pkcs7_pad answer)) as [ct'|e] eqn:Ec.
    + rewrite <- Ek, <- Ei in Ec.
      apply (decrypt_peer sha256 enc_block dec_block enc_length dec_enc s m s' payload (s_seq s + 1) answer _ ct' packed He Hiv (sha256_length _) Hp Ec).
    + exfalso. destruct (cbc_encrypt_ok enc_block (pkey (ds_local x) (ds_remote x)) (piv (ds_local x) (ds_remote x) ++ packed) _ (pad_whole answer)) as (? & E). congruence.
Qed.

Lemma tied_other t t' d s k l r : tied t d s k l r -> sess t' = sess t -> cookie t' = cookie t -> tied t' d s k l r.
Proof. unfold tied. intros H -> ->. exact H. Qed.

(** A request in a tied state. *)
Lemma request_tied h w t d m t' p r d' s k l rm :
  kreq w t m = (t', p, r) -> serv h w d p d' -> tied t d s k l rm ->
  linked t' d' /\
  ((dv_state d' = dv_state d /\ exists e, r = Err e) \/
   (dv_state d' = fst (app (dv_state d) m) /\
    (r = und (snd (app (dv_state d) m)) \/ exists e, h_fate3 h = AnswerLost e /\ r = Err e))) /\
  (h_fate3 h = Answered ->
     match r with Err PyStructError => dv_state d' = dv_state d /\ 2 ^ 31 <= s_seq s + 1 \/ s_seq s + 1 < - 2 ^ 31
                | _ => True end /\
     ((- 2 ^ 31 <= s_seq s + 1 < 2 ^ 31) ->
       (dv_state d' = dv_state d /\ r = Err (KRetry None) /\ done t' = false /\
          ~ (exists x, at_cookie S k d = Some x /\ ds_open x = true /\ h_time3 h < ds_until x)) \/
       (dv_state d' = fst (app (dv_state d) m) /\ r = und (snd (app (dv_state d) m)) /\
          exists s' x', tied t' d' s' k l rm /\ s_seq s' = s_seq s + 1 /\ at_cookie S k d' = Some x' /\
            ds_open x' = true /\ expire_at t' = expire_at t /\
            (forall x, at_cookie S k d = Some x -> ds_until x' = ds_until x)))).
Proof.
  intros Hk Hs (T1 & T2 & T3 & T4 & T5 & T6). unfold send_request in Hk. rewrite T1 in Hk.
  pose proof (encrypt_spec sha256 enc_block s m) as Hes.
  destruct (klap_encrypt sha256 enc_block s m) as [s' [[payload q]|e]] eqn:Ee.
  2:{ injection Hk as <- <- <-. apply served_none in Hs. subst d'.
      destruct ((- 2 ^ 31 <=? s_seq s + 1) && (s_seq s + 1 <? 2 ^ 31)) eqn:Eb; [discriminate|].
      cbv zeta in Hes. injection Hes as Es' ->. split; [|split].
      - intros _. exists s', k, l, rm. unfold tied. cbn [sess cookie]. rewrite Es'. cbn [s_key s_iv s_sig s_seq].
        repeat split; try assumption; destruct (T6 x H) as (? & ? & ?); auto; lia.
      - left. eauto.
      - intros _. apply andb_false_iff in Eb. split.
        + destruct Eb as [Eb|Eb]; [right; apply Z.leb_gt in Eb; lia|left; split; [reflexivity|apply Z.ltb_ge in Eb; lia]].
        + intros Hb. exfalso. destruct Eb as [Eb|Eb]; [apply Z.leb_gt in Eb; lia|apply Z.ltb_ge in Eb; lia]. }
  assert (Hiv : length (s_iv s) = 12%nat) by (rewrite T4; apply piv_length).
  destruct (encrypt_ok sha256 enc_block _ _ _ _ _ Ee Hiv) as (Eq & K1 & K2 & K3 & K4 & _).
  assert (Hp : p = [PRequest (gen t) q payload (Some k)]).
  { cbv zeta in Hk. rewrite T2 in Hk. destruct (w_req w) as [[st data]|]; [|now injection Hk as <- <- <-].
    destruct (negb (st =? 200)).
    - destruct (st =? 403); now injection Hk as <- <- <-.
    - destruct (klap_decrypt _ _ _); [|now injection Hk as <- <- <-].
      destruct (json_loads _) as [[|]|]; now injection Hk as <- <- <-. }
  subst p. apply served_one in Hs. destruct Hs as (da & Hs & H1). apply served_none in Hs. subst da.
  cbv zeta in Hk.
  assert (St : tied (mkT (done t) (expire_at t) (Some s') (cookie t) (gen t)) d s' k l rm).
  { unfold tied. cbn [sess cookie]. rewrite K1, K2, K4, T2. repeat split; try assumption.
    all: intros; try (destruct (T6 x H) as (? & ? & ?)); auto; try lia. }
  (* not processed: the device is as before *)
  assert (Same : forall rq, d' = d -> w_req w = rq ->
      (match rq with Ok (st, data) => st = 403 | Err e => True end) ->
      linked t' d' /\ dv_state d' = dv_state d /\
      (match rq with Ok _ => r = Err (KRetry None) /\ done t' = false | Err e => r = Err e end)).
  { intros rq -> Erq Hrq. rewrite Erq in Hk. destruct rq as [[st data]|e].
    - subst st. change (negb (403 =? 200)) with true in Hk. change (403 =? 403) with true in Hk. cbv iota in Hk.
      injection Hk as <- _ <-. split; [|repeat split]. intros D. discriminate.
    - injection Hk as <- _ <-. split; [|repeat split]. intros D. exists s', k, l, rm. exact St. }
  (* processed *)
  set (o := match at_cookie S k d with
        | Some x =>
            if ds_open x && (h_time3 h <? ds_until x) && (ds_last x <? q) then
              match opened sha256 dec_block auth x q payload with
              | Some m =>
                  let (s', answer) := app (dv_state d) m in
                  let d' := put_session S (mkD k (ds_local x) (ds_remote x) true q (ds_until x)) d in
                  (mkDev (dv_sessions d') s', (200, sealed sha256 enc_block auth x q answer))
              | None => (d, (403, []))
              end
            else (d, (403, []))
        | None => (d, (403, []))
        end) in *.
  change (lost S (h_fate3 h) d o = (d', w_req w)) in H1.
  assert (Ho : (o = (d, (403, [])) /\ ~ (exists x, at_cookie S k d = Some x /\ ds_open x = true /\ h_time3 h < ds_until x)) \/
     exists x x' body, at_cookie S k d = Some x /\
       o = (mkDev (dv_sessions (put_session S x' d)) (fst (app (dv_state d) m)), (200, body)) /\
       x' = mkD k l rm true q (ds_until x) /\ klap_decrypt dec_block s' body = Ok (snd (app (dv_state d) m))).
  { subst o. destruct (at_cookie S k d) as [x|] eqn:Ex.
    2:{ left. split; [reflexivity|]. intros (x & Hx & _). discriminate. }
    destruct (T6 x eq_refl) as (L1 & L2 & L3).
    replace (ds_last x <? q) with true by (symmetry; apply Z.ltb_lt; lia). rewrite andb_true_r.
    destruct (ds_open x && (h_time3 h <? ds_until x)) eqn:Eo.
    2:{ left. split; [reflexivity|]. intros (x2 & [= <-] & H2 & H3). rewrite H2 in Eo. apply Z.ltb_lt in H3.
        rewrite H3 in Eo. discriminate. }
    destruct (opened_request _ _ _ _ _ l rm x Ee T3 T4 T5 L1 L2) as (O1 & O2). rewrite O1.
    right. destruct (app (dv_state d) m) as [s1 answer] eqn:Ea. rewrite L1, L2.
    exists x. do 2 eexists. split; [reflexivity|]. split; [reflexivity|]. split; [reflexivity|]. apply O2. }
  destruct Ho as [(Eo & Hno)|(x & x' & body & Hx & Eo & Ex' & Hdec)].
  - unfold lost in H1. rewrite Eo in H1. cbn [fst snd] in H1.
    destruct (h_fate3 h) eqn:Ef.
    + injection H1 as <- Ew. destruct (Same _ eq_refl eq_refl) as (Q1 & Q2 & Q3); [now rewrite <- Ew|].
      rewrite <- Ew in Q3. destruct Q3 as (-> & Q3). split; [exact Q1|]. split; [left; eauto|].
      intros _. split; [exact I|]. intros _. left. auto.
    + injection H1 as <- Ew. destruct (Same _ eq_refl eq_refl) as (Q1 & Q2 & Q3); [now rewrite <- Ew|].
      rewrite <- Ew in Q3. subst r. split; [exact Q1|]. split; [left; eauto|]. discriminate.
    + injection H1 as <- Ew. destruct (Same _ eq_refl eq_refl) as (Q1 & Q2 & Q3); [now rewrite <- Ew|].
      rewrite <- Ew in Q3. subst r. split; [exact Q1|]. split; [left; eauto|]. discriminate.
  - unfold lost in H1. rewrite Eo in H1. cbn [fst snd] in H1.
    assert (Hat : at_cookie S k (mkDev (dv_sessions (put_session S x' d)) (fst (app (dv_state d) m))) = Some x').
    { rewrite Ex'. unfold at_cookie. cbn. now rewrite String.eqb_refl. }
    assert (Tied' : forall dn, tied (mkT dn (expire_at t) (Some s') (cookie t) (gen t))
              (mkDev (dv_sessions (put_session S x' d)) (fst (app (dv_state d) m))) s' k l rm).
    { intros dn. unfold tied. cbn [sess cookie]. rewrite K1, K2, K4, T2.
      split; [reflexivity|]. split; [reflexivity|]. split; [assumption|]. split; [assumption|]. split; [assumption|].
      intros x2 H2. rewrite Hat in H2. injection H2 as <-. rewrite Ex'. cbn [ds_local ds_remote ds_last].
      repeat split. lia. }
    destruct (h_fate3 h) eqn:Ef.
    + injection H1 as <- Ew. rewrite <- Ew in Hk. change (negb (200 =? 200)) with false in Hk. cbv iota in Hk.
      rewrite Hdec in Hk.
      assert (Hr : r = und (snd (app (dv_state d) m)) /\ t' = mkT (done t) (expire_at t) (Some s') (cookie t) (gen t)).
      { unfold understood. destruct (json_loads _) as [[j|]|]; injection Hk as <- _ <-; split; reflexivity. }
      destruct Hr as (-> & ->). split; [intros _; exists s', k, l, rm; apply Tied'|].
      split; [right; split; [reflexivity|left; reflexivity]|]. intros _. split.
      * unfold understood. destruct (json_loads _) as [[j|]|]; exact I.
      * intros _. right. split; [reflexivity|]. split; [reflexivity|]. exists s', x'.
        split; [apply Tied'|]. split; [lia|]. split; [exact Hat|]. split; [now rewrite Ex'|]. split; [reflexivity|].
        intros x2 H2. rewrite Hx in H2. injection H2 as <-. now rewrite Ex'.
    + injection H1 as <- Ew. destruct (Same _ eq_refl eq_refl) as (Q1 & Q2 & Q3); [now rewrite <- Ew|].
      rewrite <- Ew in Q3. subst r. split; [exact Q1|]. split; [left; eauto|]. discriminate.
    + injection H1 as <- Ew. rewrite <- Ew in Hk. injection Hk as <- _ <-.
      split; [intros _; exists s', k, l, rm; apply Tied'|]. split; [|discriminate].
      right. split; [reflexivity|]. right. eauto.
Qed.

Lemma served_app h w d p q d' : serv h w d (p ++ q) d' -> exists d1, serv h w d p d1 /\ serv h w d1 q d'.
Proof.
  revert d. induction p as [|x p IH]; intros d H; [exists d; split; [constructor|exact H]|].
  cbn [List.app] in H. inversion H; subst;
  (match goal with H' : served _ _ _ _ _ _ _ _ _ _ (p ++ q) _ |- _ => destruct (IH _ H') as (d2 & A & B) end;
   exists d2; split; [econstructor; eassumption|exact B]).
Qed.

(** One send, anything going wrong. *)
Lemma send_linked h w t d m t' p r d' :
  ksend c w t m = (t', p, r) -> serv h w d p d' -> meets h w -> apart h w -> linked t d ->
  linked t' d' /\
  ((dv_state d' = dv_state d /\ exists e, r = Err e) \/
   (dv_state d' = fst (app (dv_state d) m) /\
    (r = und (snd (app (dv_state d) m)) \/ exists e, h_fate3 h = AnswerLost e /\ r = Err e))).
Proof.
  intros Hk Hs Hm Ha Hl. unfold klap_send in Hk.
  destruct (negb (done t) || session_expired t (w_now w)) eqn:En.
  - destruct (khs c w t) as [[t1 p1] [u|e]] eqn:Eh.
    + destruct (kreq w t1 m) as [[t2 p2] r2] eqn:Er. injection Hk as <- <- <-.
      apply served_app in Hs. destruct Hs as (d1 & Hs1 & Hs2).
      destruct (handshake_tied _ _ _ _ _ _ _ _ Eh Hs1 Hm Ha) as (Es & _ & _ & Ht & _).
      destruct (request_tied _ _ _ _ _ _ _ _ _ _ _ _ _ Er Hs2 Ht) as (L & E & _). rewrite Es in E.
      split; assumption.
    + injection Hk as <- <- <-.
      destruct (handshake_tied _ _ _ _ _ _ _ _ Eh Hs Hm Ha) as (Es & Hd).
      split; [intros D; congruence|]. left. split; [exact Es|eauto].
  - apply orb_false_iff in En. destruct En as [En _]. apply negb_false_iff in En.
    destruct (Hl En) as (s & k & l & rm & Ht).
    destruct (request_tied _ _ _ _ _ _ _ _ _ _ _ _ _ Hk Hs Ht) as (L & E & _). split; assumption.
Qed.

Lemma forget_at keep k (d : device S) x :
  at_cookie S k (mkDev (filter (fun x => keep (ds_cookie x)) (dv_sessions d)) (dv_state d)) = Some x ->
  at_cookie S k d = Some x.
Proof.
  unfold at_cookie. cbn [dv_sessions]. induction (dv_sessions d) as [|y l IH]; [discriminate|].
  cbn [filter find]. destruct (keep (ds_cookie y)) eqn:Ek; cbn [find].
  - destruct (String.eqb (ds_cookie y) k) eqn:E; [auto|apply IH].
  - destruct (String.eqb (ds_cookie y) k) eqn:E; [|apply IH]. apply String.eqb_eq in E. subst k.
    intros H. apply find_some in H. destruct H as (Hi & He). apply filter_In in Hi. destruct Hi as (_ & Hk).
    apply String.eqb_eq in He. congruence.
Qed.

Lemma together_linked x es y outs : togeth x es y outs -> linked (fst x) (snd x) -> linked (fst y) (snd y).
Proof.
  induction 1 as [x|t d t1 d1 x h w m p r es outs Hk Hs Hm Ha _ IH|t d x es outs _ IH|t d f x es outs _ IH
                 |t d keep x es outs _ IH]; cbn [fst snd] in *; intros HL.
  - exact HL.
  - apply IH. destruct (send_linked _ _ _ _ _ _ _ _ _ Hk Hs Hm Ha HL) as (L & _). exact L.
  - apply IH. intros D. discriminate.
  - apply IH. exact HL.
  - apply IH. intros D. destruct (HL D) as (s & k & l & r & T1 & T2 & T3 & T4 & T5 & T6).
    exists s, k, l, r. repeat (split; [assumption|]). intros x' Hx'. apply T6. eapply forget_at, Hx'.
Qed.

(** One healthy send in a state that is good for it. *)
Lemma send_alive n h w t d m t' p r d' :
  ksend c w t m = (t', p, r) -> serv h w d p d' -> meets h w -> apart h w ->
  In auth (candidates md5 sha1 sha256 c) -> healthy sha256 auth (Datatypes.S n) h w -> alive (Datatypes.S n) t d ->
  alive n t' d' /\ dv_state d' = fst (app (dv_state d) m) /\ r = und (snd (app (dv_state d) m)).
Proof.
  intros Hk Hs Hm Ha Hin Hh Hl. pose proof Hh as (F1 & F2 & F3 & C1 & C2 & C3 & C4 & C5).
  unfold klap_send in Hk. destruct (negb (done t) || session_expired t (w_now w)) eqn:En.
  - destruct (khs c w t) as [[t1 p1] r1] eqn:Eh. destruct r1 as [u|e].
    2:{ injection Hk as <- <- <-.
        destruct (handshake_works _ _ _ _ _ _ _ _ _ Eh Hs Hm Ha Hin Hh) as (? & ?). discriminate. }
    destruct (kreq w t1 m) as [[t2 p2] r2] eqn:Er. injection Hk as <- <- <-.
    apply served_app in Hs. destruct Hs as (d1 & Hs1 & Hs2).
    destruct (handshake_tied _ _ _ _ _ _ _ _ Eh Hs1 Hm Ha) as (Es & Hd & He & Ht & Hat).
    destruct (request_tied _ _ _ _ _ _ _ _ _ _ _ _ _ Er Hs2 Ht) as (_ & _ & R). rewrite Es in R.
    destruct (new_session_parts (w_seed w) (h_remote h)) as (_ & _ & _ & P4). rewrite P4 in R.
    pose proof (new_session_seq sha256 sha256_length (w_seed w) (h_remote h) auth) as Hq. rewrite P4 in Hq.
    destruct (R F3) as (_ & R'). destruct R' as [(_ & _ & _ & Hno)|(S1 & S2 & s' & x' & T' & Q & A' & O' & E' & U')].
    { lia. }
    { exfalso. apply Hno. eexists. split; [exact Hat|]. cbn [ds_open ds_until]. split; [reflexivity|]. lia. }
    split; [|split; assumption]. intros _. do 6 eexists. split; [exact T'|]. split; [exact A'|].
    split; [exact O'|]. split; [rewrite E'; exact He|]. rewrite (U' _ Hat). cbn [ds_until].
    split; [lia|]. rewrite Q. split; lia.
  - apply orb_false_iff in En. destruct En as [En Ex]. apply negb_false_iff in En.
    destruct (Hl En) as (s & k & l & rm & x & e & Ht & Hat & Ho & He & Hu & Hn & Hst).
    unfold session_expired in Ex. rewrite He in Ex. apply Z.leb_gt in Ex.
    destruct (request_tied _ _ _ _ _ _ _ _ _ _ _ _ _ Hk Hs Ht) as (_ & _ & R).
    pose proof (new_session_seq sha256 sha256_length l rm auth) as Hq.
    destruct (new_session_parts l rm) as (_ & _ & _ & P4). rewrite P4 in Hq.
    destruct (R F3) as (_ & R'). destruct R' as [(_ & _ & _ & Hno)|(S1 & S2 & s' & x' & T' & Q & A' & O' & E' & U')].
    { lia. }
    { exfalso. apply Hno. exists x. split; [exact Hat|]. split; [exact Ho|]. lia. }
    split; [|split; assumption]. intros _. do 6 eexists. split; [exact T'|]. split; [exact A'|].
    split; [exact O'|]. split; [rewrite E'; exact He|]. rewrite (U' _ Hat). split; [exact Hu|]. rewrite Q.
    split; lia.
Qed.

Lemma alive_less n m t d : (n <= m)%nat -> alive m t d -> alive n t d.
Proof.
  intros Hle Ha D. destruct (Ha D) as (s & k & l & r & x & e & H1 & H2 & H3 & H4 & H5 & H6 & H7).
  exists s, k, l, r, x, e. repeat (split; [assumption|]). split; [lia|assumption].
Qed.

Lemma together_alive x es y outs : togeth x es y outs ->
  In auth (candidates md5 sha1 sha256 c) -> all_healthy sha256 S auth es -> alive (length es) (fst x) (snd x) ->
  dv_state (snd y) = fst (directly J json_loads S app (dv_state (snd x)) es) /\ map snd outs = snd (directly J json_loads S app (dv_state (snd x)) es).
Proof.
  intros HT Hin. induction HT as [x|t d t1 d1 x h w m p r es outs Hk Hs Hm Ha _ IH|t d x es outs _ IH
     |t d f x es outs _ IH|t d keep x es outs _ IH]; cbn [fst snd all_healthy directly] in *; intros Hh HL.
  - split; reflexivity.
  - destruct Hh as (Hh & Hh'). cbn [length] in *.
    destruct (send_alive _ _ _ _ _ _ _ _ _ _ Hk Hs Hm Ha Hin Hh HL) as (L & E & Er).
    destruct (IH Hh' L) as (I1 & I2). destruct (app (dv_state d) m) as [s1 answer]. cbn [fst snd] in *.
    rewrite E in I1, I2. destruct (directly J json_loads S app s1 es) as [s2 rs]. cbn [fst snd map] in *.
    split; [exact I1|]. now rewrite Er, I2.
  - apply IH; [exact Hh|]. intros D. discriminate.
  - apply IH; [exact Hh|]. eapply alive_less; [|exact HL]. cbn. lia.
  - contradiction.
Qed.

(** One healthy send in any reachable state: done, refused for want of a session, or out of numbers. *)
Lemma send_recovers h w t d m t' p r d' n :
  ksend c w t m = (t', p, r) -> serv h w d p d' -> meets h w -> apart h w ->
  In auth (candidates md5 sha1 sha256 c) -> healthy sha256 auth (Datatypes.S n) h w -> linked t d ->
  (dv_state d' = fst (app (dv_state d) m) /\ r = und (snd (app (dv_state d) m))) \/
  (dv_state d' = dv_state d /\ r = Err (KRetry None) /\ done t' = false) \/
  (dv_state d' = dv_state d /\ r = Err PyStructError).
Proof.
  intros Hk Hs Hm Ha Hin Hh Hl. pose proof Hh as (F1 & F2 & F3 & C1 & C2 & C3 & C4 & C5).
  destruct (done t) eqn:Ed.
  2:{ left. assert (Hal : alive (Datatypes.S n) t d) by (intros D; congruence).
      destruct (send_alive _ _ _ _ _ _ _ _ _ _ Hk Hs Hm Ha Hin Hh Hal) as (_ & E1 & E2). auto. }
  destruct (session_expired t (w_now w)) eqn:Ex.
  { left. assert (Hk' : ksend c w (klap_reset t) m = (t', p, r)).
    { unfold klap_send in *. rewrite Ed, Ex in Hk. cbn [negb orb done klap_reset] in *. exact Hk. }
    assert (Hal : alive (Datatypes.S n) (klap_reset t) d) by (intros D; discriminate).
    destruct (send_alive _ _ _ _ _ _ _ _ _ _ Hk' Hs Hm Ha Hin Hh Hal) as (_ & E1 & E2). auto. }
  unfold klap_send in Hk. rewrite Ed, Ex in Hk. cbn [negb orb] in Hk.
  destruct (Hl Ed) as (s & k & l & rm & Ht).
  destruct (request_tied _ _ _ _ _ _ _ _ _ _ _ _ _ Hk Hs Ht) as (_ & R1 & R2).
  destruct (R2 F3) as (R3 & R4).
  destruct (Z_le_gt_dec (2 ^ 31) (s_seq s + 1)) as [Hbig|Hsm];
    [|destruct (Z_le_gt_dec (- 2 ^ 31) (s_seq s + 1)) as [Hlow|Hlow]].
  - right. right. pose proof Hk as Hk'. unfold send_request in Hk'. destruct Ht as (T1 & _). rewrite T1 in Hk'.
    rewrite encrypt_spec in Hk'.
    replace (s_seq s + 1 <? 2 ^ 31) with false in Hk' by (symmetry; apply Z.ltb_ge; lia).
    rewrite andb_false_r in Hk'. injection Hk' as <- <- <-. apply served_none in Hs. subst d'. auto.
  - destruct R4 as [(S1 & S2 & S3 & _)|(S1 & S2 & _)]; [lia|right; left; auto|left; auto].
  - right. right. pose proof Hk as Hk'. unfold send_request in Hk'. destruct Ht as (T1 & _). rewrite T1 in Hk'.
    rewrite encrypt_spec in Hk'.
    replace (- 2 ^ 31 <=? s_seq s + 1) with false in Hk' by (symmetry; apply Z.leb_gt; lia).
    cbn [andb] in Hk'. injection Hk' as <- <- <-. apply served_none in Hs. subst d'. auto.
Qed.
End Peer.

(** Proofs about KLAP. *)
From Verif Require Import Base Base_Lemmas Crypto_Model Crypto_Proofs Klap_Model Klap_Spec.
From Coq Require Import Sorted.
Open Scope Z_scope.

Lemma bytes_eqb_eq a b : bytes_eqb a b = true <-> a = b.
Proof. unfold bytes_eqb. destruct (list_eq_dec ascii_dec a b); split; congruence. Qed.
Lemma cred_eqb_eq a b : cred_eqb a b = true <-> a = b.
Proof.
  unfold cred_eqb. rewrite andb_true_iff, !bytes_eqb_eq. destruct a, b; cbn. split; [intros [-> ->]|intro H; injection H]; auto.
Qed.

Section Klap.
Variables md5 sha1 sha256 : bytes -> bytes.
Variables enc_block dec_block : bytes -> bytes -> bytes.
Variable J : Type.
Variable json_loads : bytes -> option (option J).
Hypothesis sha256_length : forall m, length (sha256 m) = 32%nat.
Hypothesis enc_length : forall key b, length b = block -> length (enc_block key b) = block.
Hypothesis dec_enc : forall key b, length b = block -> dec_block key (enc_block key b) = b.

Notation cands := (candidates md5 sha1 sha256).
Notation h1hash := (handshake1_seed_auth_hash sha256).
Notation hs1 := (handshake1 md5 sha1 sha256).

(** ** Handshake 1 *)
Lemma handshake1_ok c seed status data l r a :
  hs1 c seed status data = Ok (l, r, a) <->
  status = 200 /\ length (server_proof data) = 32%nat /\ l = seed /\ r = server_seed data /\
  exists before after, cands c = before ++ a :: after /\
    h1hash (c_version c) seed (server_seed data) a = server_proof data /\
    Forall (fun b => h1hash (c_version c) seed (server_seed data) b <> server_proof data) before.
Proof.
  unfold handshake1, server_proof, server_seed. destruct (status =? 200) eqn:Es.
  2: { apply Z.eqb_neq in Es. cbn. split; [discriminate | intros [H _]; contradiction]. }
  apply Z.eqb_eq in Es. cbn [negb]. destruct (Nat.eqb (length (skipn 16 data)) 32) eqn:El.
  2: { apply Nat.eqb_neq in El. cbn. split; [discriminate | intros (_ & H & _); contradiction]. }
  apply Nat.eqb_eq in El. cbn [negb].
  set (P := fun a0 => bytes_eqb (h1hash (c_version c) seed (firstn 16 data) a0) (skipn 16 data)).
  assert (G : forall L, (find P L = Some a <-> exists before after, L = before ++ a :: after /\
      P a = true /\ Forall (fun b => P b = false) before)).
  { induction L as [|x L IH]; cbn [find].
    - split; [discriminate|]. intros (b & af & H & _). destruct b; discriminate.
    - destruct (P x) eqn:Ex.
      + split.
        * intro H. injection H as ->. exists [], L. repeat split; auto.
        * intros (b & af & H & Ha & HF). destruct b as [|y b]; injection H as -> ->; [reflexivity|].
          inversion HF; congruence.
      + rewrite IH. split.
        * intros (b & af & -> & Ha & HF). exists (x :: b), af. repeat split; auto.
        * intros (b & af & H & Ha & HF). destruct b as [|y b]; injection H as -> ->; [congruence|].
          inversion HF; subst. exists b, af. auto. }
  specialize (G (cands c)).
  assert (GF : forall pre, Forall (fun b => P b = false) pre <->
     Forall (fun b => h1hash (c_version c) seed (firstn 16 data) b <> skipn 16 data) pre).
  { intro pre. rewrite !Forall_forall. split; intros H x Hx; specialize (H x Hx); clear G; unfold P in *.
    - intro E. apply bytes_eqb_eq in E. congruence.
    - destruct (bytes_eqb _ _) eqn:E; [apply bytes_eqb_eq in E; elim (H E) | reflexivity]. }
  split.
  - destruct (find P (cands c)) as [x|] eqn:Ef; [|discriminate]. intro H. injection H as <- <- ->.
    destruct G as [G _]. destruct (G eq_refl) as (b & af & H1 & H2 & H3).
    repeat split; auto. exists b, af. split; [exact H1|]. split; [apply bytes_eqb_eq, H2 | apply GF, H3].
  - intros (_ & _ & -> & -> & b & af & H1 & H2 & H3).
    destruct G as [_ G]. rewrite G; [reflexivity|]. exists b, af. split; [exact H1|].
    split; [apply bytes_eqb_eq, H2 | apply GF, H3].
Qed.

Lemma handshake1_errors c seed status data e :
  hs1 c seed status data = Err e ->
  (status <> 200 \/ length (server_proof data) <> 32%nat) /\ e = KKasa \/
  (forall a, In a (cands c) -> h1hash (c_version c) seed (server_seed data) a <> server_proof data) /\
    e = KAuth None.
Proof.
  unfold handshake1, server_proof, server_seed. destruct (status =? 200) eqn:Es; cbn [negb].
  2: { apply Z.eqb_neq in Es. intro H. injection H as <-. auto. }
  destruct (Nat.eqb (length (skipn 16 data)) 32) eqn:El; cbn [negb].
  2: { apply Nat.eqb_neq in El. intro H. injection H as <-. auto. }
  destruct (find _ _) eqn:Ef; [discriminate|]. intro H. injection H as <-. right. split; [|reflexivity].
  intros a Ha E. apply (find_none _ _ Ef) in Ha. apply bytes_eqb_eq in E. congruence.
Qed.

(** ** Session encryption *)
Lemma new_session_iv l r u : length (s_iv (new_session sha256 l r u)) = 12%nat.
Proof. unfold new_session; cbn [s_iv]. rewrite firstn_length, sha256_length. reflexivity. Qed.

Lemma new_session_seq l r u : - 2 ^ 31 <= s_seq (new_session sha256 l r u) < 2 ^ 31.
Proof.
  unfold new_session; cbn [s_seq]. set (f := sha256 _).
  assert (Hl : length (skipn (length f - 4) f) = 4%nat).
  { rewrite skipn_length. unfold f. rewrite sha256_length. reflexivity. }
  destruct (skipn (length f - 4) f) as [|a [|b [|c [|d [|e t]]]]]; try discriminate.
  apply from_bytes_signed_4.
Qed.

Lemma encrypt_spec s m :
  klap_encrypt sha256 enc_block s m =
    (if (- 2 ^ 31 <=? s_seq s + 1) && (s_seq s + 1 <? 2 ^ 31) then
       let packed := match pack_i32 (s_seq s + 1) with Ok p => p | Err _ => [] end in
       let ct := concat (cbc_enc enc_block (s_key s) (s_iv s ++ packed) (blocks_of (pkcs7_pad m))) in
       (mkSess (s_key s) (s_iv s) (s_seq s + 1) (s_sig s) (Some (s_iv s ++ packed)),
        Ok (sha256 (s_sig s ++ packed ++ ct) ++ ct, s_seq s + 1))
     else (mkSess (s_key s) (s_iv s) (s_seq s + 1) (s_sig s) (s_cipher s), Err PyStructError)).
Proof.
  unfold klap_encrypt. cbv zeta. unfold pack_i32.
  destruct ((- 2 ^ 31 <=? s_seq s + 1) && (s_seq s + 1 <? 2 ^ 31)); [|reflexivity].
  unfold cbc_encrypt. rewrite pad_whole. reflexivity.
Qed.

Lemma encrypt_ok s m s' payload q :
  klap_encrypt sha256 enc_block s m = (s', Ok (payload, q)) ->
  length (s_iv s) = 12%nat ->
  q = s_seq s + 1 /\ s_key s' = s_key s /\ s_iv s' = s_iv s /\ s_seq s' = q /\ s_sig s' = s_sig s /\
  exists packed, pack_i32 q = Ok packed /\ s_cipher s' = Some (s_iv s ++ packed) /\
    length (s_iv s ++ packed) = block /\
    exists ct, cbc_encrypt enc_block (s_key s) (s_iv s ++ packed) (pkcs7_pad m) = Ok ct /\
      payload = sha256 (s_sig s ++ packed ++ ct) ++ ct.
Proof.
  intros H Hiv. unfold klap_encrypt in H. cbv zeta in H.
  destruct (pack_i32 (s_seq s + 1)) as [packed|] eqn:Ep; [|discriminate].
  destruct (cbc_encrypt _ _ _ _) as [ct|] eqn:Ec; [|discriminate].
  injection H as <- <- <-. cbn [s_key s_iv s_seq s_sig s_cipher].
  repeat (split; [reflexivity|]). exists packed. split; [exact Ep|]. split; [reflexivity|].
  split; [rewrite app_length, Hiv, (pack_i32_length _ _ Ep); reflexivity|].
  exists ct. split; [exact Ec | reflexivity].
Qed.

Lemma skipn_32 (m ct : bytes) : length m = 32%nat -> skipn 32 (m ++ ct) = ct.
Proof. intro H. rewrite skipn_app, <- H, skipn_all, Nat.sub_diag. reflexivity. Qed.

(** Whatever the peer encrypts under the same counter is read back. *)
Lemma decrypt_peer s m s' payload q reply sig ct packed :
  klap_encrypt sha256 enc_block s m = (s', Ok (payload, q)) -> length (s_iv s) = 12%nat ->
  length sig = 32%nat -> pack_i32 q = Ok packed ->
  cbc_encrypt enc_block (s_key s) (s_iv s ++ packed) (pkcs7_pad reply) = Ok ct ->
  klap_decrypt dec_block s' (sig ++ ct) = Ok reply.
Proof.
  intros H Hiv Hsig Hp Hct. destruct (encrypt_ok _ _ _ _ _ H Hiv)
    as (-> & Hk & _ & _ & _ & p & Hp' & Hc & Hl & _).
  rewrite Hp in Hp'. injection Hp' as <-. unfold klap_decrypt. rewrite Hc, (skipn_32 _ _ Hsig), Hk.
  rewrite (cbc_round_trip enc_block dec_block enc_length dec_enc _ _ _ _ Hl Hct). cbn [bind].
  apply unpad_pad.
Qed.

Lemma decrypt_own s m s' payload q :
  klap_encrypt sha256 enc_block s m = (s', Ok (payload, q)) -> length (s_iv s) = 12%nat ->
  klap_decrypt dec_block s' payload = Ok m.
Proof.
  intros H Hiv. destruct (encrypt_ok _ _ _ _ _ H Hiv) as (Eq & _ & _ & _ & _ & p & Hp & _ & _ & ct & Hct & ->).
  eapply decrypt_peer; eauto.
Qed.

(** ** The transport *)
Notation ksend := (klap_send md5 sha1 sha256 enc_block dec_block J json_loads).
Notation kreq := (send_request sha256 enc_block dec_block J json_loads).
Notation khs := (perform_handshake md5 sha1 sha256).
Notation krun := (run md5 sha1 sha256 enc_block dec_block J json_loads).
Notation kstep := (step md5 sha1 sha256 enc_block dec_block J json_loads).

(** The session belongs to the handshake [w] with the accepted hash [a]. *)
Definition session_of (c : config) (w : world) (a : bytes) (s : session) : Prop :=
  In a (cands c) /\ proof_matches sha256 (c_version c) w a /\
  s_key s = server_key sha256 w a /\ s_iv s = server_iv sha256 w a /\ s_sig s = server_sig sha256 w a /\
  length (s_iv s) = 12%nat.

Definition inv (c : config) (t : transport) (s : option (Z * world)) : Prop :=
  match s with
  | None => done t = false
  | Some (exp, w) => done t = true /\ expire_at t = Some exp /\ cookie t = w_cookie w /\
      exists a σ, sess t = Some σ /\ session_of c w a σ
  end.

Lemma handshake_spec c w t t1 p r : khs c w t = (t1, p, r) ->
  match r with
  | Ok _ =>
      exists y, p = [PHandshake1 (w_seed w); PHandshake2 y (w_cookie w)] /\ w_h2 w = Ok 200 /\ gen t1 = S (gen t) /\
        (exists a, In a (cands c) /\ proof_matches sha256 (c_version c) w a /\ y = client_proof sha256 (c_version c) w a) /\
        inv c t1 (Some (w_now1 w + granted (w_timeout w) - 1200, w))
  | Err e =>
      inv c t1 None /\ gen t1 = gen t /\ sess t1 = sess t /\
      (p = [PHandshake1 (w_seed w)] \/
        (exists y, p = [PHandshake1 (w_seed w); PHandshake2 y (w_cookie w)] /\ w_h2 w <> Ok 200 /\
          exists a, In a (cands c) /\ proof_matches sha256 (c_version c) w a /\ y = client_proof sha256 (c_version c) w a))
  end.
Proof.
  unfold perform_handshake. cbv zeta. destruct (w_h1 w) as [[status data]|e1] eqn:E1.
  2: { intro H. injection H as <- <- <-. repeat split; eauto. }
  destruct (hs1 c (w_seed w) status data) as [[[l rs] a]|e] eqn:E2.
  2: { intro H. injection H as <- <- <-. repeat split; eauto. }
  destruct (int_timeout (w_timeout w)) as [timeout|e] eqn:E3.
  2: { intro H. injection H as <- <- <-. repeat split; eauto. }
  pose proof E2 as E2'.
  apply handshake1_ok in E2. destruct E2 as (-> & Hl & -> & -> & b & af & Hc & Hm & _).
  assert (Hin : In a (cands c)) by (rewrite Hc; apply in_elt).
  assert (Hpm : proof_matches sha256 (c_version c) w a).
  { exists data. repeat split; try assumption. rewrite <- Hm. destruct (c_version c); reflexivity. }
  assert (Hcp : handshake2_seed_auth_hash sha256 (c_version c) (w_seed w) (server_seed data) a =
                client_proof sha256 (c_version c) w a).
  { unfold client_proof. rewrite E1. destruct (c_version c); reflexivity. }
  destruct (w_h2 w) as [st2|e] eqn:E4.
  2: { intro H. injection H as <- <- <-. repeat split; eauto. right. eexists. split; [reflexivity|].
       split; [discriminate|]. eauto. }
  destruct (st2 =? 200) eqn:E5; cbn [negb].
  2: { intro H. injection H as <- <- <-. apply Z.eqb_neq in E5. repeat split; eauto.
       right. eexists. split; [reflexivity|]. split; [|eauto]. intro H. injection H. exact E5. }
  apply Z.eqb_eq in E5. subst st2. intro H. injection H as <- <- <-.
  eexists. split; [reflexivity|]. split; [reflexivity|]. split; [reflexivity|]. split; [eauto|].
  cbn [inv done expire_at sess cookie]. split; [reflexivity|]. split.
  { unfold int_timeout in E3. destruct (w_timeout w); try discriminate; injection E3 as <-; reflexivity. }
  split; [reflexivity|].
  exists a. eexists. split; [reflexivity|]. split; [exact Hin|]. split; [exact Hpm|].
  unfold server_key, server_iv, server_sig. rewrite E1. repeat split. apply new_session_iv.
Qed.

Lemma send_request_spec c w t m t' p r s : kreq w t m = (t', p, r) -> inv c t (Some s) ->
  gen t' = gen t /\ (forall σ, sess t = Some σ -> exists σ', sess t' = Some σ' /\ s_seq σ' = s_seq σ + 1) /\
  ((p = [] /\ r = Err PyStructError /\ inv c t' (Some s)) \/
   exists q payload, p = [PRequest (gen t) q payload (w_cookie (snd s))] /\
     (exists σ, sess t = Some σ /\ q = s_seq σ + 1) /\
     (exists a, In a (cands c) /\ proof_matches sha256 (c_version c) (snd s) a /\
        server_reads sha256 dec_block (snd s) a q payload m /\
        forall body reply, w_req w = Ok (200, body) -> server_writes sha256 enc_block (snd s) a q body reply ->
          r = match json_loads reply with Some (Some j) => Ok j | Some None => Err PyValueError | None => Err KKasa end) /\
     match status_of (w_req w) with
     | Some 403 => r = Err (KRetry None) /\ inv c t' None
     | Some 200 => inv c t' (Some s)
     | Some _ => r = Err KKasa /\ inv c t' (Some s)
     | None => inv c t' (Some s) /\ exists e, w_req w = Err e /\ r = Err e
     end).
Proof.
  intros H Hi. destruct s as [exp w0]. destruct Hi as (Hd & He & Hck & a & σ & Hs & Hin & Hpm & Hk & Hiv & Hsig & Hlen).
  assert (Keep : forall σ', s_key σ' = s_key σ -> s_iv σ' = s_iv σ -> s_sig σ' = s_sig σ -> forall g,
    inv c (mkT (done t) (expire_at t) (Some σ') (cookie t) g) (Some (exp, w0))).
  { intros σ' H1 H2 H3 g. cbn [inv done expire_at sess cookie]. split; [exact Hd|]. split; [exact He|].
    split; [exact Hck|]. exists a, σ'. split; [reflexivity|]. unfold session_of. rewrite H1, H2, H3. auto 10. }
  unfold send_request in H. rewrite Hs in H.
  destruct (klap_encrypt sha256 enc_block σ m) as [σ' [[payload q]|e]] eqn:Ee.
  - destruct (encrypt_ok _ _ _ _ _ Ee Hlen) as (Hq & Hk' & Hiv' & Hs' & Hsig' & packed & Hp & Hc & Hl & ct & Hct & Hpay).
    specialize (Keep σ' Hk' Hiv' Hsig').
    assert (Hreads : exists a, In a (cands c) /\ proof_matches sha256 (c_version c) w0 a /\
        server_reads sha256 dec_block w0 a q payload m /\
        forall body reply, w_req w = Ok (200, body) -> server_writes sha256 enc_block w0 a q body reply ->
          r = match json_loads reply with Some (Some j) => Ok j | Some None => Err PyValueError | None => Err KKasa end).
    { exists a. split; [exact Hin|]. split; [exact Hpm|]. split.
      - exists packed, (pkcs7_pad m).
        split; [exact Hp|]. rewrite <- Hk, <- Hiv, <- Hsig, Hpay, skipn_32 by apply sha256_length.
        split. { rewrite firstn_app, sha256_length, firstn_all2 by (rewrite sha256_length; lia).
                 rewrite app_nil_r. reflexivity. }
        rewrite (cbc_round_trip enc_block dec_block enc_length dec_enc _ _ _ _ Hl Hct).
        split; [reflexivity | apply unpad_pad].
      - intros body reply Hw (packed' & ct' & Hp' & Hl1 & Hsk & Hct'). rewrite Hw in H. cbn in H.
        unfold klap_decrypt in H. rewrite Hc, Hsk, Hk' in H. rewrite Hp in Hp'. injection Hp' as <-.
        rewrite <- Hk, <- Hiv in Hct'.
        rewrite (cbc_round_trip enc_block dec_block enc_length dec_enc _ _ _ _ Hl Hct') in H. cbn in H.
        rewrite unpad_pad in H. destruct (json_loads reply) as [[j|]|]; injection H as _ _ <-; reflexivity. }
    assert (Hseq : exists σ0, sess t = Some σ0 /\ q = s_seq σ0 + 1) by (exists σ; split; assumption).
    cbv zeta in H.
    assert (Hg : gen t' = gen t /\ sess t' = Some σ').
    { destruct (w_req w) as [[st data]|]; [|injection H as <- _ _; auto].
      destruct (st =? 200); cbn [negb] in H.
      - destruct (klap_decrypt _ _ _); [|injection H as <- _ _; auto].
        destruct (json_loads _) as [[j|]|]; injection H as <- _ _; auto.
      - destruct (st =? 403); injection H as <- _ _; auto. }
    destruct Hg as [Hg Hsess]. split; [exact Hg|]. split.
    { intros σ0 Hσ0. rewrite Hs in Hσ0. injection Hσ0 as <-. exists σ'. split; [exact Hsess|]. congruence. }
    right. exists q, payload. cbn [snd] in *. rewrite <- Hck in *.
    destruct (w_req w) as [[st data]|e] eqn:Ew; cbn [status_of].
    + destruct (st =? 200) eqn:E200; cbn [negb] in H.
      * apply Z.eqb_eq in E200. subst st.
        destruct (klap_decrypt _ _ _); [|injection H as <- <- <-; auto 10].
        destruct (json_loads _) as [[j|]|]; injection H as <- <- <-; auto 10.
      * apply Z.eqb_neq in E200. destruct (st =? 403) eqn:E403.
        { apply Z.eqb_eq in E403. subst st. injection H as <- <- <-. cbn [inv done]. auto 10. }
        apply Z.eqb_neq in E403. injection H as <- <- <-.
        split; [reflexivity|]. split; [exact Hseq|]. split; [exact Hreads|].
        destruct st as [|st|st]; auto.
        assert (Z.pos st <> 403 /\ Z.pos st <> 200) by auto.
        do 10 (destruct st as [st|st|]; auto; try lia).
    + injection H as <- <- <-. split; [reflexivity|]. split; [exact Hseq|]. split; [exact Hreads|]. eauto.
  - rewrite encrypt_spec in Ee. destruct (_ && _); [discriminate|]. injection Ee as <- <-.
    injection H as <- <- <-. split; [reflexivity|]. split.
    { intros σ0 Hσ0. rewrite Hs in Hσ0. injection Hσ0 as <-. eexists. split; reflexivity. }
    left. split; [reflexivity|]. split; [reflexivity|]. apply Keep; reflexivity.
Qed.

Definition must_shake (s : option (Z * world)) (now : Z) : bool :=
  match s with None => true | Some (exp, _) => exp - now <=? 0 end.

Lemma must_shake_inv c t s w : inv c t s -> negb (done t) || session_expired t (w_now w) = must_shake s (w_now w).
Proof.
  destruct s as [[exp w0]|]; cbn [inv must_shake].
  - intros (Hd & He & _). unfold session_expired. rewrite Hd, He. reflexivity.
  - intros ->. reflexivity.
Qed.

(** The session seen from outside after the request part. *)
Lemma send_request_step c w t m t' p r s :
  kreq w t m = (t', p, r) -> inv c t (Some s) ->
  inv c t' (if existsb is_request p && match status_of (w_req w) with Some z => z =? 403 | None => false end
            then None else Some s) /\ existsb is_h1 p = false /\ existsb is_h2 p = false.
Proof.
  intros H Hi. destruct (send_request_spec c w t m t' p r s H Hi) as (_ & _ & [(-> & _ & Hi')|Hx]).
  - cbn. auto.
  - destruct Hx as (q & pay & -> & _ & _ & Hst). cbn [existsb is_request is_h1 is_h2 orb andb].
    split; [|auto]. destruct (status_of (w_req w)) as [z|]; [|tauto].
    destruct (z =? 403) eqn:E.
    + apply Z.eqb_eq in E. subst z. apply Hst.
    + apply Z.eqb_neq in E. destruct (Z.eq_dec z 200) as [->|H2]; [exact Hst|].
      destruct z as [|z|z]; try apply Hst.
      do 10 (destruct z as [z|z|]; try apply Hst; try lia).
Qed.

Lemma send_inv c w t m t' p r s : ksend c w t m = (t', p, r) -> inv c t s ->
  inv c t' (session_step s (ESend w m, p)).
Proof.
  intros H Hi. unfold klap_send in H. rewrite (must_shake_inv _ _ _ _ Hi) in H.
  cbn [session_step].
  destruct (must_shake s (w_now w)) eqn:Em.
  - destruct (khs c w t) as [[t1 p1] r1] eqn:Eh. pose proof (handshake_spec _ _ _ _ _ _ Eh) as Hh.
    destruct r1 as [u|e].
    + destruct (kreq w t1 m) as [[t2 p2] r2] eqn:Er. injection H as <- <- <-.
      destruct Hh as (y & -> & Hw2 & _ & _ & Hi1).
      destruct (send_request_step _ _ _ _ _ _ _ _ Er Hi1) as (Hi2 & _ & _).
      cbn [app existsb is_h1 is_h2 is_request orb andb]. rewrite Hw2. cbn [Z.eqb Pos.eqb]. exact Hi2.
    + injection H as <- <- <-. destruct Hh as (Hi1 & _ & _ & [->|(y & -> & Hw2 & _)]).
      * exact Hi1.
      * cbn [existsb is_h1 is_h2 is_request orb andb].
        destruct (w_h2 w) as [z|]; [|exact Hi1]. destruct (z =? 200) eqn:E; [|exact Hi1].
        apply Z.eqb_eq in E. congruence.
  - destruct s as [s|]; [|discriminate].
    destruct (send_request_step _ _ _ _ _ _ _ _ H Hi) as (Hi2 & -> & _). exact Hi2.
Qed.

Lemma step_inv c t e t' p r s : kstep c t e = (t', p, r) -> inv c t s -> inv c t' (session_step s (e, p)).
Proof.
  destruct e as [w m|]; cbn [step].
  - destruct (ksend c w t m) as [[t1 p1] r1] eqn:E. intro H. injection H as <- <- <-. eapply send_inv, E.
  - intro H. injection H as <- <- <-. reflexivity.
Qed.

Lemma run_inv c : forall es t t' outs s, krun c t es = (t', outs) -> inv c t s ->
  inv c t' (fold_left session_step (combine es (map fst outs)) s) /\ length outs = length es.
Proof.
  induction es as [|e es IH]; intros t t' outs s H Hi; cbn [run] in H.
  - injection H as <- <-. auto.
  - destruct (kstep c t e) as [[t1 p] r] eqn:E. destruct (krun c t1 es) as [t2 out] eqn:E2.
    injection H as <- <-. cbn [map combine fold_left fst length].
    destruct (IH _ _ _ _ E2 (step_inv _ _ _ _ _ _ _ E Hi)) as [H1 H2]. split; [exact H1 | now rewrite H2].
Qed.

Lemma run_session c es t outs : krun c init es = (t, outs) ->
  inv c t (session_after (combine es (map fst outs))).
Proof. intro H. eapply run_inv; [exact H | reflexivity]. Qed.

(** ** The shape of one send *)
Notation readable := (readable md5 sha1 sha256 enc_block dec_block J json_loads).
Lemma send_shape c w t m t' p r s : ksend c w t m = (t', p, r) -> inv c t s ->
  match s with
  | Some (exp, w0) =>
      w_now w < exp ->
      (p = [] /\ r = Err PyStructError) \/
      exists q payload, p = [PRequest (gen t) q payload (w_cookie w0)] /\ readable c w0 w q payload m r
  | None => True
  end /\
  (match s with Some (exp, _) => exp <= w_now w | None => True end ->
   exists rest, p = PHandshake1 (w_seed w) :: rest /\
     (rest = [] \/
      exists y rest', rest = PHandshake2 y (w_cookie w) :: rest' /\
        (exists a, In a (cands c) /\ proof_matches sha256 (c_version c) w a /\ y = client_proof sha256 (c_version c) w a) /\
        (rest' = [] \/
         exists q payload, rest' = [PRequest (S (gen t)) q payload (w_cookie w)] /\
           w_h2 w = Ok 200 /\ readable c w w q payload m r))).
Proof.
  intros H Hi. unfold klap_send in H. rewrite (must_shake_inv _ _ _ _ Hi) in H. split.
  - destruct s as [[exp w0]|]; [|trivial]. intro Hnow. cbn [must_shake] in H.
    replace (exp - w_now w <=? 0) with false in H by (symmetry; apply Z.leb_gt; lia).
    destruct (send_request_spec c w t m t' p r _ H Hi) as (_ & _ & [(-> & -> & _)|Hx]); [auto|].
    right. destruct Hx as (q & pay & -> & _ & Ha & _). exists q, pay. auto.
  - intro Hnow. replace (must_shake s (w_now w)) with true in H.
    2: { destruct s as [[exp w0]|]; [|reflexivity]. cbn. symmetry. apply Z.leb_le. lia. }
    destruct (khs c w t) as [[t1 p1] r1] eqn:Eh. pose proof (handshake_spec _ _ _ _ _ _ Eh) as Hh.
    destruct r1 as [u|e].
    + destruct (kreq w t1 m) as [[t2 p2] r2] eqn:Er. injection H as <- <- <-.
      destruct Hh as (y & -> & Hw2 & Hg & Hy & Hi1). eexists. split; [reflexivity|].
      right. exists y. eexists. split; [reflexivity|]. split; [exact Hy|].
      destruct (send_request_spec _ _ _ _ _ _ _ _ Er Hi1) as (_ & _ & [(-> & -> & _)|Hx]); [auto|].
      right. destruct Hx as (q & pay & -> & _ & Ha & _). exists q, pay. rewrite Hg. auto.
    + injection H as <- <- <-. destruct Hh as (_ & _ & _ & [->|(y & -> & _ & Hy)]).
      * eexists. split; [reflexivity|]. auto.
      * eexists. split; [reflexivity|]. right. exists y. eexists. split; [reflexivity|]. auto.
Qed.

(** The outcome once the request was posted. *)
Lemma send_outcome c w t m t' p r s : ksend c w t m = (t', p, r) -> inv c t s ->
  existsb is_request p = true ->
  match w_req w with
  | Err e => r = Err e
  | Ok (st, _) => (st = 403 -> r = Err (KRetry None)) /\ (st <> 403 -> st <> 200 -> r = Err KKasa)
  end.
Proof.
  intros H Hi Hp.
  assert (G : exists t1 s1 p2, inv c t1 (Some s1) /\ kreq w t1 m = (t', p2, r) /\ existsb is_request p2 = true).
  { unfold klap_send in H. rewrite (must_shake_inv _ _ _ _ Hi) in H.
    destruct (must_shake s (w_now w)) eqn:Em.
    - destruct (khs c w t) as [[t1 p1] r1] eqn:Eh. pose proof (handshake_spec _ _ _ _ _ _ Eh) as Hh.
      destruct r1 as [u|e].
      + destruct (kreq w t1 m) as [[t2 p2] r2] eqn:Er. injection H as <- <- <-.
        destruct Hh as (y & -> & Hw2 & Hg & _ & Hi1). cbn in Hp. eauto 6.
      + injection H as <- <- <-. destruct Hh as (_ & _ & _ & [->|(y & -> & _)]); discriminate.
    - destruct s as [s|]; [|discriminate]. eauto 6. }
  destruct G as (t1 & s1 & p2 & Hi1 & Hr & Hp2).
  destruct (send_request_spec _ _ _ _ _ _ _ _ Hr Hi1) as (_ & _ & [(-> & _)|Hx]); [discriminate|].
  destruct Hx as (q & pay & _ & _ & _ & Hst).
  destruct (w_req w) as [[st data]|e]; cbn [status_of] in Hst.
  - split; [intros ->; apply Hst|]. intros H1 H2.
    destruct st as [|z|z]; try apply Hst.
    do 10 (destruct z as [z|z|]; try apply Hst; try lia).
  - destruct Hst as [_ (e' & E & ->)]. injection E as <-. reflexivity.
Qed.

(** ** Sequence numbers *)
Definition above (t : transport) (n : nat * Z) : Prop :=
  (gen t < fst n)%nat \/ (fst n = gen t /\ exists σ, sess t = Some σ /\ s_seq σ < snd n).

Definition numbers (p : list post) : list (nat * Z) :=
  flat_map (fun p => match p with PRequest g s _ _ => [(g, s)] | _ => [] end) p.

Lemma step_numbers c t e t' p r s : kstep c t e = (t', p, r) -> inv c t s ->
  (forall n, above t' n -> above t n) /\
  (numbers p = [] \/ exists n, numbers p = [n] /\ above t n /\ forall n', above t' n' -> later n n').
Proof.
  destruct e as [w m|]; cbn [step].
  2: { intro H. injection H as <- <- <-. intros _. auto. }
  destruct (ksend c w t m) as [[t2 p2] r2] eqn:E. intro H. injection H as <- <- <-. intro Hi.
  unfold klap_send in E. rewrite (must_shake_inv _ _ _ _ Hi) in E.
  assert (R : forall t1 s1 p3, inv c t1 (Some s1) -> kreq w t1 m = (t2, p3, r2) ->
     (forall n, above t2 n -> above t1 n) /\
     (numbers p3 = [] \/ exists n, numbers p3 = [n] /\ above t1 n /\ forall n', above t2 n' -> later n n')).
  { intros t1 s1 p3 Hi1 Hr.
    destruct (send_request_spec _ _ _ _ _ _ _ _ Hr Hi1) as (Hg & Hseq & Hx). split.
    - intros n [Hn|(Hn & σ' & Hσ' & Hlt)]; [left; congruence|]. right. split; [congruence|].
      destruct s1 as [exp w0]. destruct Hi1 as (_ & _ & _ & a & σ & Hs & _). exists σ. split; [exact Hs|].
      destruct (Hseq σ Hs) as (σ2 & H2 & H3). rewrite H2 in Hσ'. injection Hσ' as <-. lia.
    - destruct Hx as [(-> & _)|(q & pay & -> & (σ & Hσ & ->) & _)]; [auto|]. right.
      exists (gen t1, s_seq σ + 1). split; [reflexivity|]. split.
      + right. split; [reflexivity|]. exists σ. split; [exact Hσ|]. cbn. lia.
      + destruct (Hseq σ Hσ) as (σ2 & H2 & H3).
        intros n' [Hn|(Hn & σ' & Hσ' & Hlt)]; [left; cbn; lia|]. right. cbn [fst snd]. split; [congruence|].
        rewrite H2 in Hσ'. injection Hσ' as <-. lia. }
  destruct (must_shake s (w_now w)) eqn:Em.
  - destruct (khs c w t) as [[t1 p1] r1] eqn:Eh. pose proof (handshake_spec _ _ _ _ _ _ Eh) as Hh.
    destruct r1 as [u|e].
    + destruct (kreq w t1 m) as [[t3 p3] r3] eqn:Er. injection E as <- <- <-.
      destruct Hh as (y & -> & Hw2 & Hg & _ & Hi1).
      destruct (R _ _ _ Hi1 Er) as [R1 R2].
      assert (Up : forall n, above t1 n -> above t n).
      { intros n [Hn|(Hn & _)]; left; lia. }
      split; [auto|]. cbn [app numbers flat_map].
      destruct R2 as [R2|(n & Hn & Ha & Hl)]; [left; exact R2|]. right. exists n. auto.
    + injection E as <- <- <-. destruct Hh as (_ & Hg & Hs & Hp). split.
      * intros n [Hn|(Hn & σ & Hσ & Hlt)]; [left; congruence|]. right. split; [congruence|].
        exists σ. split; [congruence | exact Hlt].
      * left. destruct Hp as [->|(y & -> & _)]; reflexivity.
  - destruct s as [s|]; [|discriminate]. apply (R t s p2 Hi E).
Qed.

Lemma run_numbers c : forall es t t' outs s, krun c t es = (t', outs) -> inv c t s ->
  Forall (above t) (request_numbers J outs) /\ Sorted.StronglySorted later (request_numbers J outs).
Proof.
  induction es as [|e es IH]; intros t t' outs s H Hi; cbn [run] in H.
  - injection H as <- <-. split; constructor.
  - destruct (kstep c t e) as [[t1 p] r] eqn:E. destruct (krun c t1 es) as [t2 out] eqn:E2.
    injection H as <- <-.
    destruct (step_numbers _ _ _ _ _ _ _ E Hi) as [U N].
    destruct (IH _ _ _ _ E2 (step_inv _ _ _ _ _ _ _ E Hi)) as [F S].
    change (request_numbers J ((p, r) :: out)) with (numbers p ++ request_numbers J out).
    destruct N as [->|(n & -> & Ha & Hl)]; cbn [app].
    + split; [|exact S]. eapply Forall_impl; [exact U | exact F].
    + split; constructor; auto.
      * eapply Forall_impl; [exact U | exact F].
      * eapply Forall_impl; [exact Hl | exact F].
Qed.

(** ** Handshake 1 in terms of credentials *)
Notation auth := (auth_of md5 sha1 sha256).

Lemma expected_h1 v l r a : expected_proof sha256 v l r a = h1hash v l r a.
Proof. destruct v; reflexivity. Qed.
Lemma auth_gen v c : generate_auth_hash md5 sha1 sha256 v c = auth v c.
Proof. destruct v; reflexivity. Qed.

Lemma cands_user v user h c : make_config md5 sha1 sha256 v (Some user) h = Ok c ->
  c_version c = v /\
  (map (auth v) (accepted_credentials user) = cands c \/
   (user = blank_credentials /\ map (auth v) (accepted_credentials user) = cands c ++ [auth v user])).
Proof.
  unfold make_config. intro H. injection H as <-. split; [reflexivity|].
  unfold candidates, accepted_credentials. cbn [c_auth c_version c_creds map]. rewrite map_app, map_map.
  destruct (cred_eqb user blank_credentials) eqn:E.
  - right. apply cred_eqb_eq in E. subst user. split; [reflexivity|]. rewrite app_nil_r. reflexivity.
  - left. reflexivity.
Qed.

Lemma split_map {A B} (f : A -> B) l pre b post : map f l = pre ++ b :: post ->
  exists pre' a post', l = pre' ++ a :: post' /\ map f pre' = pre /\ f a = b /\ map f post' = post.
Proof.
  revert l; induction pre as [|x pre IH]; intros [|y l] H; try discriminate; cbn in H; injection H as H1 H2.
  - exists [], y, l. auto.
  - destruct (IH _ H2) as (p & a & q & -> & <- & <- & <-). exists (y :: p), a, q. subst. auto.
Qed.

Lemma handshake_user_lemma v user h c seed status data l r a :
  make_config md5 sha1 sha256 v (Some user) h = Ok c ->
  hs1 c seed status data = Ok (l, r, a) ->
  status = 200 /\ length (server_proof data) = 32%nat /\ l = seed /\ r = server_seed data /\
  exists pre cred post, accepted_credentials user = pre ++ cred :: post /\ a = auth v cred /\
    server_proof data = expected_proof sha256 v seed (server_seed data) (auth v cred) /\
    Forall (fun cr => server_proof data <> expected_proof sha256 v seed (server_seed data) (auth v cr)) pre.
Proof.
  intros Hc H. apply handshake1_ok in H. destruct H as (-> & Hl & -> & -> & pre & post & Hs & Hm & HF).
  destruct (cands_user _ _ _ _ Hc) as [Hv Hcs]. rewrite Hv in *. repeat split; auto.
  assert (E : exists post', map (auth v) (accepted_credentials user) = pre ++ a :: post').
  { destruct Hcs as [->|[_ ->]]; [eauto|]. rewrite Hs. rewrite <- app_assoc. cbn. eauto. }
  destruct E as [post' E]. destruct (split_map _ _ _ _ _ E) as (p' & cr & q' & H1 & H2 & H3 & _).
  exists p', cr, q'. repeat split; auto; subst.
  - now rewrite expected_h1.
  - rewrite Forall_forall in *. intros x Hx. rewrite expected_h1. intro E'. apply (HF (auth (c_version c) x)); [|auto].
    now apply in_map.
Qed.

Lemma handshake_user_complete v user h c seed data cred :
  make_config md5 sha1 sha256 v (Some user) h = Ok c ->
  In cred (accepted_credentials user) -> length (server_proof data) = 32%nat ->
  server_proof data = expected_proof sha256 v seed (server_seed data) (auth v cred) ->
  exists a, hs1 c seed 200 data = Ok (seed, server_seed data, a).
Proof.
  intros Hc Hin Hl Hp. destruct (hs1 c seed 200 data) as [[[l r] a]|e] eqn:E.
  - apply handshake1_ok in E. destruct E as (_ & _ & -> & -> & _). eauto.
  - exfalso. destruct (cands_user _ _ _ _ Hc) as [Hv Hcs].
    apply handshake1_errors in E. destruct E as [[[H|H] _]|[H _]]; try congruence.
    apply (H (auth v cred)); [|rewrite Hv, <- expected_h1; auto].
    apply (in_map (auth v)) in Hin. destruct Hcs as [<-|[-> Hm]]; [exact Hin|].
    rewrite Hm in Hin. apply in_app_or in Hin. destruct Hin as [Hin|[<-|[]]]; [exact Hin|].
    unfold make_config in Hc. injection Hc as <-. left. cbn. now rewrite auth_gen.
Qed.

Lemma handshake_user_errors v user h c seed status data e :
  make_config md5 sha1 sha256 v (Some user) h = Ok c ->
  hs1 c seed status data = Err e ->
  ((status <> 200 \/ length (server_proof data) <> 32%nat) /\ e = KKasa) \/
  (e = KAuth None /\ forall cred, In cred (accepted_credentials user) ->
     server_proof data <> expected_proof sha256 v seed (server_seed data) (auth v cred)).
Proof.
  intros Hc H. pose proof H as H0. apply handshake1_errors in H. destruct H as [H|[H ->]]; [auto|]. right. split; [reflexivity|].
  intros cred Hin Hp. destruct (cands_user _ _ _ _ Hc) as [Hv Hcs].
  apply (H (auth v cred)); [|rewrite Hv, <- expected_h1; auto].
  apply (in_map (auth v)) in Hin. destruct Hcs as [<-|[-> Hm]]; [exact Hin|].
  rewrite Hm in Hin. apply in_app_or in Hin. destruct Hin as [Hin|[<-|[]]]; [exact Hin|].
  unfold make_config in Hc. injection Hc as <-. left. cbn. now rewrite auth_gen.
Qed.

Lemma handshake_collision v c seed status data l r a b :
  c_version c = v -> hs1 c seed status data = Ok (l, r, a) ->
  server_proof data = expected_proof sha256 v seed (server_seed data) b ->
  a = b \/ (proof_input v seed (server_seed data) a <> proof_input v seed (server_seed data) b /\
            sha256 (proof_input v seed (server_seed data) a) = sha256 (proof_input v seed (server_seed data) b)).
Proof.
  intros Hv H Hb. apply handshake1_ok in H. destruct H as (_ & _ & _ & _ & _ & _ & _ & Hm & _).
  destruct (list_eq_dec ascii_dec a b) as [|Hne]; [auto|]. right.
  rewrite Hv, <- expected_h1, Hb in Hm. clear Hb. destruct v; cbn in *.
  - split; [intro E; apply app_inv_head in E; congruence | auto].
  - split; [intro E; do 2 apply app_inv_head in E; congruence | auto].
Qed.

(** ** Sequences of messages *)
Lemma encrypt_all_nth : forall ms s i m, nth_error ms i = Some m -> length (s_iv s) = 12%nat ->
  let q := s_seq s + 1 + Z.of_nat i in
  exists s' r, nth_error (encrypt_all sha256 enc_block s ms) i = Some (s', r) /\
    s_iv s' = s_iv s /\ s_key s' = s_key s /\
    match r with
    | Ok (payload, q') => q' = q /\ - 2 ^ 31 <= q < 2 ^ 31 /\ klap_decrypt dec_block s' payload = Ok m /\
        (exists packed, pack_i32 q = Ok packed /\ s_cipher s' = Some (s_iv s ++ packed))
    | Err e => e = PyStructError /\ ~ (- 2 ^ 31 <= q < 2 ^ 31)
    end.
Proof.
  induction ms as [|m0 ms IH]; intros s i m Hn Hl q; [destruct i; discriminate|].
  cbn [encrypt_all]. set (o := klap_encrypt sha256 enc_block s m0).
  assert (Ho : s_seq (fst o) = s_seq s + 1 /\ s_iv (fst o) = s_iv s /\ s_key (fst o) = s_key s).
  { unfold o. rewrite encrypt_spec. destruct (_ && _); cbn; auto. }
  destruct Ho as (Hseq & Hiv & Hkey).
  destruct i as [|i].
  - injection Hn as ->. destruct o as [s' r] eqn:Eo. exists s', r. split; [reflexivity|].
    split; [exact Hiv|]. split; [exact Hkey|]. subst o. replace q with (s_seq s + 1) by (unfold q; lia).
    destruct r as [[payload q']|e].
    + pose proof (decrypt_own _ _ _ _ _ Eo Hl) as Hd.
      destruct (encrypt_ok _ _ _ _ _ Eo Hl) as (-> & _ & _ & _ & _ & pk & Hpk & Hc & _).
      split; [reflexivity|]. split; [apply pack_i32_ok; eauto|]. split; [exact Hd | eauto].
    + rewrite encrypt_spec in Eo. destruct (_ && _) eqn:E; [discriminate|]. injection Eo as _ <-.
      split; [reflexivity|]. intros [H1 H2]. apply Z.leb_le in H1. apply Z.ltb_lt in H2. rewrite H1, H2 in E. discriminate.
  - cbn [nth_error] in *. destruct (IH (fst o) i m Hn) as (s' & r & H1 & H2 & H3 & H4); [congruence|].
    rewrite Hseq, Hiv in *. exists s', r. split; [exact H1|]. split; [congruence|]. split; [congruence|].
    replace q with (s_seq s + 1 + 1 + Z.of_nat i) by (unfold q; lia). exact H4.
Qed.

(** ** Exceptions *)
Lemma send_errors c w t m t' p e s : ksend c w t m = (t', p, Err e) -> inv c t s ->
  (forall e', w_h1 w = Err e' -> is_kasa e' = true) -> (forall e', w_h2 w = Err e' -> is_kasa e' = true) ->
  (forall e', w_req w = Err e' -> is_kasa e' = true) ->
  is_kasa e = true \/ e = PyStructError \/
  (e = PyValueError /\ (w_timeout w = BadTimeout \/ exists plain, json_loads plain = Some None)).
Proof.
  intros H Hi H1 H2 H3.
  assert (R : forall t1 s1 p3, inv c t1 (Some s1) -> kreq w t1 m = (t', p3, Err e) ->
     is_kasa e = true \/ e = PyStructError \/ (e = PyValueError /\ (w_timeout w = BadTimeout \/ exists plain, json_loads plain = Some None))).
  { intros t1 [exp w0] p3 Hi1 Hr. unfold send_request in Hr. destruct Hi1 as (_ & _ & _ & a & σ & Hs & Hof).
    rewrite Hs in Hr. rewrite encrypt_spec in Hr.
    destruct (_ && _); [|injection Hr as _ _ <-; auto]. cbv zeta in Hr.
    destruct (w_req w) as [[st data]|e'] eqn:Ew.
    2: { injection Hr as _ _ <-. left. auto. }
    destruct (negb (st =? 200)).
    { destruct (st =? 403); injection Hr as _ _ <-; auto. }
    destruct (klap_decrypt _ _ _) as [pl|]; [|injection Hr as _ _ <-; auto].
    destruct (json_loads pl) as [[j|]|] eqn:Ej; [discriminate| |]; injection Hr as _ _ <-; [right; right|auto].
    split; [reflexivity|]. eauto. }
  unfold klap_send in H. rewrite (must_shake_inv _ _ _ _ Hi) in H. destruct (must_shake s (w_now w)) eqn:Em.
  2: { destruct s as [s|]; [|discriminate]. eapply R; eauto. }
  destruct (khs c w t) as [[t1 p1] r1] eqn:Eh. pose proof (handshake_spec _ _ _ _ _ _ Eh) as Hh.
  destruct r1 as [u|e1].
  - destruct (kreq w t1 m) as [[t2 p2] r2] eqn:Er. inversion H; subst.
    destruct Hh as (y & _ & _ & _ & _ & Hi1). eapply R; eauto.
  - assert (e1 = e) by congruence. subst e1. clear H. unfold perform_handshake in Eh. cbv zeta in Eh.
    destruct (w_h1 w) as [[st data]|e'].
    2: { injection Eh as _ _ <-. auto. }
    destruct (hs1 c (w_seed w) st data) as [[[l r] a]|e'] eqn:E1.
    2: { injection Eh as _ _ <-. apply handshake1_errors in E1. destruct E1 as [[_ ->]|[_ ->]]; auto. }
    destruct (w_timeout w) eqn:Et; cbn [int_timeout] in Eh.
    2: { injection Eh as _ _ <-. auto. }
    all: destruct (w_h2 w) as [z|e']; [|injection Eh as _ _ <-; auto];
      destruct (negb (z =? 200)); [injection Eh as _ _ <-; auto | discriminate].
Qed.

(** ** The stored hash *)
Lemma cred_hash_lemma v user c h c' :
  make_config md5 sha1 sha256 v (Some user) None = Ok c -> auth v user <> [] ->
  credentials_hash c = Some h -> make_config md5 sha1 sha256 v None (Some h) = Ok c' ->
  cands c' = cands c /\ c_version c' = c_version c /\ credentials_hash c' = Some h.
Proof.
  unfold make_config. intros H Hne. injection H as <-. unfold credentials_hash at 1. cbn [c_creds c_auth].
  destruct (cred_eqb user blank_credentials) eqn:E; [discriminate|]. intro H. injection H as <-.
  rewrite auth_gen. destruct (b64encode (auth v user)) as [|x h] eqn:Eb.
  { exfalso. destruct (auth v user) as [|[] [|[] [|[] ?]]]; cbn in Eb; congruence. }
  rewrite <- Eb, b64_round_trip. cbn [bind]. intro H. injection H as <-.
  unfold candidates, credentials_hash. cbn [c_auth c_creds c_version]. rewrite E. auto.
Qed.
Lemma cred_hash_total v user c h :
  make_config md5 sha1 sha256 v (Some user) None = Ok c ->
  credentials_hash c = Some h -> exists c', make_config md5 sha1 sha256 v None (Some h) = Ok c'.
Proof.
  unfold make_config. intros H. injection H as <-. unfold credentials_hash. cbn [c_creds c_auth].
  destruct (cred_eqb user blank_credentials) eqn:E; [discriminate|]. intro H. injection H as <-.
  destruct (b64encode _) as [|x h] eqn:Eb; [eauto|]. rewrite <- Eb, b64_round_trip. cbn. eauto.
Qed.
End Klap.

(** Proofs about the AES transport. *)
From Verif Require Import Base Base_Lemmas Py Codes_Model Crypto_Model Crypto_Proofs Aes_Model Aes_Spec.
From Verif Require Klap_Model.
Open Scope Z_scope.

Lemma new_session_total kv : new_session kv =
  if Nat.eqb (length kv) 32 then Ok (firstn 16 kv, skipn 16 kv) else Err PyValueError.
Proof.
  unfold new_session. rewrite firstn_length, skipn_length.
  destruct (Nat.eqb (length kv) 32) eqn:E.
  - apply Nat.eqb_eq in E. rewrite E. reflexivity.
  - apply Nat.eqb_neq in E. destruct (Nat.eqb (Nat.min 16 (length kv)) 16) eqn:E1; [|reflexivity].
    apply Nat.eqb_eq in E1. destruct (Nat.eqb (length kv - 16) 16) eqn:E2; [|reflexivity].
    apply Nat.eqb_eq in E2. lia.
Qed.

Section Aes.
Variables enc_block dec_block : bytes -> bytes -> bytes.
Variable json_loads : bytes -> option json.
Variable open_key : json -> res bytes.
Variable login_text : bool -> bytes.
Hypothesis enc_length : forall key b, length b = block -> length (enc_block key b) = block.
Hypothesis dec_enc : forall key b, length b = block -> dec_block key (enc_block key b) = b.

Notation aenc := (aes_encrypt enc_block).
Notation adec := (aes_decrypt dec_block).

Lemma round_trip_lemma (s : bytes * bytes) m : length (snd s) = block ->
  exists c, aenc s m = Ok c /\ adec s c = Ok m.
Proof.
  intro H. unfold aes_encrypt, aes_decrypt.
  destruct (cbc_encrypt_ok enc_block (fst s) (snd s) (pkcs7_pad m) (pad_whole m)) as [c Hc].
  rewrite Hc. cbn [bind]. eexists. split; [reflexivity|]. rewrite b64_round_trip. cbn [bind].
  rewrite (cbc_round_trip enc_block dec_block enc_length dec_enc _ _ _ _ H Hc). cbn [bind]. apply unpad_pad.
Qed.

(** ** Error codes *)
Definition not_auth (e : exn) : Prop := match e with KAuth _ => False | _ => True end.

Lemma handle_code_spec j t :
  match code_in j with
  | None => exists e, handle_code j t = (t, Err e) /\ not_auth e
  | Some c =>
      if c =? 0 then handle_code j t = (t, Ok tt)
      else if auth_code c then handle_code j t = (set_st HANDSHAKE_REQUIRED t, Err (KAuth (Some c)))
      else exists e, handle_code j t = (t, Err e) /\ not_auth e
  end.
Proof.
  unfold handle_code, code_in, jget. destruct j; try (eexists; split; [reflexivity | exact I]).
  destruct (error_code_of _) as [c|e] eqn:E.
  2: { eexists; split; [reflexivity|]. destruct (dget "error_code" d) as [[]|]; cbn in E; try discriminate; injection E as <-; exact I. }
  destruct (c =? 0); [reflexivity|]. unfold auth_code.
  destruct (zmem c smart_retryable_errors); [rewrite andb_false_r; eexists; split; [reflexivity | exact I]|].
  destruct (zmem c smart_authentication_errors); [reflexivity|]. eexists; split; [reflexivity | exact I].
Qed.

Lemma code_match {A} (o : option Z) (x y : A) (f : Z -> A) :
  match o with Some 0 => x | Some c => f c | None => y end =
  match o with Some c => if c =? 0 then x else f c | None => y end.
Proof. destruct o as [[| |]|]; reflexivity. Qed.

Lemma jitem2_field a b j :
  (let! r := jitem a j in jitem b r) =
    match field2 a b j with Some v => Ok v | None => Err (match j with JObj d => match dget a d with Some (JObj _) | None => PyKeyError | Some _ => PyTypeError end | _ => PyTypeError end) end.
Proof.
  unfold field2, field, jitem, dindex. destruct j; try reflexivity. destruct (dget a d) as [v|]; [|reflexivity]. cbn [bind].
  destruct v; try reflexivity. all: destruct (dget b d0); reflexivity.
Qed.

Lemma read_answer_spec s raw :
  match raw with
  | JStr raw =>
      match match adec s (lit raw) with
            | Ok text => match json_loads text with Some j => Some j | None => json_loads (lit raw) end
            | Err _ => json_loads (lit raw)
            end with
      | Some j => read_answer dec_block json_loads s (JStr raw) = Ok j
      | None => read_answer dec_block json_loads s (JStr raw) = Err KKasa
      end
  | _ => read_answer dec_block json_loads s raw = Err KKasa
  end.
Proof.
  destruct raw; try reflexivity. unfold read_answer. cbv zeta.
  destruct (adec s (lit s0)) as [text|]; [destruct (json_loads text); [reflexivity|]|]; destruct (json_loads (lit s0)); reflexivity.
Qed.

Notation ans := (answer dec_block json_loads).

Lemma answer_spec s resp :
  match ans s resp with
  | Some j => (let! result := jitem "result" resp in let! raw := jitem "response" result in
               read_answer dec_block json_loads s raw) = Ok j
  | None => exists e, (let! result := jitem "result" resp in let! raw := jitem "response" result in
               read_answer dec_block json_loads s raw) = Err e /\ not_auth e
  end.
Proof.
  assert (E : (let! result := jitem "result" resp in let! raw := jitem "response" result in
               read_answer dec_block json_loads s raw) =
              let! raw := (let! result := jitem "result" resp in jitem "response" result) in
               read_answer dec_block json_loads s raw).
  { destruct (jitem "result" resp); reflexivity. }
  rewrite E, jitem2_field. unfold answer. clear E. destruct (field2 "result" "response" resp) as [raw|].
  - cbn [bind]. pose proof (read_answer_spec s raw) as Hr.
    destruct raw as [| | | |raw| |]; try (eexists; split; [exact Hr | exact I]).
    destruct (match adec s (lit raw) with Ok _ => _ | Err _ => _ end); [exact Hr|]. eexists; split; [exact Hr | exact I].
  - eexists. split; [reflexivity|]. destruct resp; try exact I. destruct (dget _ d) as [[]|]; exact I.
Qed.

(** ** One post through the session *)
Notation thru := (passthrough enc_block dec_block json_loads).

Definition url_of (t : aes) := match st t with ESTABLISHED => token t | _ => None end.

Lemma passthrough_spec mk r m t (s : bytes * bytes) : sess t = Some s -> length (snd s) = block ->
  exists payload, adec s payload = Ok m /\
  let t1 := add_log (mk (url_of t) (cookie t) payload) t in
  match r with
  | Err e => thru mk r m t = (t1, Err e)
  | Ok (status, resp) =>
      if negb (status =? 200) then thru mk r m t = (t1, Err KKasa)
      else match code_in resp with
      | Some c =>
          if c =? 0 then
            match ans s resp with
            | Some j => thru mk r m t = (t1, Ok j)
            | None => exists e, thru mk r m t = (t1, Err e) /\ not_auth e
            end
          else if auth_code c then thru mk r m t = (set_st HANDSHAKE_REQUIRED t1, Err (KAuth (Some c)))
          else exists e, thru mk r m t = (t1, Err e) /\ not_auth e
      | None => exists e, thru mk r m t = (t1, Err e) /\ not_auth e
      end
  end.
Proof.
  intros Hs Hl. destruct (round_trip_lemma s m Hl) as (payload & He & Hd). exists payload. split; [exact Hd|].
  cbv zeta. unfold passthrough. rewrite Hs, He. fold (url_of t).
  destruct r as [[status resp]|e]; [|reflexivity].
  destruct (negb (status =? 200)); [reflexivity|]. unfold mbind.
  set (t1 := add_log _ _). pose proof (handle_code_spec resp t1) as H.
  destruct (code_in resp) as [c|].
  - destruct (c =? 0).
    + rewrite H. unfold mlift. pose proof (answer_spec s resp) as Ha. destruct (ans s resp).
      * now rewrite Ha.
      * destruct Ha as (e & Ha & Hn). rewrite Ha. eauto.
    + destruct (auth_code c); [now rewrite H|]. destruct H as (e & -> & Hn). eauto.
  - destruct H as (e & -> & Hn). eauto.
Qed.

(** ** The invariant *)
Definition sess_ok (g : grant) : Prop := length (snd (g_sess g)) = block.
Definition shaken (t : aes) (g : grant) : Prop :=
  expire_at t = Some (g_exp g) /\ sess t = Some (g_sess g) /\ cookie t = g_cookie g /\ sess_ok g.
Definition inv (t : aes) (o : ostate) : Prop :=
  match o with
  | ONone => st t = HANDSHAKE_REQUIRED \/ expire_at t = None
  | OShaken g => st t = LOGIN_REQUIRED /\ token t = None /\ shaken t g
  | OLive g tok => st t = ESTABLISHED /\ token t = Some tok /\ shaken t g
  end.

Notation verdict_of := (login_verdict dec_block json_loads).
Notation tlogin := (try_login enc_block dec_block json_loads login_text).

Lemma try_login_spec d r t g t' res : inv t (OShaken g) -> tlogin d r t = (t', res) ->
  exists payload, adec (g_sess g) payload = Ok (login_text d) /\
    log t' = log t ++ [PLogin d None (g_cookie g) payload] /\
    match verdict_of (g_sess g) r with
    | LToken tok => res = Ok tt /\ inv t' (OLive g tok)
    | LAuth c => res = Err (KAuth c)
    | LFail => exists e, res = Err e /\ not_auth e /\ inv t' (OShaken g)
    end.
Proof.
  intros (Hst & Htok & Hexp & Hs & Hck & Hok) H.
  destruct (passthrough_spec (PLogin d) r (login_text d) t _ Hs Hok) as (payload & Hd & Hp).
  exists payload. split; [exact Hd|]. cbv zeta in Hp.
  assert (Hu : url_of t = None) by (unfold url_of; now rewrite Hst). rewrite Hu, Hck in Hp.
  set (t1 := add_log (PLogin d None (g_cookie g) payload) t) in *.
  assert (Hlog : log t1 = log t ++ [PLogin d None (g_cookie g) payload]) by reflexivity.
  assert (Hi1 : inv t1 (OShaken g)) by (repeat split; assumption).
  unfold try_login, mbind in H. unfold login_verdict.
  destruct r as [[status resp]|e].
  2: { rewrite Hp in H. injection H as <- <-. split; [exact Hlog|].
       destruct e; try (eexists; split; [reflexivity|]; split; [exact I | exact Hi1]). reflexivity. }
  destruct (negb (status =? 200)).
  { rewrite Hp in H. injection H as <- <-. split; [exact Hlog|]. eexists; split; [reflexivity|]. split; [exact I | exact Hi1]. }
  rewrite code_match.
  destruct (code_in resp) as [c|].
  2: { destruct Hp as (e & Hp & Hn). rewrite Hp in H. injection H as <- <-. split; [exact Hlog|]. eauto. }
  destruct (c =? 0).
  2: { destruct (auth_code c).
       - rewrite Hp in H. injection H as <- <-. split; [exact Hlog | reflexivity].
       - destruct Hp as (e & Hp & Hn). rewrite Hp in H. injection H as <- <-. split; [exact Hlog|]. eauto. }
  destruct (ans (g_sess g) resp) as [j|].
  2: { destruct Hp as (e & Hp & Hn). rewrite Hp in H. injection H as <- <-. split; [exact Hlog|]. eauto. }
  rewrite Hp in H. pose proof (handle_code_spec j t1) as Hc. rewrite code_match.
  destruct (code_in j) as [c'|].
  2: { destruct Hc as (e & Hc & Hn). rewrite Hc in H. injection H as <- <-. split; [exact Hlog|]. eauto. }
  destruct (c' =? 0).
  2: { destruct (auth_code c').
       - rewrite Hc in H. injection H as <- <-. split; [exact Hlog | reflexivity].
       - destruct Hc as (e & Hc & Hn). rewrite Hc in H. injection H as <- <-. split; [exact Hlog|]. eauto. }
  rewrite Hc in H. unfold mlift in H. rewrite jitem2_field in H.
  destruct (field2 "result" "token" j) as [tok|].
  - injection H as <- <-. split; [exact Hlog|]. split; [reflexivity|]. repeat split; assumption.
  - injection H as <- <-. split; [exact Hlog|]. eexists; split; [reflexivity|]. split; [|exact Hi1].
    destruct j; try exact I. destruct (dget _ d0) as [[]|]; exact I.
Qed.

Notation grants := (grant_of open_key).
Notation hshake := (perform_handshake open_key).

Lemma handshake_spec h t t' res : hshake h t = (t', res) ->
  log t' = log t ++ [PHandshake] /\
  match grants h with
  | Some g => res = Ok tt /\ inv t' (OShaken g)
  | None => exists e, res = Err e /\ (keys_usable open_key h -> inv t' ONone)
  end.
Proof.
  unfold perform_handshake, grant_of, keys_usable, offered_key. cbv zeta.
  set (t0 := mkAes (st t) None (sess t) None None (log t ++ [PHandshake])).
  destruct (hs_post h) as [[status resp]|e].
  2: { intro H. injection H as <- <-. split; [reflexivity|]. eexists. split; [reflexivity|]. intros _. right. reflexivity. }
  destruct (status =? 200); cbn [negb].
  2: { intro H. injection H as <- <-. split; [reflexivity|]. eexists. split; [reflexivity|]. intros _. right. reflexivity. }
  pose proof (handle_code_spec resp t0) as Hc. rewrite code_match.
  destruct (code_in resp) as [c|].
  2: { destruct Hc as (e & -> & _). intro H. injection H as <- <-. split; [reflexivity|]. eexists. split; [reflexivity|]. intros _. right. reflexivity. }
  destruct (c =? 0).
  2: { destruct (auth_code c).
       - rewrite Hc. intro H. injection H as <- <-. split; [reflexivity|]. eexists. split; [reflexivity|]. intros _. left. reflexivity.
       - destruct Hc as (e & -> & _). intro H. injection H as <- <-. split; [reflexivity|]. eexists. split; [reflexivity|]. intros _. right. reflexivity. }
  rewrite Hc, jitem2_field.
  destruct (field2 "result" "key" resp) as [key|].
  2: { intro H. injection H as <- <-. split; [reflexivity|]. eexists. split; [reflexivity|]. intros _. right. reflexivity. }
  unfold granted, Klap_Model.int_timeout.
  assert (G : forall timeout,
    match (let! kv := open_key key in new_session kv) with
    | Ok s => (mkAes LOGIN_REQUIRED (Some (hs_now h + timeout - Klap_Model.SESSION_EXPIRE_BUFFER_SECONDS)) (Some s) (hs_cookie h) None (log t ++ [PHandshake]), Ok tt)
    | Err e => (mkAes (st t) (Some (hs_now h + timeout - Klap_Model.SESSION_EXPIRE_BUFFER_SECONDS)) (sess t) (hs_cookie h) None (log t ++ [PHandshake]), Err e)
    end = (t', res) ->
    log t' = log t ++ [PHandshake] /\
    match match usable open_key key with
          | Some s => Some (mkGrant s (hs_cookie h) (hs_now h + timeout - 1200)) | None => None end with
    | Some g => res = Ok tt /\ inv t' (OShaken g)
    | None => exists e, res = Err e /\ ((forall key0, Some key = Some key0 -> usable open_key key0 <> None) -> inv t' ONone)
    end).
  { intros timeout H. unfold usable at 1. destruct (open_key key) as [kv|e] eqn:Ek; cbn [bind] in H.
    2: { injection H as <- <-. split; [reflexivity|]. eexists; split; [reflexivity|]. intro Hu.
         exfalso. apply (Hu key eq_refl). unfold usable. now rewrite Ek. }
    rewrite new_session_total in H. destruct (Nat.eqb (length kv) 32) eqn:El.
    2: { injection H as <- <-. split; [reflexivity|]. eexists; split; [reflexivity|]. intro Hu.
         exfalso. apply (Hu key eq_refl). unfold usable. now rewrite Ek, El. }
    injection H as <- <-. split; [reflexivity|]. split; [reflexivity|]. repeat split.
    unfold sess_ok. cbn [g_sess snd]. apply Nat.eqb_eq in El. rewrite skipn_length, El. reflexivity. }
  destruct (hs_timeout h); try apply G.
  intro H. injection H as <- <-. split; [reflexivity|]. eexists. split; [reflexivity|]. intros _. right. reflexivity.
Qed.

(** ** Lawful posts *)
Notation oposts := (obs_posts dec_block json_loads open_key).
Notation opost := (obs_post dec_block json_loads open_key).
Notation law := (lawful dec_block json_loads open_key login_text).
Notation may := (may_post dec_block login_text).

Lemma oposts_snoc w s ps p : oposts w s (ps ++ [p]) = opost w (oposts w s ps) p.
Proof. unfold obs_posts. now rewrite fold_left_app. Qed.

Lemma law_nil w m s : law w m s [].
Proof. intros [|x pre] p post H; discriminate. Qed.
Lemma law_snoc w m s ps p : law w m s ps -> may w m (oposts w s ps) p -> law w m s (ps ++ [p]).
Proof.
  intros HL HM pre q post H. destruct (rev post) as [|z zs] eqn:Er.
  - apply (f_equal (@rev _)) in Er. rewrite rev_involutive in Er. subst post. cbn in H.
    apply app_inj_tail in H. destruct H as [<- <-]. exact HM.
  - apply (f_equal (@rev _)) in Er. rewrite rev_involutive in Er. cbn in Er. subst post.
    rewrite app_comm_cons, app_assoc in H. apply app_inj_tail in H. destruct H as [H _]. eapply HL, H.
Qed.

(** The transport [t] in the middle of a send: what was posted so far is lawful,
    and the observer's state is [o]. *)
Definition mid (w : world) (m : bytes) (s : ostate) (t : aes) (o : obs) : Prop :=
  law w m s (log t) /\ oposts w s (log t) = o /\ inv t (o_st o).

Notation asend := (send enc_block dec_block json_loads open_key login_text).
Notation plogin := (perform_login enc_block dec_block json_loads open_key login_text).

Lemma login_mid w m s t g shook t' res :
  keys_usable open_key (w_hs2 w) ->
  mid w m s t (mkObs (OShaken g) shook None false) -> current w g (mkObs (OShaken g) shook None false) ->
  match plogin w t with
  | (t2, Err (KAuth c)) => (set_st HANDSHAKE_REQUIRED t2, Err (KAuth c))
  | r => r
  end = (t', res) ->
  match res with
  | Ok _ => exists g' tok shook' lv, mid w m s t' (mkObs (OLive g' tok) shook' lv false) /\
              (shook' = true \/ w_now w < g_exp g')
  | Err e => exists o, mid w m s t' o
  end.
Proof.
  intros Hu (HL & HO & HI) Hcur H. cbn [o_st] in HI. unfold perform_login in H.
  destruct (tlogin false (w_login w) t) as [t1 r1] eqn:E1.
  destruct (try_login_spec _ _ _ _ _ _ HI E1) as (payload & Hd & Hlog & Hv).
  assert (HL1 : law w m s (log t1)).
  { rewrite Hlog. apply law_snoc; [exact HL|]. rewrite HO. split; [reflexivity|].
    exists g. repeat split; auto. }
  assert (HO1 : oposts w s (log t1) =
    let v := verdict_of (g_sess g) (w_login w) in
    mkObs (match v with LToken tok => OLive g tok | LAuth _ => ONone | LFail => OShaken g end) shook (Some v) false).
  { rewrite Hlog, oposts_snoc, HO. reflexivity. }
  cbv zeta in HO1.
  destruct (verdict_of (g_sess g) (w_login w)) as [tok|c|] eqn:Ev.
  - destruct Hv as [-> HI1]. injection H as <- <-. exists g, tok, shook, (Some (LToken tok)).
    split; [exact (conj HL1 (conj HO1 HI1)) | exact Hcur].
  - subst r1.
    assert (Hfail : forall t2 o2, law w m s (log t2) -> oposts w s (log t2) = mkObs ONone o2 (Some (LAuth c)) false ->
      exists o, mid w m s (set_st HANDSHAKE_REQUIRED t2) o).
    { intros t2 o2 Ha Hb. eexists. split; [exact Ha|]. split; [exact Hb|]. left. reflexivity. }
    assert (Hstop : (set_st HANDSHAKE_REQUIRED t1, Err (KAuth c)) = (t', res) ->
      match res with
      | Ok _ => exists g' tok shook' lv, mid w m s t' (mkObs (OLive g' tok) shook' lv false) /\
              (shook' = true \/ w_now w < g_exp g')
      | Err e => exists o, mid w m s t' o end).
    { intro H'. injection H' as <- <-. eapply Hfail; [exact HL1 | exact HO1]. }
    destruct c as [c|]; [|exact (Hstop H)].
    destruct (c =? LOGIN_ERROR) eqn:Ec; [|exact (Hstop H)].
    clear Hstop. apply Z.eqb_eq in Ec. unfold mbind in H.
    destruct (hshake (w_hs2 w) t1) as [t2 r2] eqn:E2.
    destruct (handshake_spec _ _ _ _ E2) as (Hlog2 & Hg).
    assert (HL2 : law w m s (log t2)).
    { rewrite Hlog2. apply law_snoc; [exact HL1|]. rewrite HO1. split; [reflexivity|]. right. subst c. reflexivity. }
    assert (HO2 : oposts w s (log t2) =
      mkObs (match grants (w_hs2 w) with Some g => OShaken g | None => ONone end) true (Some (LAuth (Some c))) false).
    { rewrite Hlog2, oposts_snoc, HO1. reflexivity. }
    destruct (grants (w_hs2 w)) as [g2|] eqn:Eg.
    + destruct Hg as [-> HI2].
      destruct (tlogin true (w_login2 w) t2) as [t3 r3] eqn:E3.
      destruct (try_login_spec _ _ _ _ _ _ HI2 E3) as (payload3 & Hd3 & Hlog3 & Hv3).
      assert (HL3 : law w m s (log t3)).
      { rewrite Hlog3. apply law_snoc; [exact HL2|]. rewrite HO2. split; [reflexivity|].
        exists g2. cbn [o_st o_login]. repeat split; auto; [left; reflexivity | now subst c]. }
      assert (HO3 : oposts w s (log t3) =
        let v := verdict_of (g_sess g2) (w_login2 w) in
        mkObs (match v with LToken tok => OLive g2 tok | LAuth _ => ONone | LFail => OShaken g2 end)
              true (Some (LAuth (Some c))) false).
      { rewrite Hlog3, oposts_snoc, HO2. reflexivity. }
      cbv zeta in HO3.
      destruct (verdict_of (g_sess g2) (w_login2 w)) as [tok|c3|].
      * destruct Hv3 as [-> HI3]. injection H as <- <-.
        exists g2, tok, true, (Some (LAuth (Some c))). split; [exact (conj HL3 (conj HO3 HI3)) | left; reflexivity].
      * subst r3. cbn [relogin_exn] in H. injection H as <- <-. eexists. split; [exact HL3|]. split; [exact HO3|]. left. reflexivity.
      * destruct Hv3 as (e & -> & Hn & HI3).
        assert (Hr : (t3, @Err unit (relogin_exn e)) = (t', res)).
        { destruct e; try exact H; contradiction. }
        injection Hr as <- <-. eexists. split; [exact HL3|]. split; [exact HO3 | exact HI3].
    + destruct Hg as (e & -> & HI2). specialize (HI2 Hu).
      destruct (relogin_exn e) eqn:Ee; injection H as <- <-; eexists; (split; [exact HL2|]; split; [exact HO2|]);
        first [exact HI2 | left; reflexivity].
  - destruct Hv as (e & -> & Hn & HI1).
    assert (Hr : (t1, @Err unit e) = (t', res)).
    { destruct e; try exact H; contradiction. }
    injection Hr as <- <-. eexists. split; [exact HL1|]. split; [exact HO1 | exact HI1].
Qed.

(** A user request over a live session. *)
Lemma request_mid w m s t g tok shook lv t' res :
  mid w m s t (mkObs (OLive g tok) shook lv false) -> (shook = true \/ w_now w < g_exp g) ->
  thru PRequest (w_req w) m t = (t', res) ->
  exists o, mid w m s t' o /\ o_sent o = true /\
  match w_req w with
  | Err e => res = Err e
  | Ok (status, resp) =>
      (status <> 200 -> res = Err KKasa) /\
      (status = 200 -> forall c, code_in resp = Some c ->
         (c = 0 -> forall j, ans (g_sess g) resp = Some j -> res = Ok j) /\
         (c <> 0 -> auth_code c = true -> res = Err (KAuth (Some c))))
  end.
Proof.
  intros (HL & HO & HI) Hcur H. destruct HI as (Hst & Htok & Hexp & Hs & Hck & Hok).
  destruct (passthrough_spec PRequest (w_req w) m t _ Hs Hok) as (payload & Hd & Hp). cbv zeta in Hp.
  assert (Hu : url_of t = Some tok) by (unfold url_of; now rewrite Hst). rewrite Hu, Hck in Hp.
  set (t1 := add_log (PRequest (Some tok) (g_cookie g) payload) t) in *.
  assert (HL1 : law w m s (log t1)).
  { apply law_snoc; [exact HL|]. rewrite HO. split; [reflexivity|]. exists g, tok. repeat split; auto. }
  assert (HO1 : oposts w s (log t1) = mkObs (if refused (w_req w) then ONone else OLive g tok) shook lv true).
  { change (log t1) with (log t ++ [PRequest (Some tok) (g_cookie g) payload]). rewrite oposts_snoc, HO. reflexivity. }
  assert (Hlive : inv t1 (OLive g tok)) by (repeat split; assumption).
  assert (Hkeep : refused (w_req w) = false -> exists o, mid w m s t1 o /\ o_sent o = true).
  { intro Hr. rewrite Hr in HO1. exists (mkObs (OLive g tok) shook lv true). split; [|reflexivity]. split; [exact HL1|]. split; [exact HO1 | exact Hlive]. }
  unfold refused in Hkeep, HO1. destruct (w_req w) as [[status resp]|e].
  2: { rewrite Hp in H. injection H as <- <-. destruct (Hkeep eq_refl) as (o & Ho). exists o. tauto. }
  destruct (status =? 200) eqn:E2; cbn [negb andb] in *.
  2: { rewrite Hp in H. injection H as <- <-. destruct (Hkeep eq_refl) as (o & Ho & Hsent). exists o.
       apply Z.eqb_neq in E2. split; [exact Ho|]. split; [exact Hsent|]. split; [auto | contradiction]. }
  apply Z.eqb_eq in E2.
  destruct (code_in resp) as [c|].
  2: { destruct Hp as (e & Hp & Hn). rewrite Hp in H. injection H as <- <-.
       destruct (Hkeep eq_refl) as (o & Ho & Hsent). exists o. split; [exact Ho|]. split; [exact Hsent|].
       split; [contradiction|]. intros _ c Hc. discriminate. }
  destruct (c =? 0) eqn:E0.
  - apply Z.eqb_eq in E0. subst c. change (auth_code 0) with false in *.
    assert (exists r, thru PRequest (Ok (status, resp)) m t = (t1, r) /\
              (forall j, ans (g_sess g) resp = Some j -> r = Ok j)) as (r & Hr & Hj).
    { destruct (ans (g_sess g) resp); [|destruct Hp as (e & Hp & _)]; eexists; (split; [exact Hp|]); intros; congruence. }
    rewrite Hr in H. injection H as <- <-. destruct (Hkeep eq_refl) as (o & Ho & Hsent). exists o.
    split; [exact Ho|]. split; [exact Hsent|]. split; [contradiction|]. intros _ c Hc. injection Hc as <-. split; [auto | congruence].
  - apply Z.eqb_neq in E0. destruct (auth_code c) eqn:Ea.
    + rewrite Hp in H. injection H as <- <-. exists (mkObs ONone shook lv true). split; [split; [exact HL1|]; split; [exact HO1|]; left; reflexivity|].
      split; [reflexivity|]. split; [contradiction|]. intros _ c' Hc. injection Hc as <-. split; [contradiction | reflexivity].
    + destruct Hp as (e & Hp & Hn). rewrite Hp in H. injection H as <- <-.
      destruct (Hkeep eq_refl) as (o & Ho & Hsent). exists o. split; [exact Ho|]. split; [exact Hsent|].
      split; [contradiction|]. intros _ c' Hc. injection Hc as <-. split; [contradiction | congruence].
Qed.

Definition needs_handshake (s : ostate) (now : Z) : bool :=
  match expires s with Some e => e - now <=? 0 | None => true end.

Lemma needs_spec t s now : inv t s ->
  match st t with HANDSHAKE_REQUIRED => true | _ => session_expired t now end = needs_handshake s now.
Proof.
  unfold session_expired, needs_handshake. destruct s as [|g|g tok]; cbn [inv expires].
  - intros [->| ->]; [reflexivity|]. destruct (st t); reflexivity.
  - intros (-> & _ & -> & _). reflexivity.
  - intros (-> & _ & -> & _). reflexivity.
Qed.

Lemma send_mid w m s t t' res :
  keys_usable open_key (w_hs w) -> keys_usable open_key (w_hs2 w) ->
  inv t s -> log t = [] -> asend w m t = (t', res) ->
  exists o, mid w m s t' o.
Proof.
  intros Hu1 Hu2 Hi Hlog H. unfold send in H. cbv zeta in H. rewrite (needs_spec _ _ _ Hi) in H.
  assert (H0 : mid w m s t (obs_start s)).
  { split; [rewrite Hlog; apply law_nil|]. rewrite Hlog. split; [reflexivity | exact Hi]. }
  assert (Tail : forall t1 g shook, mid w m s t1 (mkObs (OShaken g) shook None false) ->
    (shook = true \/ w_now w < g_exp g) ->
    match (match st t1 with
             | ESTABLISHED => (t1, Ok tt)
             | _ => match plogin w t1 with
                    | (t2, Err (KAuth c)) => (set_st HANDSHAKE_REQUIRED t2, Err (KAuth c))
                    | r => r
                    end
             end) with
      | (t2, Err e) => (t2, Err e)
      | (t2, Ok _) => thru PRequest (w_req w) m t2
      end = (t', res) -> exists o, mid w m s t' o).
  { intros t1 g shook Hm Hc Ht.
    assert (Hs : st t1 = LOGIN_REQUIRED) by (destruct Hm as (_ & _ & Hx); apply Hx).
    rewrite Hs in Ht. destruct (match plogin w t1 with
                    | (t2, Err (KAuth c)) => (set_st HANDSHAKE_REQUIRED t2, Err (KAuth c))
                    | r => r
                    end) as [t2 r2] eqn:E.
    pose proof (login_mid w m s t1 g shook t2 r2 Hu2 Hm Hc E) as Hl.
    destruct r2 as [u|e].
    - destruct Hl as (g' & tok & shook' & lv & Hm' & Hc').
      destruct (request_mid _ _ _ _ _ _ _ _ _ _ Hm' Hc' Ht) as (o & Ho & _). eauto.
    - injection Ht as <- <-. exact Hl. }
  destruct (needs_handshake s (w_now w)) eqn:En.
  - destruct (hshake (w_hs w) t) as [t1 r1] eqn:E1.
    destruct (handshake_spec _ _ _ _ E1) as (Hl1 & Hg).
    rewrite Hlog in Hl1. cbn [app] in Hl1.
    assert (HL1 : law w m s (log t1)).
    { rewrite Hl1. apply (law_snoc w m s []); [apply law_nil|]. split; [reflexivity|]. left. repeat split.
      cbn. unfold needs_handshake in En. destruct (expires s); [|exact I]. apply Z.leb_le in En. lia. }
    assert (HO1 : oposts w s (log t1) =
      mkObs (match grants (w_hs w) with Some g => OShaken g | None => ONone end) true None false)
      by (rewrite Hl1; reflexivity).
    destruct (grants (w_hs w)) as [g|].
    + destruct Hg as [-> Hi1]. eapply Tail; [|left; reflexivity | exact H]. split; [exact HL1|]. split; [exact HO1 | exact Hi1].
    + destruct Hg as (e & -> & Hi1). injection H as <- <-. eexists. split; [exact HL1|]. split; [exact HO1 | apply Hi1, Hu1].
  - destruct s as [|g|g tok]; cbn [needs_handshake expires] in En; [discriminate| |]; unfold needs_handshake in En; cbn in En;
      apply Z.leb_gt in En.
    + eapply Tail; [exact H0 | right; lia | exact H].
    + assert (Hs : st t = ESTABLISHED) by apply Hi. rewrite Hs in H.
      destruct (request_mid w m (OLive g tok) t g tok false None t' res H0) as (o & Ho & _); [right; lia | exact H | eauto].
Qed.

(** ** Histories *)
Notation arun := (run enc_block dec_block json_loads open_key login_text).
Notation astep := (step enc_block dec_block json_loads open_key login_text).
Notation kstep := (known_step dec_block json_loads open_key).
Notation known := (known_after dec_block json_loads open_key).

Definition keys_ok (e : event) : Prop :=
  match e with ESend w _ => keys_usable open_key (w_hs w) /\ keys_usable open_key (w_hs2 w) | EReset => True end.

Lemma inv_log t l s : inv t s -> inv (mkAes (st t) (expire_at t) (sess t) (cookie t) (token t) l) s.
Proof. destruct s; intro H; exact H. Qed.

Lemma step_inv t e t' p r s : keys_ok e -> inv t s -> log t = [] -> astep t e = (t', p, r) ->
  inv t' (kstep s (e, p)) /\ log t' = [] /\
  match e with ESend w m => law w m s p | EReset => p = [] end.
Proof.
  destruct e as [w m|]; intros Hk Hi Hl H; cbn [step] in H.
  - destruct (asend w m t) as [t1 res] eqn:E. injection H as <- <- <-.
    destruct Hk as [Hk1 Hk2]. destruct (send_mid _ _ _ _ _ _ Hk1 Hk2 Hi Hl E) as (o & HL & HO & HI).
    cbn [known_step]. rewrite HO. split; [apply inv_log, HI|]. split; [reflexivity | exact HL].
  - injection H as <- <- <-. split; [left; reflexivity|]. split; [exact Hl | reflexivity].
Qed.

Lemma run_inv : forall es t t' outs s, Forall keys_ok es -> inv t s -> log t = [] -> arun t es = (t', outs) ->
  inv t' (fold_left kstep (combine es (map fst outs)) s) /\ log t' = [].
Proof.
  induction es as [|e es IH]; intros t t' outs s Hk Hi Hl H; cbn [run] in H.
  - injection H as <- <-. auto.
  - inversion Hk; subst. destruct (astep t e) as [[t1 p] r] eqn:E. destruct (arun t1 es) as [t2 out] eqn:E2.
    injection H as <- <-. destruct (step_inv _ _ _ _ _ _ H2 Hi Hl E) as (Hi1 & Hl1 & _).
    cbn [map fst combine fold_left]. eapply IH; eauto.
Qed.

Lemma history_lemma es t outs w m t' p r :
  Forall keys_ok es -> keys_ok (ESend w m) ->
  arun init es = (t, outs) -> astep t (ESend w m) = (t', p, r) ->
  law w m (known (combine es (map fst outs))) p.
Proof.
  intros Hk Hk1 Hr Hs. destruct (run_inv es init t outs ONone Hk) as [Hi Hl]; [left; reflexivity | reflexivity | exact Hr |].
  apply (step_inv _ _ _ _ _ _ Hk1 Hi Hl Hs).
Qed.

(** ** Outcomes *)
(** How the reply to a request reads. *)
Notation outc := (reply_outcome dec_block json_loads).

Lemma request_outcome_lemma m t g tok r : inv t (OLive g tok) ->
  exists t', thru PRequest r m t = (t', snd (thru PRequest r m t)) /\
    outc (g_sess g) r (snd (thru PRequest r m t)) /\
    exists payload, log t' = log t ++ [PRequest (Some tok) (g_cookie g) payload].
Proof.
  intros (Hst & Htok & Hexp & Hs & Hck & Hok).
  destruct (passthrough_spec PRequest r m t _ Hs Hok) as (payload & Hd & Hp). cbv zeta in Hp.
  assert (Hu : url_of t = Some tok) by (unfold url_of; now rewrite Hst). rewrite Hu, Hck in Hp.
  destruct (thru PRequest r m t) as [t' res] eqn:E. cbn [snd]. exists t'. split; [reflexivity|].
  unfold reply_outcome.
  destruct r as [[status resp]|e].
  2: { injection Hp as -> ->. split; [reflexivity | exists payload; reflexivity]. }
  destruct (status =? 200); cbn [negb] in Hp |- *.
  2: { injection Hp as -> ->. split; [reflexivity | exists payload; reflexivity]. }
  rewrite code_match. destruct (code_in resp) as [c|].
  2: { destruct Hp as (e & Hp & Hn). injection Hp as -> ->. split; [eauto | exists payload; reflexivity]. }
  destruct (c =? 0).
  - destruct (ans (g_sess g) resp); [|destruct Hp as (e & Hp & Hn)]; injection Hp as -> ->;
      (split; [eauto | exists payload; reflexivity]).
  - destruct (auth_code c); [|destruct Hp as (e & Hp & Hn)]; injection Hp as -> ->;
      (split; [eauto | exists payload; reflexivity]).
Qed.

Lemma live_send_lemma w m t g tok : inv t (OLive g tok) -> log t = [] -> w_now w < g_exp g ->
  exists payload t' res, asend w m t = (t', res) /\ outc (g_sess g) (w_req w) res /\
    log t' = [PRequest (Some tok) (g_cookie g) payload].
Proof.
  intros Hi Hl Hn. unfold send. cbv zeta. rewrite (needs_spec _ _ _ Hi). unfold needs_handshake. cbn [expires].
  assert (E : (g_exp g - w_now w <=? 0) = false) by (apply Z.leb_gt; lia). rewrite E.
  assert (Hs : st t = ESTABLISHED) by apply Hi. rewrite Hs.
  destruct (request_outcome_lemma m t g tok (w_req w) Hi) as (t' & Ht & Ho & payload & Hlog).
  exists payload, t', (snd (thru PRequest (w_req w) m t)). rewrite Hl in Hlog. auto.
Qed.

Lemma shaken_send_lemma w m t g tok : inv t (OShaken g) ->
  verdict_of (g_sess g) (w_login w) = LToken tok ->
  exists p1 p2 t' res,
    match (match st t with
             | ESTABLISHED => (t, Ok tt)
             | _ => match plogin w t with
                    | (t2, Err (KAuth c)) => (set_st HANDSHAKE_REQUIRED t2, Err (KAuth c))
                    | r => r
                    end
             end) with
      | (t2, Err e) => (t2, Err e)
      | (t2, Ok _) => thru PRequest (w_req w) m t2
      end = (t', res) /\ outc (g_sess g) (w_req w) res /\
    log t' = log t ++ [PLogin false None (g_cookie g) p1; PRequest (Some tok) (g_cookie g) p2].
Proof.
  intros Hi Hv. assert (Hs : st t = LOGIN_REQUIRED) by apply Hi. rewrite Hs. unfold perform_login.
  destruct (tlogin false (w_login w) t) as [t1 r1] eqn:E1.
  destruct (try_login_spec _ _ _ _ _ _ Hi E1) as (p1 & Hd & Hlog & Hvv). rewrite Hv in Hvv.
  destruct Hvv as [-> Hi1].
  destruct (request_outcome_lemma m t1 g tok (w_req w) Hi1) as (t' & Ht & Ho & p2 & Hlog2).
  exists p1, p2, t', (snd (thru PRequest (w_req w) m t1)). split; [exact Ht|]. split; [exact Ho|].
  rewrite Hlog2, Hlog, <- app_assoc. reflexivity.
Qed.

Lemma fresh_send_lemma w m t s g tok : inv t s -> log t = [] ->
  match expires s with Some e => e <= w_now w | None => True end ->
  grants (w_hs w) = Some g -> verdict_of (g_sess g) (w_login w) = LToken tok ->
  exists p1 p2 t' res, asend w m t = (t', res) /\ outc (g_sess g) (w_req w) res /\
    log t' = [PHandshake; PLogin false None (g_cookie g) p1; PRequest (Some tok) (g_cookie g) p2].
Proof.
  intros Hi Hl Hn Hg Hv. unfold send. cbv zeta. rewrite (needs_spec _ _ _ Hi).
  assert (E : needs_handshake s (w_now w) = true).
  { unfold needs_handshake. destruct (expires s); [apply Z.leb_le; lia | reflexivity]. }
  rewrite E. destruct (hshake (w_hs w) t) as [t1 r1] eqn:E1.
  destruct (handshake_spec _ _ _ _ E1) as (Hl1 & Hgg). rewrite Hg in Hgg. destruct Hgg as [-> Hi1].
  destruct (shaken_send_lemma w m t1 g tok Hi1 Hv) as (p1 & p2 & t' & res & H & Ho & Hlog).
  exists p1, p2, t', res. split; [exact H|]. split; [exact Ho|]. rewrite Hlog, Hl1, Hl. reflexivity.
Qed.

Lemma resumed_send_lemma w m t g tok : inv t (OShaken g) -> log t = [] ->
  w_now w < g_exp g -> verdict_of (g_sess g) (w_login w) = LToken tok ->
  exists p1 p2 t' res, asend w m t = (t', res) /\ outc (g_sess g) (w_req w) res /\
    log t' = [PLogin false None (g_cookie g) p1; PRequest (Some tok) (g_cookie g) p2].
Proof.
  intros Hi Hl Hn Hv. unfold send. cbv zeta. rewrite (needs_spec _ _ _ Hi). unfold needs_handshake. cbn [expires].
  assert (E : (g_exp g - w_now w <=? 0) = false) by (apply Z.leb_gt; lia). rewrite E.
  destruct (shaken_send_lemma w m t g tok Hi Hv) as (p1 & p2 & t' & res & H & Ho & Hlog).
  exists p1, p2, t', res. split; [exact H|]. split; [exact Ho|]. rewrite Hlog, Hl. reflexivity.
Qed.

(** ** A refused login *)
Lemma refused_login_lemma w m t s g c : inv t s -> log t = [] ->
  match expires s with Some e => e <= w_now w | None => True end ->
  grants (w_hs w) = Some g -> verdict_of (g_sess g) (w_login w) = LAuth c -> c <> Some (-1501) ->
  exists p t', asend w m t = (t', Err (KAuth c)) /\
    log t' = [PHandshake; PLogin false None (g_cookie g) p].
Proof.
  intros Hi Hl Hn Hg Hv Hc. unfold send. cbv zeta. rewrite (needs_spec _ _ _ Hi).
  assert (E : needs_handshake s (w_now w) = true).
  { unfold needs_handshake. destruct (expires s); [apply Z.leb_le; lia | reflexivity]. }
  rewrite E. destruct (hshake (w_hs w) t) as [t1 r1] eqn:E1.
  destruct (handshake_spec _ _ _ _ E1) as (Hl1 & Hgg). rewrite Hg in Hgg. destruct Hgg as [-> Hi1].
  assert (Hs : st t1 = LOGIN_REQUIRED) by apply Hi1. rewrite Hs. unfold perform_login.
  destruct (tlogin false (w_login w) t1) as [t2 r2] eqn:E2.
  destruct (try_login_spec _ _ _ _ _ _ Hi1 E2) as (p1 & Hd & Hlog & Hvv). rewrite Hv in Hvv. subst r2.
  exists p1, (set_st HANDSHAKE_REQUIRED t2). destruct c as [c|].
  - destruct (c =? LOGIN_ERROR) eqn:Ec; [apply Z.eqb_eq in Ec; subst c; now destruct Hc|].
    split; [reflexivity|]. cbn [set_st log]. rewrite Hlog, Hl1, Hl. reflexivity.
  - split; [reflexivity|]. cbn [set_st log]. rewrite Hlog, Hl1, Hl. reflexivity.
Qed.

(** ** Lifting to histories *)
Lemma reach_inv es t outs : Forall keys_ok es -> arun init es = (t, outs) ->
  inv t (known (combine es (map fst outs))) /\ log t = [].
Proof. intros Hk Hr. apply (run_inv es init t outs ONone Hk); [left; reflexivity | reflexivity | exact Hr]. Qed.

Lemma outcome_lemma es t outs w m t' p r :
  Forall keys_ok es -> arun init es = (t, outs) -> astep t (ESend w m) = (t', p, Some r) ->
  let s := known (combine es (map fst outs)) in
  (forall g tok, s = OLive g tok -> w_now w < g_exp g ->
     outc (g_sess g) (w_req w) r /\ exists p2, p = [PRequest (Some tok) (g_cookie g) p2]) /\
  (forall g tok, s = OShaken g -> w_now w < g_exp g -> verdict_of (g_sess g) (w_login w) = LToken tok ->
     outc (g_sess g) (w_req w) r /\
     exists p1 p2, p = [PLogin false None (g_cookie g) p1; PRequest (Some tok) (g_cookie g) p2]) /\
  (match expires s with Some e => e <= w_now w | None => True end ->
     forall g, grants (w_hs w) = Some g ->
     (forall tok, verdict_of (g_sess g) (w_login w) = LToken tok ->
        outc (g_sess g) (w_req w) r /\
        exists p1 p2, p = [PHandshake; PLogin false None (g_cookie g) p1; PRequest (Some tok) (g_cookie g) p2]) /\
     (forall c, verdict_of (g_sess g) (w_login w) = LAuth c -> c <> Some (-1501) ->
        r = Err (KAuth c) /\ exists p1, p = [PHandshake; PLogin false None (g_cookie g) p1])).
Proof.
  intros Hk Hr Hs s. destruct (reach_inv _ _ _ Hk Hr) as [Hi Hl]. fold s in Hi. clearbody s. cbn [step] in Hs.
  split; [|split].
  - intros g tok -> Hn. destruct (live_send_lemma w m t g tok Hi Hl Hn) as (p2 & t2 & res & H & Ho & Hlog).
    rewrite H in Hs. injection Hs as _ <- <-. rewrite Hlog. eauto.
  - intros g tok -> Hn Hv. destruct (resumed_send_lemma w m t g tok Hi Hl Hn Hv) as (p1 & p2 & t2 & res & H & Ho & Hlog).
    rewrite H in Hs. injection Hs as _ <- <-. rewrite Hlog. eauto.
  - intros Hn g Hg. split.
    + intros tok Hv. destruct (fresh_send_lemma w m t s g tok Hi Hl Hn Hg Hv) as (p1 & p2 & t2 & res & H & Ho & Hlog).
      rewrite H in Hs. injection Hs as _ <- <-. rewrite Hlog. eauto.
    + intros c Hv Hc. destruct (refused_login_lemma w m t s g c Hi Hl Hn Hg Hv Hc) as (p1 & t2 & H & Hlog).
      rewrite H in Hs. injection Hs as _ <- <-. rewrite Hlog. eauto.
Qed.
End Aes.

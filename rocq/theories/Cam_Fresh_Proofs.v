(** Proofs about the camera transport: outcomes, and reset against a fresh transport. *)
From Verif Require Import Base Base_Lemmas Py Codes_Model Crypto_Model Crypto_Proofs Cam_Model Cam_Spec Cam_Proofs.
From Verif Require Klap_Model Aes_Model Aes_Spec Aes_Proofs.
Open Scope string_scope.
Open Scope list_scope.
Open Scope Z_scope.

Section Cam.
Variables enc_block dec_block : bytes -> bytes -> bytes.
Variable json_loads : bytes -> option json.
Variables md5_hex sha256_hex : bytes -> string.
Variable sha256 : bytes -> bytes.
Variable str_int : Z -> string.
Variable str_json : json -> string.
Variable wrap : bytes -> bytes.
Variable cfg : config.

Notation crun := (run enc_block dec_block json_loads md5_hex sha256_hex sha256 str_int str_json wrap cfg).
Notation cstep := (step enc_block dec_block json_loads md5_hex sha256_hex sha256 str_int str_json wrap cfg).
Notation csend := (send enc_block dec_block json_loads md5_hex sha256_hex sha256 str_int str_json wrap cfg).
Notation ssend := (send_secure enc_block dec_block json_loads sha256_hex str_int wrap).
Notation fin1 := (finish1 md5_hex sha256_hex cfg).
Notation tdef := (try_default md5_hex sha256_hex str_json cfg).
Notation hs1 := (handshake1 md5_hex sha256_hex str_json cfg).
Notation hs2 := (handshake2 sha256_hex sha256 str_json).
Notation hsh := (handshake md5_hex sha256_hex sha256 str_json cfg).
Notation llogin := (less_secure_login md5_hex str_json).
Notation known_ := (known_after md5_hex sha256_hex sha256 str_json cfg).

(** ** Two transports that cannot be told apart *)
Definition R (a b : cam) : Prop :=
  st a = st b /\ secure a = secure b /\ user a = user b /\ log a = log b /\
  (secure a = false -> url a = url b) /\
  (st a = ESTABLISHED -> secure a = true ->
     url a = url b /\ seq a = seq b /\ sess a = sess b /\ pwdh a = pwdh b /\ nonce a = nonce b).

Definition respects {A} (m : M cam A) : Prop :=
  forall a b, R a b -> R (fst (m a)) (fst (m b)) /\ snd (m a) = snd (m b).

Lemma r_ret {A} (x : A) : respects (mret x). Proof. intros a b H. auto. Qed.
Lemma r_lift {A} (x : res A) : respects (mlift x). Proof. intros a b H. auto. Qed.
Lemma r_fail {A} e : respects (@mfail cam A e). Proof. intros a b H. auto. Qed.
Lemma r_bind {A B} (m : M cam A) (f : A -> M cam B) : respects m -> (forall x, respects (f x)) -> respects (mbind m f).
Proof.
  intros Hm Hf a b H. unfold mbind. specialize (Hm a b H). destruct (m a) as [a' ra], (m b) as [b' rb]. cbn [fst snd] in Hm.
  destruct Hm as [Hr <-]. destruct ra as [x|e]; [apply Hf, Hr | auto].
Qed.
(** The second part runs with a condition established by the first. *)
Lemma r_bind_when {A B} (C : A -> cam -> Prop) (m : M cam A) (f : A -> M cam B) : respects m ->
  (forall t x, snd (m t) = Ok x -> C x (fst (m t))) ->
  (forall x a b, C x a -> C x b -> R a b -> R (fst (f x a)) (fst (f x b)) /\ snd (f x a) = snd (f x b)) -> respects (mbind m f).
Proof.
  intros Hm HC Hf a b H. unfold mbind. specialize (Hm a b H). pose proof (HC a) as Ca. pose proof (HC b) as Cb.
  destruct (m a) as [a' ra], (m b) as [b' rb]. cbn [fst snd] in *.
  destruct Hm as [Hr <-]. destruct ra as [x|e]; [apply Hf; auto | auto].
Qed.
(** An action that looks at the user name only. *)
Lemma r_user {A} (m : option string -> M cam A) : (forall u, respects (m u)) -> respects (fun t => m (user t) t).
Proof. intros Hm a b H. assert (user a = user b) by apply H. rewrite H0. apply Hm, H. Qed.

Lemma r_post p r : respects (post_200 p r).
Proof.
  intros a b (H1 & H2 & H3 & H4 & H5 & H6). unfold post_200. cbn [fst snd]. split; [|reflexivity].
  repeat split; cbn [add_log st secure user log url seq sess pwdh nonce]; auto; [now rewrite H4 | | | | |]; now apply H6.
Qed.

Lemma r_handle j : respects (handle_code j).
Proof.
  intros a b H. unfold handle_code. destruct (response_error j) as [c|]; [|auto].
  destruct (c =? 0); [auto|]. destruct (zmem c smart_retryable_errors); [auto|].
  destruct (zmem c smart_authentication_errors); [|auto]. cbn [fst snd]. split; [|reflexivity].
  destruct H as (H1 & H2 & H3 & H4 & H5 & H6). repeat split; auto; discriminate.
Qed.

Lemma pwd_user t t' : user t = user t' -> pwd_to_hash cfg t = pwd_to_hash cfg t'.
Proof. intro H. unfold pwd_to_hash. now rewrite H. Qed.

Lemma r_finish1 resp code n : respects (fin1 resp code n).
Proof.
  intros a b H. rewrite !finish1_state. split; [exact H|]. assert (Hu : user a = user b) by apply H.
  unfold finish1. rewrite Hu. destruct (match user b with Some u => String.eqb u "" | None => true end); [reflexivity|].
  rewrite (pwd_user a b Hu). destruct resp; [destruct code|]; reflexivity.
Qed.

Lemma r_login d u p r : respects (llogin d u p r).
Proof.
  intros a b H. destruct (llogin d u p r a) as [a' ra] eqn:Ea. destruct (llogin d u p r b) as [b' rb] eqn:Eb.
  pose proof (less_login_spec md5_hex str_json _ _ _ _ _ _ _ Ea) as Ha.
  pose proof (less_login_spec md5_hex str_json _ _ _ _ _ _ _ Eb) as Hb. cbv zeta in Ha, Hb. cbn [fst snd].
  destruct H as (H1 & H2 & H3 & H4 & H5 & H6).
  destruct (plain_grant str_json r) as [tok|].
  - destruct Ha as [-> ->], Hb as [-> ->]. split; [|reflexivity].
    repeat split; cbn [st secure user log url seq sess pwdh nonce add_log]; auto; try discriminate. now rewrite H4.
  - destruct Ha as [-> _], Hb as [-> _]. split.
    + repeat split; cbn [add_log st secure user log url seq sess pwdh nonce]; auto; [now rewrite H4 | | | | |]; now apply H6.
    + unfold less_secure_login, mbind in Ea, Eb. rewrite post_200_spec in Ea, Eb.
      destruct (match r with Err e => Err e | Ok (status, j) => if status =? 200 then Ok j else Err KKasa end) as [j|e]; [|congruence].
      unfold mlift in Ea, Eb. destruct (jget "error_code" j) as [c|]; [|congruence].
      destruct (eq_zero c); [|unfold mret in *; congruence].
      destruct (jget_dict "result" j) as [res|]; [|congruence]. destruct (jget "stok" res) as [stok|]; [|congruence].
      destruct (truthy stok); unfold mret in *; congruence.
Qed.
Lemma login_insecure d u p r t x : snd (llogin d u p r t) = Ok x -> x = true -> secure (fst (llogin d u p r t)) = false.
Proof.
  destruct (llogin d u p r t) as [t' out] eqn:E. pose proof (less_login_spec md5_hex str_json _ _ _ _ _ _ _ E) as H. cbv zeta in H.
  cbn [fst snd]. intros -> ->. destruct (plain_grant str_json r); destruct H as [H1 H2]; [now rewrite H2 | now destruct H2].
Qed.

Lemma r_established u a b : secure a = false -> secure b = false -> R a b ->
  R (set_st ESTABLISHED (match u with Some u => set_user u a | None => a end))
    (set_st ESTABLISHED (match u with Some u => set_user u b | None => b end)).
Proof.
  intros Ha Hb (H1 & H2 & H3 & H4 & H5 & H6). destruct u; repeat split; cbn [set_st set_user st secure user log url seq sess pwdh nonce] in *; auto; congruence.
Qed.

Lemma r_default w resp code : respects (tdef w resp code).
Proof.
  unfold try_default. apply r_bind; [apply r_post|]. intro j. apply r_bind; [apply r_lift|]. intro c.
  apply r_bind; [destruct (c =? INVALID_NONCE); [apply r_lift | apply r_ret]|]. intros [].
  - intros a b (H1 & H2 & H3 & H4 & H5 & H6). apply r_finish1.
    repeat split; cbn [set_user st secure user log url seq sess pwdh nonce]; auto; now apply H6.
  - apply r_bind; [apply r_lift|]. intro less.
    apply (r_bind_when (fun x t => x = true -> secure t = false)).
    + destruct less; [|apply r_ret]. intros a b H. rewrite (pwd_user a b); [apply r_login, H | apply H].
    + intros t x. destruct less; [|intros H ->; discriminate H]. apply login_insecure.
    + intros [] a b Ca Cb H; [|apply r_finish1, H]. cbn [fst snd]. split; [|reflexivity].
      apply (r_established (Some default_user)); auto.
Qed.

Lemma r_handshake1 w : respects (hs1 w).
Proof.
  unfold handshake1. apply (r_user (fun u t => match u with Some u => _ | None => _ end)). intros [u|]; [|apply r_default].
  destruct (String.eqb u ""); [apply r_default|].
  apply r_bind; [apply r_post|]. intro j. destruct (truthy j); [|apply r_default].
  apply r_bind; [apply r_lift|]. intro less.
  apply (r_bind_when (fun x t => x = true -> secure t = false)).
  - destruct less; [|apply r_ret]. apply r_bind; [apply r_lift|]. intro inner.
    destruct (match inner with Some c => c =? BAD_USERNAME | None => false end); [apply r_ret|].
    intros a b H. rewrite (pwd_user a b); [apply r_login, H | apply H].
  - intros t x. destruct less; [|intros H ->; discriminate H]. unfold mbind, mlift. destruct (inner_error j) as [inner|]; [|discriminate].
    destruct (match inner with Some c => c =? BAD_USERNAME | None => false end); [intros H ->; discriminate H|]. apply login_insecure.
  - intros [] a b Ca Cb H.
    + split; [|reflexivity]. apply (r_established None); auto.
    + revert a b H Ca Cb. assert (G : respects (do! code <- mlift (response_error j) ;;
             do! again <- (if negb (code =? INVALID_NONCE) then mret true
                           else do! h <- mlift (has_nonce j) ;; mret (negb h)) ;;
             if again then tdef w (Some j) (Some code)
             else fin1 (Some j) (Some code) (w_n1 w))).
      { apply r_bind; [apply r_lift|]. intro c. apply r_bind.
        - destruct (negb (c =? INVALID_NONCE)); [apply r_ret|]. apply r_bind; [apply r_lift|]. intro h. apply r_ret.
        - intros []; [apply r_default | apply r_finish1]. }
      intros a b H _ _. apply G, H.
Qed.

Lemma r_handshake2 w n server ph : respects (hs2 w n server ph).
Proof.
  intros a b H. unfold handshake2. assert (E : user a = user b) by apply H. rewrite <- E. clear E. generalize (user a). intro u. revert a b H.
  match goal with |- forall a b, R a b -> R (fst (?m a)) _ /\ _ => change (respects m) end.
  apply r_bind; [apply r_post|]. intro j.
  apply r_bind; [apply r_lift|]. intro c. destruct (c =? INVALID_NONCE); [apply r_fail|].
  apply r_bind; [apply r_handle|]. intros _. apply r_bind; [apply r_lift|]. intros [| |z| | | |]; try apply r_fail.
  apply r_bind.
  - intros a b (H1 & H2 & H3 & H4 & H5 & H6). cbn [fst snd]. split; [|reflexivity].
    repeat split; cbn [st secure user log url seq sess pwdh nonce]; auto; now apply H6.
  - intros _. apply r_bind; [apply r_lift|]. intro stok.
    intros a b (H1 & H2 & H3 & H4 & H5 & H6). cbn [fst snd]. split; [|reflexivity].
    repeat split; cbn [st secure user log url seq sess pwdh nonce]; auto.
Qed.

Lemma r_handshake w : respects (hsh w).
Proof.
  unfold handshake. apply r_bind; [apply r_handshake1|]. intros [[[n s] p]|]; [apply r_handshake2 | apply r_ret].
Qed.

Lemma handle_same j a b : R a b -> st a = ESTABLISHED -> secure a = true -> R (fst (handle_code j a)) (fst (handle_code j b)) /\ snd (handle_code j a) = snd (handle_code j b).
Proof. intros. now apply r_handle. Qed.

(** After a successful handshake, or on an established transport, the state is one
    in which a request can be sent. *)
Lemma r_send_secure w m a b : R a b -> st a = ESTABLISHED -> secure a = true ->
  R (fst (ssend w m a)) (fst (ssend w m b)) /\ snd (ssend w m a) = snd (ssend w m b).
Proof.
  intros H Hst Hse. pose proof H as (H1 & H2 & H3 & H4 & H5 & H6). destruct (H6 Hst Hse) as (E1 & E2 & E3 & E4 & E5).
  unfold send_secure. cbv zeta. rewrite <- H1, <- E1, <- E2, <- E3, <- E4, <- E5, <- H2, <- H3, <- H4, Hst.
  destruct (sess a) as [s|]; [|auto]. destruct (Aes_Model.aes_encrypt enc_block s m) as [payload|]; [|auto].
  destruct (nonce a) as [n|]; [|auto]. destruct (pwdh a) as [p|]; [|auto]. destruct (seq a) as [q|]; [|auto].
  destruct (w_req w) as [[status j]|e]; [|cbn [fst snd]; repeat split].
  destruct (status =? 500); [cbn [fst snd]; repeat split|]. destruct (negb (status =? 200)); [cbn [fst snd]; repeat split|].
  apply r_bind; [apply r_handle | intros _; apply r_lift | repeat split].
Qed.
Lemma r_send_open w m a b : R a b -> secure a = false ->
  R (fst (send_open w m a)) (fst (send_open w m b)) /\ snd (send_open w m a) = snd (send_open w m b).
Proof.
  intros H Hse. pose proof H as (H1 & H2 & H3 & H4 & H5 & H6). unfold send_open. rewrite (H5 Hse).
  apply r_bind; [apply r_post | | exact H]. intro j. apply r_bind; [apply r_handle | intros _; apply r_ret].
Qed.

(** A handshake that succeeds establishes the session. *)
Lemma handshake_established w t : st t = HANDSHAKE_REQUIRED -> snd (hsh w t) = Ok tt -> st (fst (hsh w t)) = ESTABLISHED.
Proof.
  intros Hst H. unfold handshake, mbind in *. destruct (hs1 w t) as [t1 [r|e]] eqn:E1; [|discriminate].
  destruct r as [[[n s] p]|].
  - destruct (hs2 w n s p t1) as [t2 o2] eqn:E2. cbn [fst snd] in *. subst o2.
    unfold handshake2, mbind in E2. destruct (post_200 _ (w_proof w) t1) as [t3 [j|]]; [|congruence]. unfold mlift, mfail in E2.
    destruct (response_error j); [|congruence]. destruct (a =? INVALID_NONCE); [congruence|].
    destruct (handle_code j t3) as [t4 [u|]]; [|congruence].
    destruct (let! r := jitem "result" j in jitem "start_seq" r) as [[| |z| | | |]|]; try congruence.
    destruct (let! r := jitem "result" j in jitem "stok" r); [|congruence]. injection E2 as <-. reflexivity.
  - cbn [mret fst snd] in *. clear H. revert E1. unfold handshake1, mbind, mlift, mret.
    assert (F : forall resp code n t t', fin1 resp code n t = (t', Ok None) -> False).
    { intros resp code n t0 t'. unfold finish1. destruct (match user t0 with Some u => String.eqb u "" | None => true end); [discriminate|].
      destruct resp as [resp|]; [destruct code as [code|]|]; try discriminate. cbv zeta. intro G. injection G as _ G. revert G.
      destruct (if negb (code =? INVALID_NONCE) then Ok true
                      else if truthy resp then let! h := has_nonce_get resp in Ok (negb h) else Ok false) as [[]|]; cbn [bind]; try discriminate.
      - destruct (truthy resp); [|discriminate]. destruct (inner_error resp) as [[c|]|]; cbn [bind]; try discriminate.
        destruct (c =? DEVICE_BLOCKED); [|discriminate]. destruct (jget_dict "data" resp) as [d|]; cbn [bind]; [|discriminate].
        destruct (jget "sec_left" d); discriminate.
      - destruct (jitem "result" resp) as [r|]; cbn [bind]; [|discriminate]. destruct (jitem "data" r) as [d|]; cbn [bind]; [|discriminate].
        destruct (jitem "nonce" d) as [sn|]; cbn [bind]; [|discriminate]. destruct (jitem "device_confirm" d) as [dc|]; cbn [bind]; [|discriminate].
        destruct sn; try discriminate. repeat match goal with |- (if ?b then _ else _) = _ -> _ => destruct b; [discriminate|] end; discriminate. }
    assert (D : forall resp code t t', tdef w resp code t = (t', Ok None) -> st t' = ESTABLISHED).
    { intros resp code t0 t'. unfold try_default, mbind, mlift, mret.
      destruct (post_200 _ (w_hello2 w) t0) as [t2 [j|]]; [|discriminate]. destruct (response_error j) as [c|]; [|discriminate].
      match goal with |- match ?x with _ => _ end = _ -> _ => destruct x as [t3 [[]|]] end; [|  |discriminate].
      - intro G. now apply F in G.
      - destruct (is_less_secure j) as [less|]; [|discriminate].
        match goal with |- match ?x with _ => _ end = _ -> _ => destruct x as [t4 [[]|]] end; [| |discriminate].
        + intro G. injection G as <-. reflexivity.
        + intro G. now apply F in G. }
    destruct (user t) as [u|]; [destruct (String.eqb u "")|]; try apply D.
    destruct (post_200 _ (w_hello w) t) as [t2 [j|]]; [|discriminate]. destruct (truthy j); [|apply D].
    destruct (is_less_secure j) as [less|]; [|discriminate].
    match goal with |- match ?x with _ => _ end = _ -> _ => destruct x as [t3 [[]|]] end; [| |discriminate].
    + intro G. injection G as <-. reflexivity.
    + destruct (response_error j) as [c|]; [|discriminate].
      match goal with |- match ?x with _ => _ end = _ -> _ => destruct x as [t4 [[]|]] end; [apply D | intro G; now apply F in G | discriminate].
Qed.

Lemma r_send w m : respects (csend w m).
Proof.
  intros a b H. unfold send, mbind.
  assert (E : st a = st b) by apply H.
  assert (Htail : forall a b, R a b -> st a = ESTABLISHED ->
     R (fst (if secure a then ssend w m a else send_open w m a)) (fst (if secure b then ssend w m b else send_open w m b)) /\
     snd (if secure a then ssend w m a else send_open w m a) = snd (if secure b then ssend w m b else send_open w m b)).
  { intros x y Hr Hs. assert (Hse : secure x = secure y) by apply Hr. rewrite <- Hse. destruct (secure x) eqn:Ex.
    - apply r_send_secure; assumption.
    - apply r_send_open; assumption. }
  rewrite <- E. destruct (st a) eqn:Es.
  - pose proof (r_handshake w a b H) as Hh. pose proof (handshake_established w a Es) as He.
    destruct (hsh w a) as [a' ra], (hsh w b) as [b' rb]. cbn [fst snd] in *. destruct Hh as [Hr <-].
    destruct ra as [[]|]; [|auto]. apply Htail; auto.
  - apply Htail; assumption.
Qed.

Lemma r_step a b e : R a b ->
  R (fst (fst (cstep a e))) (fst (fst (cstep b e))) /\ snd (fst (cstep a e)) = snd (fst (cstep b e)) /\ snd (cstep a e) = snd (cstep b e).
Proof.
  intro H. destruct e as [w m|]; cbn [step].
  - pose proof (r_send w m a b H) as Hs. destruct (csend w m a) as [a' ra], (csend w m b) as [b' rb]. cbn [fst snd] in *.
    destruct Hs as [(H1 & H2 & H3 & H4 & H5 & H6) <-]. repeat split; cbn [st secure user log url seq sess pwdh nonce]; auto; now apply H6.
  - destruct H as (H1 & H2 & H3 & H4 & H5 & H6). repeat split; cbn [fst snd reset st secure user log url seq sess pwdh nonce]; auto; discriminate.
Qed.

Lemma r_run : forall es a b, R a b -> snd (crun a es) = snd (crun b es).
Proof.
  induction es as [|e es IH]; intros a b H; [reflexivity|]. cbn [run].
  pose proof (r_step a b e H) as Hs. destruct (cstep a e) as [[a' pa] ra], (cstep b e) as [[b' pb] rb]. cbn [fst snd] in Hs.
  destruct Hs as (Hr & <- & <-). specialize (IH _ _ Hr). destruct (crun a' es), (crun b' es). cbn [snd] in *. congruence.
Qed.

(** ** The user name *)
Definition default_refused (w : world) : Prop :=
  plain_grant str_json (w_plain2 w) = None /\
  forall j, body (w_hello2 w) = Some j -> code_in j <> Some (-40413).

Definition keeps {A} (m : M cam A) : Prop := forall t, user (fst (m t)) = user t.
Lemma k_bind {A B} (m : M cam A) (f : A -> M cam B) : keeps m -> (forall x, keeps (f x)) -> keeps (mbind m f).
Proof.
  intros Hm Hf t. unfold mbind. specialize (Hm t). destruct (m t) as [t' [x|e]]; cbn [fst] in *; [rewrite Hf|]; exact Hm.
Qed.
Lemma k_ret {A} (x : A) : keeps (mret x). Proof. intro t. reflexivity. Qed.
Lemma k_lift {A} (x : res A) : keeps (mlift x). Proof. intro t. reflexivity. Qed.
Lemma k_fail {A} e : keeps (@mfail cam A e). Proof. intro t. reflexivity. Qed.
Lemma k_post p r : keeps (post_200 p r). Proof. intro t. reflexivity. Qed.
Lemma k_finish resp code n : keeps (fin1 resp code n). Proof. intro t. now rewrite finish1_state. Qed.
Lemma k_handle j : keeps (handle_code j).
Proof.
  intro t. unfold handle_code. destruct (response_error j) as [c|]; [|reflexivity]. destruct (c =? 0); [reflexivity|].
  destruct (zmem c smart_retryable_errors); [reflexivity|]. destruct (zmem c smart_authentication_errors); reflexivity.
Qed.
Lemma k_login d u p r : keeps (llogin d u p r).
Proof.
  intro t. destruct (llogin d u p r t) as [t' out] eqn:E. pose proof (less_login_spec md5_hex str_json _ _ _ _ _ _ _ E) as H. cbv zeta in H.
  cbn [fst]. destruct (plain_grant str_json r); destruct H; subst; reflexivity.
Qed.
Lemma k_default w resp code : default_refused w -> keeps (tdef w resp code).
Proof.
  intros [H1 H2] t. unfold try_default, mbind. destruct (post_200 _ (w_hello2 w) t) as [t1 [j|]] eqn:E.
  2: { apply post_200_err in E. destruct E as [-> _]. reflexivity. }
  apply post_200_ok in E. destruct E as [-> Hb]. unfold mlift, mret. set (t1 := add_log _ t).
  destruct (response_error j) as [c|] eqn:Ec; [|reflexivity].
  destruct (c =? INVALID_NONCE) eqn:Ei.
  { apply Z.eqb_eq in Ei. subst c. exfalso. apply (H2 j Hb). apply response_error_code, Ec. }
  destruct (is_less_secure j) as [less|]; [|reflexivity].
  match goal with |- user (fst (match ?x with _ => _ end)) = _ => destruct x as [t2 o] eqn:E2 end.
  assert (Ht2 : user t2 = user t /\ o <> Ok true).
  { destruct less; [|injection E2 as <- <-; split; [reflexivity | discriminate]].
    pose proof (less_login_spec md5_hex str_json _ _ _ _ _ _ _ E2) as G. cbv zeta in G. rewrite H1 in G. destruct G as [-> G].
    split; [reflexivity | exact G]. }
  destruct Ht2 as [Hu Ho]. destruct o as [[]|]; [now destruct Ho| |exact Hu]. rewrite k_finish. exact Hu.
Qed.
Lemma k_handshake1 w : default_refused w -> keeps (hs1 w).
Proof.
  intros Hd t. unfold handshake1. destruct (user t) as [u|] eqn:Eu; [|rewrite <- Eu; now apply k_default].
  rewrite <- Eu. destruct (String.eqb u ""); [now apply k_default|]. revert t Eu.
  assert (G : keeps (do! resp <- post_200 (PHello false u (w_n1 w)) (w_hello w) ;;
         if truthy resp then
           do! less <- mlift (is_less_secure resp) ;;
           do! logged <-
             (if less then
                do! inner <- mlift (inner_error resp) ;;
                if match inner with Some c => c =? BAD_USERNAME | None => false end then mret false
                else fun t => llogin false u (pwd_to_hash cfg t) (w_plain w) t
              else mret false) ;;
           if logged then fun t => (set_st ESTABLISHED t, Ok None)
           else
             do! code <- mlift (response_error resp) ;;
             do! again <- (if negb (code =? INVALID_NONCE) then mret true
                           else do! h <- mlift (has_nonce resp) ;; mret (negb h)) ;;
             if again then tdef w (Some resp) (Some code)
             else fin1 (Some resp) (Some code) (w_n1 w)
         else tdef w (Some resp) None)).
  { apply k_bind; [apply k_post|]. intro j. destruct (truthy j); [|now apply k_default].
    apply k_bind; [apply k_lift|]. intro less. apply k_bind.
    - destruct less; [|apply k_ret]. apply k_bind; [apply k_lift|]. intro inner.
      destruct (match inner with Some c => c =? BAD_USERNAME | None => false end); [apply k_ret|]. intro t. apply k_login.
    - intros []; [intro t; reflexivity|]. apply k_bind; [apply k_lift|]. intro c. apply k_bind.
      + destruct (negb (c =? INVALID_NONCE)); [apply k_ret|]. apply k_bind; [apply k_lift|]. intro h. apply k_ret.
      + intros []; [now apply k_default | apply k_finish]. }
  intros t _. apply G.
Qed.
Lemma k_handshake2 w n s p : keeps (hs2 w n s p).
Proof.
  intro t. unfold handshake2. revert t. intro t. generalize (user t) at 1. intro u. revert t.
  match goal with |- forall t, user (fst (?m t)) = _ => change (keeps m) end.
  apply k_bind; [apply k_post|]. intro j. apply k_bind; [apply k_lift|]. intro c.
  destruct (c =? INVALID_NONCE); [apply k_fail|]. apply k_bind; [apply k_handle|]. intros _.
  apply k_bind; [apply k_lift|]. intros [| |z| | | |]; try apply k_fail. apply k_bind; [intro t; reflexivity|]. intros _.
  apply k_bind; [apply k_lift|]. intros stok t. reflexivity.
Qed.
Lemma k_handshake w : default_refused w -> keeps (hsh w).
Proof.
  intro H. apply k_bind; [now apply k_handshake1|]. intros [[[n s] p]|]; [apply k_handshake2 | apply k_ret].
Qed.
Lemma k_send w m : default_refused w -> keeps (csend w m).
Proof.
  intro H. apply k_bind.
  - intro t. destruct (st t); [now apply k_handshake | reflexivity].
  - intros _ t. destruct (secure t).
    + unfold send_secure. cbv zeta. destruct (sess t) as [s|]; [|reflexivity].
      destruct (Aes_Model.aes_encrypt enc_block s m); [|reflexivity]. destruct (nonce t); [|reflexivity].
      destruct (pwdh t); [|reflexivity]. destruct (seq t); [|reflexivity]. destruct (w_req w) as [[status j]|]; [|reflexivity].
      destruct (status =? 500); [reflexivity|]. destruct (negb (status =? 200)); [reflexivity|].
      rewrite (k_bind _ _ (k_handle j) (fun _ => k_lift _)). reflexivity.
    + unfold send_open. rewrite (k_bind _ _ (k_post _ _) (fun j => k_bind _ _ (k_handle j) (fun _ => k_ret _))). reflexivity.
Qed.
Lemma run_user : forall es t, (forall w m, In (ESend w m) es -> default_refused w) -> user (fst (crun t es)) = user t.
Proof.
  induction es as [|e es IH]; intros t H; [reflexivity|]. cbn [run].
  destruct (cstep t e) as [[t1 p] r] eqn:E. assert (Hu : user t1 = user t).
  { destruct e as [w m|]; cbn [step] in E.
    - pose proof (k_send w m (H w m (or_introl eq_refl)) t) as G. destruct (csend w m t) as [t2 o]. injection E as <- <- <-. exact G.
    - injection E as <- <- <-. reflexivity. }
  specialize (IH t1 (fun w m Hin => H w m (or_intror Hin))). destruct (crun t1 es). cbn [fst] in *. congruence.
Qed.

(** ** An honest device *)
Lemma field_jitem k j v : field k j = Some v -> jitem k j = Ok v.
Proof. apply jitem_field. Qed.
Lemma code_response j c : code_in j = Some c -> response_error j = Ok c.
Proof.
  unfold Aes_Spec.code_in, response_error. destruct j; try discriminate. cbn [jget bind].
  destruct (error_code_of _); congruence.
Qed.

Lemma hello_complete w t u server ph : user t = Some u -> u <> "" ->
  proves md5_hex sha256_hex cfg w false (w_n1 w) server ph ->
  exists ph', hs1 w t = (add_log (PHello false u (w_n1 w)) t, Ok (Some (w_n1 w, server, ph'))).
Proof.
  intros Hu Hn (j & Hb & Hc & Hs & Hd & Hp). cbn [hello_reply] in Hb. unfold handshake1. rewrite Hu.
  assert (En : String.eqb u "" = false) by now apply String.eqb_neq. rewrite En. unfold mbind. rewrite post_200_spec.
  assert (Hr : w_hello w = Ok (200, j)).
  { unfold body in Hb. destruct (w_hello w) as [[st0 j0]|]; [|discriminate]. destruct (st0 =? 200) eqn:E; [|discriminate].
    apply Z.eqb_eq in E. congruence. }
  rewrite Hr. cbn [Z.eqb Pos.eqb negb].
  assert (He : response_error j = Ok (-40413)) by now apply code_response.
  pose proof Hs as Hs0. pose proof Hd as Hd0.
  unfold data_field in Hs, Hd. destruct (field "result" j) as [r|] eqn:Er; [|discriminate]. cbn [obind] in Hs, Hd.
  destruct (field "data" r) as [d|] eqn:Edd; [|discriminate]. cbn [obind] in Hs, Hd.
  assert (Ht : truthy j = true).
  { unfold Aes_Spec.field in Er. destruct j as [| | | | | |[|kv l]]; try discriminate. reflexivity. }
  assert (Hh : has_nonce j = Ok true /\ has_nonce_get j = Ok true).
  { unfold has_nonce, has_nonce_get. rewrite (field_jitem _ _ _ Er). unfold Aes_Spec.field in Er, Edd, Hs.
    destruct j as [| | | | | |l]; try discriminate. cbn [jget_dict]. rewrite Er. cbn [bind].
    destruct r as [| | | | | |l']; try discriminate. cbn [jget_dict]. rewrite Edd. cbn [bind].
    destruct d as [| | | | | |l'']; try discriminate. cbn [jcontains]. unfold dmem. rewrite Hs. split; reflexivity. }
  rewrite Ht. unfold is_less_secure, mlift, mret. rewrite He. cbn [bind]. change (-40413 =? SESSION_EXPIRED) with false. cbv iota.
  change (-40413 =? INVALID_NONCE) with true. cbn [negb]. destruct Hh as [Hh1 Hh2]. rewrite Hh1. cbn [negb].
  unfold finish1. cbn [add_log user]. rewrite Hu, En. change (-40413 =? INVALID_NONCE) with true. cbn [negb]. rewrite Ht, Hh2. cbn [bind negb].
  rewrite (field_jitem _ _ _ Er). cbn [bind]. rewrite (field_jitem _ _ _ Edd). cbn [bind].
  rewrite (field_jitem _ _ _ Hs), (field_jitem _ _ _ Hd). cbn [bind].
  rewrite (secret_pwd cfg (add_log (PHello false u (w_n1 w)) t) u Hu Hn).
  change (confirm_hash sha256_hex) with (expected_confirm sha256_hex). cbv zeta.
  destruct (String.eqb (expected_confirm sha256_hex (w_n1 w) server ph) (expected_confirm sha256_hex (w_n1 w) server (sha256_hex (lit (secret cfg))))) eqn:E1.
  { eexists. reflexivity. }
  destruct Hp as [->| ->]; [rewrite String.eqb_refl in E1; discriminate|]. rewrite String.eqb_refl. eexists. reflexivity.
Qed.

Lemma proof_complete w t n server ph z tok : proof_grant str_json (w_proof w) = Some (z, tok) ->
  exists t' dg, hs2 w n server ph t = (t', Ok tt) /\ log t' = log t ++ [PProof (user t) n dg] /\ st t' = ESTABLISHED /\ secure t' = secure t.
Proof.
  intro H. unfold proof_grant in H. destruct (body (w_proof w)) as [j|] eqn:Hb; [|discriminate]. cbn [obind] in H.
  rewrite code_match in H. destruct (code_in j) as [c|] eqn:Hc; [|discriminate]. destruct (c =? 0) eqn:E0; [|discriminate].
  apply Z.eqb_eq in E0. subst c.
  assert (Hr : w_proof w = Ok (200, j)).
  { unfold body in Hb. destruct (w_proof w) as [[st0 j0]|]; [|discriminate]. destruct (st0 =? 200) eqn:E; [|discriminate].
    apply Z.eqb_eq in E. congruence. }
  assert (He : response_error j = Ok 0) by now apply code_response.
  destruct (field "result" j) as [r|] eqn:Er; [|discriminate]. cbn [obind] in H.
  destruct (field "start_seq" r) as [[| |z0| | | |]|] eqn:E1; try discriminate. destruct (field "stok" r) as [stok|] eqn:E2; [|discriminate].
  unfold handshake2, mbind. rewrite post_200_spec, Hr. cbn [Z.eqb Pos.eqb negb]. unfold mlift. rewrite He.
  change (0 =? INVALID_NONCE) with false. cbv iota. unfold handle_code. rewrite He. cbn [Z.eqb].
  rewrite (field_jitem _ _ _ Er). cbn [bind]. rewrite (field_jitem _ _ _ E1), (field_jitem _ _ _ E2).
  eexists. eexists. split; [reflexivity|]. repeat split.
Qed.
End Cam.

(** Proofs for C167. *)
From Verif Require Import Base Base_Lemmas Py Codes_Model Crypto_Model Crypto_Proofs Cam_Model Cam_Spec Cam_Proofs Cam_Fresh_Proofs CamWhy_Spec.
From Verif Require Klap_Model Aes_Model Aes_Spec.
Open Scope string_scope.
Open Scope list_scope.
Open Scope Z_scope.

Lemma part_jget k j p : part k j = Some p -> forall d, j = JObj d -> jget_dict k j = Ok p.
Proof.
  unfold part, jget_dict, Aes_Spec.field. intros H d ->. destruct (dget k d) as [[]|]; congruence.
Qed.
Lemma part_obj k j p : part k j = Some p -> exists d, p = JObj d.
Proof. unfold part. destruct (field k j) as [[]|]; intros [= <-]; eexists; reflexivity. Qed.
Lemma number_jget j d a : j = JObj d -> number_in j = Some a ->
  jget "code" j = Ok (match a with Some z => JInt z | None => JNull end).
Proof.
  intros -> H. unfold number_in, Aes_Spec.field in H. unfold jget. destruct (dget "code" d) as [[]|]; try discriminate H; injection H as <-; reflexivity.
Qed.

Definition known_code (z : Z) : Z := if zmem z smart_error_codes then z else INTERNAL_UNKNOWN_ERROR.
Lemma blocked_code z : (known_code z =? DEVICE_BLOCKED) = (z =? -40404).
Proof.
  unfold known_code. destruct (zmem z smart_error_codes) eqn:E; [reflexivity|].
  destruct (z =? -40404) eqn:F; [|reflexivity]. apply Z.eqb_eq in F. subst z. vm_compute in E. discriminate E.
Qed.

Lemma gives_inner d why : gives (JObj d) why ->
  inner_error (JObj d) = Ok (option_map known_code why)
  /\ exists data, jget_dict "data" (JObj d) = Ok data /\ exists s, jget "sec_left" data = Ok s.
Proof.
  intros (o & r & i & a & b & H1 & H2 & H3 & H4 & H5 & ->).
  destruct (part_obj _ _ _ H1) as (od & Eo). destruct (part_obj _ _ _ H2) as (rd & Er). destruct (part_obj _ _ _ H3) as (id & Ei).
  pose proof (part_jget _ _ _ H1 d eq_refl) as J1. pose proof (part_jget _ _ _ H2 d eq_refl) as J2.
  pose proof (part_jget _ _ _ H3 rd Er) as J3. pose proof (number_jget _ _ _ Eo H4) as N1. pose proof (number_jget _ _ _ Ei H5) as N2.
  split.
  - unfold inner_error. rewrite J1. cbn [bind]. rewrite N1. cbn [bind]. destruct a as [z|]; [reflexivity|].
    rewrite J2. cbn [bind]. rewrite J3. cbn [bind]. rewrite N2. cbn [bind]. destruct b; reflexivity.
  - exists o. split; [exact J1|]. rewrite Eo. eexists. reflexivity.
Qed.

Lemma refuses_parts r why : refuses r why -> exists d c, r = Ok (200, JObj d) /\ truthy (JObj d) = true
  /\ response_error (JObj d) = Ok c /\ (c =? INVALID_NONCE) = false /\ is_less_secure (JObj d) = Ok false /\ gives (JObj d) why.
Proof.
  intros (j & c & Hb & Hne & Hc & Hn & Hp & Hg).
  assert (exists d, j = JObj d) as (d & ->) by (destruct j; try discriminate Hc; eexists; reflexivity).
  exists d, c. assert (E : r = Ok (200, JObj d)).
  { unfold body in Hb. destruct r as [[s j]|]; [|discriminate]. destruct (s =? 200) eqn:E; [|discriminate]. apply Z.eqb_eq in E. congruence. }
  assert (Hr : response_error (JObj d) = Ok c) by (apply code_response, Hc).
  assert (Hx : (c =? INVALID_NONCE) = false) by (apply Z.eqb_neq; exact Hn).
  split; [exact E|]. split.
  { destruct d as [|x l]; [now destruct Hne|reflexivity]. }
  split; [exact Hr|]. split; [exact Hx|]. split; [|exact Hg].
  destruct (is_less_secure (JObj d)) as [[]|e] eqn:Es; [|reflexivity|].
  - exfalso. apply Hp. destruct (less_secure_asks _ Es) as (et & A & B & C & D). exists (JObj d), et. auto.
  - exfalso. destruct Hg as (o & rr & i & a & b & H1 & H2 & H3 & _).
    destruct (part_obj _ _ _ H2) as (rd & Er). destruct (part_obj _ _ _ H3) as (id & Ei).
    unfold is_less_secure in Es. rewrite Hr in Es. cbn [bind] in Es. destruct (c =? SESSION_EXPIRED); [|discriminate].
    rewrite (part_jget _ _ _ H2 d eq_refl) in Es. cbn [bind] in Es. rewrite (part_jget _ _ _ H3 rd Er) in Es. cbn [bind] in Es.
    destruct (truthy i); [|discriminate]. rewrite Ei in Es. discriminate.
Qed.

Section Why.
Variables enc_block dec_block : bytes -> bytes -> bytes.
Variable json_loads : bytes -> option json.
Variables md5_hex sha256_hex : bytes -> string.
Variable sha256 : bytes -> bytes.
Variable str_int : Z -> string.
Variable str_json : json -> string.
Variable wrap : bytes -> bytes.
Variable cfg : config.

Notation fin1 := (finish1 md5_hex sha256_hex cfg).
Notation llogin := (less_secure_login md5_hex str_json).
Notation tdef := (try_default md5_hex sha256_hex str_json cfg).
Notation hs1 := (handshake1 md5_hex sha256_hex str_json cfg).
Notation hs2 := (handshake2 sha256_hex sha256 str_json).
Notation hsh := (handshake md5_hex sha256_hex sha256 str_json cfg).
Notation csend := (Cam_Model.send enc_block dec_block json_loads md5_hex sha256_hex sha256 str_int str_json wrap cfg).
Notation cstep := (step enc_block dec_block json_loads md5_hex sha256_hex sha256 str_int str_json wrap cfg).
Notation crun := (run enc_block dec_block json_loads md5_hex sha256_hex sha256 str_int str_json wrap cfg).

(** ** The user name is the configured one or the default *)
Definition near {A} (m : M cam A) : Prop :=
  forall t, user (fst (m t)) = user t \/ user (fst (m t)) = Some "admin".
Lemma n_keeps {A} (m : M cam A) : keeps m -> near m. Proof. intros H t. left. apply H. Qed.
Lemma n_bind {A B} (m : M cam A) (f : A -> M cam B) : near m -> (forall x, near (f x)) -> near (mbind m f).
Proof.
  intros Hm Hf t. unfold mbind. specialize (Hm t). destruct (m t) as [t' [x|e]]; cbn [fst] in *; [|exact Hm].
  destruct (Hf x t') as [G|G]; [|right; exact G]. destruct Hm as [K|K]; [left|right]; congruence.
Qed.
Lemma n_default w resp code : near (tdef w resp code).
Proof.
  apply n_bind; [apply n_keeps, k_post|]. intro j. apply n_bind; [apply n_keeps, k_lift|]. intro c.
  apply n_bind; [destruct (c =? INVALID_NONCE); apply n_keeps; [apply k_lift|apply k_ret]|]. intros [].
  - intros t. right. rewrite finish1_state. reflexivity.
  - apply n_bind; [apply n_keeps, k_lift|]. intro less. apply n_bind.
    + destruct less; [|apply n_keeps, k_ret]. intros t. left. apply k_login.
    + intros []; [intros t; right; reflexivity|]. apply n_keeps, k_finish.
Qed.
Lemma n_handshake1 w : near (hs1 w).
Proof.
  intros t. unfold handshake1. destruct (user t) as [u|] eqn:Eu; [|rewrite <- Eu; apply n_default].
  rewrite <- Eu. destruct (String.eqb u ""); [apply n_default|]. revert t Eu.
  match goal with |- forall t, _ -> user (fst (?m t)) = _ \/ _ => assert (G : near m); [|intros t _; apply G] end.
  apply n_bind; [apply n_keeps, k_post|]. intro j. destruct (truthy j); [|apply n_default].
  apply n_bind; [apply n_keeps, k_lift|]. intro less. apply n_bind.
  - apply n_keeps. destruct less; [|apply k_ret]. apply k_bind; [apply k_lift|]. intro inner.
    destruct (match inner with Some c => c =? BAD_USERNAME | None => false end); [apply k_ret|]. intro t. apply k_login.
  - intros []; [intro t; left; reflexivity|]. apply n_bind; [apply n_keeps, k_lift|]. intro c. apply n_bind.
    + apply n_keeps. destruct (negb (c =? INVALID_NONCE)); [apply k_ret|]. apply k_bind; [apply k_lift|]. intro h. apply k_ret.
    + intros []; [apply n_default | apply n_keeps, k_finish].
Qed.
Lemma n_send w m : near (csend w m).
Proof.
  apply n_bind.
  - intro t. destruct (st t); [|left; reflexivity]. revert t. change (near (hsh w)).
    apply n_bind; [apply n_handshake1|]. intros [[[n s] p]|]; apply n_keeps; [apply k_handshake2 | apply k_ret].
  - intros _ t. left. destruct (secure t).
    + unfold send_secure. cbv zeta. destruct (sess t) as [s|]; [|reflexivity].
      destruct (Aes_Model.aes_encrypt enc_block s m); [|reflexivity]. destruct (nonce t); [|reflexivity].
      destruct (pwdh t); [|reflexivity]. destruct (seq t); [|reflexivity]. destruct (w_req w) as [[status j]|]; [|reflexivity].
      destruct (status =? 500); [reflexivity|]. destruct (negb (status =? 200)); [reflexivity|].
      rewrite (k_bind _ _ (k_handle j) (fun _ => k_lift _)). reflexivity.
    + unfold send_open. rewrite (k_bind _ _ (k_post _ _) (fun j => k_bind _ _ (k_handle j) (fun _ => k_ret _))). reflexivity.
Qed.
Lemma step_near t e : user (fst (fst (cstep t e))) = user t \/ user (fst (fst (cstep t e))) = Some "admin".
Proof.
  destruct e as [w m|]; cbn [step]; [|left; reflexivity]. pose proof (n_send w m t) as G.
  destruct (csend w m t) as [t2 o]. exact G.
Qed.
Lemma step_log t e : log t = [] -> log (fst (fst (cstep t e))) = [].
Proof. destruct e as [w m|]; cbn [step]; [|intros H; exact H]. intros _. destruct (csend w m t). reflexivity. Qed.

Lemma run_near es : forall t, log t = [] ->
  let t' := fst (crun t es) in (user t' = user t \/ user t' = Some "admin") /\ log t' = [].
Proof.
  induction es as [|e es IH]; intros t Hl; [split; [left; reflexivity|exact Hl]|]. cbn [run].
  pose proof (step_near t e) as G. pose proof (step_log t e Hl) as L. destruct (cstep t e) as [[t1 p] r]. cbn [fst] in *.
  specialize (IH t1 L). cbv zeta in IH. destruct (crun t1 es) as [t2 out]. cbn [fst] in *. destruct IH as [[K|K] L2].
  - split; [|exact L2]. rewrite K. exact G.
  - split; [right; exact K|exact L2].
Qed.

Lemma run_app es1 es2 t : fst (crun t (es1 ++ es2)) = fst (crun (fst (crun t es1)) es2).
Proof.
  revert t. induction es1 as [|e es IH]; intros t; [reflexivity|]. cbn [app run].
  destruct (cstep t e) as [[t1 p] r]. specialize (IH t1). destruct (crun t1 (es ++ es2)) as [a b]. destruct (crun t1 es) as [a' b'].
  cbn [fst] in *. exact IH.
Qed.

(** After a history that leaves no session *)
Lemma ready es t outs : crun (init cfg) es = (t, outs) -> no_session es ->
  st t = HANDSHAKE_REQUIRED /\ log t = [] /\ (user t = user_name cfg \/ user t = Some "admin").
Proof.
  intros Hr Hn. pose proof (run_near es (init cfg) eq_refl) as (Hu & Hl). rewrite Hr in Hu, Hl. cbn [fst] in Hu, Hl.
  assert (E : user (init cfg) = user_name cfg).
  { unfold init, user0, own_creds, user_name. cbn [user]. destruct (c_creds cfg) as [[u p]|]; [|reflexivity].
    destruct (String.eqb u "" && String.eqb p ""); reflexivity. }
  rewrite E in Hu. split; [|split; assumption].
  destruct Hn as [-> | (es0 & ->)]; [cbn in Hr; injection Hr as <- _; reflexivity|].
  pose proof (run_app es0 [EReset] (init cfg)) as G. rewrite Hr in G. cbn [fst run step] in G. rewrite G. reflexivity.
Qed.
Lemma ready_user es t outs : crun (init cfg) es = (t, outs) -> no_session es -> named cfg ->
  st t = HANDSHAKE_REQUIRED /\ log t = [] /\ exists u, user t = Some u /\ u <> "" /\ (user_name cfg = Some u \/ u = "admin").
Proof.
  intros Hr Hn (u & Hu & Hne). destruct (ready es t outs Hr Hn) as (H1 & H2 & H3). split; [exact H1|]. split; [exact H2|].
  destruct H3 as [H3|H3]; rewrite H3.
  - exists u. rewrite Hu. auto.
  - exists "admin". split; [reflexivity|]. split; [discriminate|]. right. reflexivity.
Qed.

Definition why_error (why : option Z) : exn :=
  match why with Some z => if z =? -40404 then KDevice (Some (-40404)) else KAuth None | None => KAuth None end.

Lemma default_refuses w resp code t why2 : refuses (w_hello2 w) why2 ->
  tdef w resp code t = fin1 resp code (w_n2 w) (add_log (PHello true "admin" (w_n2 w)) t).
Proof.
  intros H. destruct (refuses_parts _ _ H) as (d & c & Er & Ht & Hc & Hi & Hs & _).
  unfold try_default, mbind. rewrite post_200_spec, Er. cbn [Z.eqb Pos.eqb negb]. unfold mlift, mret. rewrite Hc, Hi, Hs. reflexivity.
Qed.

Lemma finish_refused d c why n t u : user t = Some u -> u <> "" -> truthy (JObj d) = true -> (c =? INVALID_NONCE) = false ->
  gives (JObj d) why -> fin1 (Some (JObj d)) (Some c) n t = (t, Err (why_error why)).
Proof.
  intros Hu Hn Ht Hi Hg. unfold finish1. rewrite Hu. apply String.eqb_neq in Hn. rewrite Hn, Ht, Hi. cbn [negb bind].
  destruct (gives_inner d why Hg) as (-> & data & -> & s & Es). cbn [bind]. destruct why as [z|]; [|reflexivity].
  cbn [option_map why_error]. rewrite blocked_code. destruct (z =? -40404); [|reflexivity]. cbn [bind]. rewrite Es. reflexivity.
Qed.

Lemma hello_refused w t u why why2 : user t = Some u -> u <> "" -> refuses (w_hello w) why -> refuses (w_hello2 w) why2 ->
  hs1 w t = (add_log (PHello true "admin" (w_n2 w)) (add_log (PHello false u (w_n1 w)) t), Err (why_error why)).
Proof.
  intros Hu Hn H H2. destruct (refuses_parts _ _ H) as (d & c & Er & Ht & Hc & Hi & Hs & Hg).
  unfold handshake1. rewrite Hu. pose proof Hn as Hn'. apply String.eqb_neq in Hn'. rewrite Hn'. unfold mbind at 1.
  rewrite post_200_spec, Er. cbn [Z.eqb Pos.eqb negb]. rewrite Ht. unfold mbind, mlift, mret. rewrite Hs, Hc, Hi. cbn [negb].
  rewrite (default_refuses w _ _ _ why2 H2). apply (finish_refused d c why _ _ u); auto.
Qed.

Lemma anonymous_refused w t why2 : (user t = None \/ user t = Some "") -> refuses (w_hello2 w) why2 ->
  hs1 w t = (add_log (PHello true "admin" (w_n2 w)) t, Err (KAuth None)).
Proof.
  intros Hu H2. unfold handshake1.
  destruct Hu as [Hu|Hu]; rewrite Hu; [|cbn [String.eqb]]; rewrite (default_refuses w _ _ _ why2 H2); unfold finish1; cbn [add_log user]; rewrite Hu; reflexivity.
Qed.

Lemma hello_empty w t u why2 : user t = Some u -> u <> "" -> body (w_hello w) = Some (JObj []) -> refuses (w_hello2 w) why2 ->
  hs1 w t = (add_log (PHello true "admin" (w_n2 w)) (add_log (PHello false u (w_n1 w)) t), Err PyUnboundLocal).
Proof.
  intros Hu Hn H H2. unfold handshake1. rewrite Hu. pose proof Hn as Hn'. apply String.eqb_neq in Hn'. rewrite Hn'. unfold mbind at 1.
  assert (E : w_hello w = Ok (200, JObj [])).
  { unfold body in H. destruct (w_hello w) as [[s j]|]; [|discriminate]. destruct (s =? 200) eqn:E; [|discriminate]. apply Z.eqb_eq in E. congruence. }
  rewrite post_200_spec, E. cbn [Z.eqb Pos.eqb negb truthy]. rewrite (default_refuses w _ _ _ why2 H2).
  unfold finish1. cbn [add_log user]. rewrite Hu, Hn'. reflexivity.
Qed.

Lemma hello_other w t u : user t = Some u -> u <> "" -> other_password md5_hex sha256_hex cfg (w_hello w) (w_n1 w) ->
  hs1 w t = (add_log (PHello false u (w_n1 w)) t, Err (KAuth None)).
Proof.
  intros Hu Hn (j & server & confirm & Hb & Hc & Hs & Hd & N1 & N2). unfold handshake1. rewrite Hu.
  assert (En : String.eqb u "" = false) by now apply String.eqb_neq. rewrite En. unfold mbind at 1. rewrite post_200_spec.
  assert (Hr : w_hello w = Ok (200, j)).
  { unfold body in Hb. destruct (w_hello w) as [[st0 j0]|]; [|discriminate]. destruct (st0 =? 200) eqn:E; [|discriminate].
    apply Z.eqb_eq in E. congruence. }
  rewrite Hr. cbn [Z.eqb Pos.eqb negb].
  assert (He : response_error j = Ok (-40413)) by now apply code_response.
  unfold data_field in Hs, Hd. destruct (field "result" j) as [r|] eqn:Er; [|discriminate]. cbn [obind] in Hs, Hd.
  destruct (field "data" r) as [d|] eqn:Edd; [|discriminate]. cbn [obind] in Hs, Hd.
  assert (Ht : truthy j = true).
  { unfold Aes_Spec.field in Er. destruct j as [| | | | | |[|kv l]]; try discriminate. reflexivity. }
  assert (Hh : has_nonce j = Ok true /\ has_nonce_get j = Ok true).
  { unfold has_nonce, has_nonce_get. rewrite (field_jitem _ _ _ Er). unfold Aes_Spec.field in Er, Edd, Hs.
    destruct j as [| | | | | |l]; try discriminate. cbn [jget_dict]. rewrite Er. cbn [bind].
    destruct r as [| | | | | |l']; try discriminate. cbn [jget_dict]. rewrite Edd. cbn [bind].
    destruct d as [| | | | | |l'']; try discriminate. cbn [jcontains]. unfold dmem. rewrite Hs. split; reflexivity. }
  rewrite Ht. unfold is_less_secure, mbind, mlift, mret. rewrite He. cbn [bind]. change (-40413 =? SESSION_EXPIRED) with false. cbv iota.
  change (-40413 =? INVALID_NONCE) with true. cbn [negb]. destruct Hh as [Hh1 Hh2]. rewrite Hh1. cbn [negb].
  unfold finish1. cbn [add_log user]. rewrite Hu, En. change (-40413 =? INVALID_NONCE) with true. cbn [negb]. rewrite Ht, Hh2. cbn [bind negb].
  rewrite (field_jitem _ _ _ Er). cbn [bind]. rewrite (field_jitem _ _ _ Edd). cbn [bind].
  rewrite (field_jitem _ _ _ Hs), (field_jitem _ _ _ Hd). cbn [bind].
  rewrite (secret_pwd cfg (add_log (PHello false u (w_n1 w)) t) u Hu Hn).
  change (confirm_hash sha256_hex) with (expected_confirm sha256_hex). cbv zeta.
  destruct confirm as [| | | |s| |]; try reflexivity.
  destruct (String.eqb s (expected_confirm sha256_hex (w_n1 w) server (sha256_hex (lit (secret cfg))))) eqn:E1.
  { apply String.eqb_eq in E1. congruence. }
  destruct (String.eqb s (expected_confirm sha256_hex (w_n1 w) server (md5_hex (lit (secret cfg))))) eqn:E2.
  { apply String.eqb_eq in E2. congruence. }
  reflexivity.
Qed.

(** From a failed greeting to a failed send *)
Lemma send_fails w m t t1 e : st t = HANDSHAKE_REQUIRED -> hs1 w t = (t1, Err e) ->
  snd (cstep t (ESend w m)) = Some (Err e) /\ snd (fst (cstep t (ESend w m))) = log t1.
Proof.
  intros Hs H. assert (E : csend w m t = (t1, Err e)).
  { unfold Cam_Model.send. unfold mbind at 1. rewrite Hs. unfold handshake, mbind. rewrite H. reflexivity. }
  cbn [step]. rewrite E. split; reflexivity.
Qed.

Definition proof_error (c : Z) : exn :=
  if c =? -40413 then KAuth None
  else if zmem c smart_retryable_errors then KRetry (Some c)
  else if zmem c smart_authentication_errors then KAuth (Some c)
  else KDevice (Some c).
Lemma proof_fails w t n server ph j c : body (w_proof w) = Some j -> code_in j = Some c -> c <> 0 ->
  exists t' dg, hs2 w n server ph t = (t', Err (proof_error c)) /\ log t' = log t ++ [PProof (user t) n dg].
Proof.
  intros Hb Hc Hn. unfold handshake2.
  assert (Hr : w_proof w = Ok (200, j)).
  { unfold body in Hb. destruct (w_proof w) as [[st0 j0]|]; [|discriminate]. destruct (st0 =? 200) eqn:E; [|discriminate].
    apply Z.eqb_eq in E. congruence. }
  unfold mbind at 1. rewrite post_200_spec, Hr. cbn [Z.eqb Pos.eqb negb]. unfold mbind at 1, mlift at 1. rewrite (code_response _ _ Hc).
  unfold proof_error. change INVALID_NONCE with (-40413). destruct (c =? -40413).
  { do 2 eexists. split; reflexivity. }
  unfold mbind at 1, handle_code. rewrite (code_response _ _ Hc). apply Z.eqb_neq in Hn. rewrite Hn.
  destruct (zmem c smart_retryable_errors); [do 2 eexists; split; reflexivity|].
  destruct (zmem c smart_authentication_errors); do 2 eexists; split; reflexivity.
Qed.
Lemma send_fails2 w m t t1 n server ph t2 e : st t = HANDSHAKE_REQUIRED -> hs1 w t = (t1, Ok (Some (n, server, ph))) ->
  hs2 w n server ph t1 = (t2, Err e) ->
  snd (cstep t (ESend w m)) = Some (Err e) /\ snd (fst (cstep t (ESend w m))) = log t2.
Proof.
  intros Hs H H2. assert (E : csend w m t = (t2, Err e)).
  { unfold Cam_Model.send. unfold mbind at 1. rewrite Hs. unfold handshake, mbind. rewrite H, H2. reflexivity. }
  cbn [step]. rewrite E. split; reflexivity.
Qed.
End Why.

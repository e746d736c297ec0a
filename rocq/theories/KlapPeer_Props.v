(** Property C107: the KLAP client and a device that speaks the protocol. *)
From Verif Require Import Base Base_Lemmas Crypto_Model Crypto_Proofs Klap_Model Klap_Spec Klap_Proofs KlapPeer_Spec KlapPeer_Proofs.
Open Scope Z_scope.

(** While nothing goes wrong, sending through the transport is calling the device directly: the
    same answers, the same effects, in the same order, over any number of sessions, expiries and
    resets. *)
Theorem klap_transparent : forall md5 sha1 sha256 enc_block dec_block J json_loads S app auth c d es t d' outs,
  crypto_ok sha256 enc_block dec_block ->
  In auth (candidates md5 sha1 sha256 c) ->
  together md5 sha1 sha256 enc_block dec_block J json_loads S app auth c (init, d) es (t, d') outs ->
  all_healthy sha256 S auth es ->
  dv_state d' = fst (directly J json_loads S app (dv_state d) es) /\
  map snd outs = snd (directly J json_loads S app (dv_state d) es).
Proof.
  intros md5 sha1 sha256 enc_block dec_block J json_loads S app auth c d es t d' outs (H1 & H2 & H3) Hin HT Hh.
  apply (together_alive md5 sha1 sha256 enc_block dec_block J json_loads S app auth c H1 H2 H3 _ _ _ _ HT Hin Hh).
  intros D. discriminate.
Qed.
Print Assumptions klap_transparent.

(** Whatever goes wrong (requests and answers lost, sessions forgotten, clocks anywhere), one send
    has the effect of the request at most once, and an answer it returns is the device's answer to
    that very request. *)
Theorem klap_at_most_once : forall md5 sha1 sha256 enc_block dec_block J json_loads S app auth c d es y outs,
  crypto_ok sha256 enc_block dec_block ->
  together md5 sha1 sha256 enc_block dec_block J json_loads S app auth c (init, d) es y outs ->
  Forall (fun o : bytes * S * S * res J => let '(m, s, s1, r) := o in
    let (s2, answer) := app s m in
    (s1 = s /\ exists e, r = Err e) \/
    (s1 = s2 /\ (r = understood J json_loads answer \/ exists e, r = Err e))) outs.
Proof.
  intros md5 sha1 sha256 enc_block dec_block J json_loads S app auth c d es y outs (H1 & H2 & H3) HT.
  remember (init, d) as x eqn:Ex.
  assert (HL : linked sha256 S auth (fst x) (snd x)) by (subst x; intros D; discriminate). clear Ex.
  induction HT as [x|t d0 t1 d1 x h w m p r es outs Hk Hs Hm Ha _ IH|t d0 x es outs _ IH|t d0 f x es outs _ IH
                  |t d0 keep x es outs _ IH]; cbn [fst snd] in *.
  - constructor.
  - destruct (send_linked md5 sha1 sha256 enc_block dec_block J json_loads S app auth c H1 H2 H3
               _ _ _ _ _ _ _ _ _ Hk Hs Hm Ha HL) as (L & E).
    constructor; [|apply IH, L]. destruct (app (dv_state d0) m) as [s2 answer]. cbn [fst snd] in E.
    destruct E as [(E1 & E2)|(E1 & [E2|(e & _ & E2)])]; [left|right|right]; eauto.
  - apply IH. intros D. discriminate.
  - apply IH. exact HL.
  - apply IH. intros D. destruct (HL D) as (s & k & l & r & T1 & T2 & T3 & T4 & T5 & T6).
    exists s, k, l, r. repeat (split; [assumption|]). intros x' Hx'. apply T6. eapply forget_at, Hx'.
Qed.
Print Assumptions klap_at_most_once.

(** After any trouble: the first send that meets no new trouble succeeds, or is told without effect
    to try again, and then the next one succeeds.  (The third case is an old session whose 32-bit
    numbers are used up, see [klap_counter_exhausted_refuted].) *)
Theorem klap_recovers_partial : forall md5 sha1 sha256 enc_block dec_block J json_loads S app auth c d es t0 d0 outs0
    h1 w1 h2 w2 m y m1 s1 s1' r1 m2 s2 s2' r2,
  crypto_ok sha256 enc_block dec_block ->
  In auth (candidates md5 sha1 sha256 c) ->
  together md5 sha1 sha256 enc_block dec_block J json_loads S app auth c (init, d) es (t0, d0) outs0 ->
  healthy sha256 auth 2 h1 w1 -> healthy sha256 auth 1 h2 w2 ->
  together md5 sha1 sha256 enc_block dec_block J json_loads S app auth c (t0, d0) [HSend h1 w1 m; HSend h2 w2 m] y
    [(m1, s1, s1', r1); (m2, s2, s2', r2)] ->
  let (s, answer) := app s1 m in
  (s1' = s /\ r1 = understood J json_loads answer) \/
  (s1' = s1 /\ r1 = Err (KRetry None) /\ s2' = s /\ r2 = understood J json_loads answer) \/
  (s1' = s1 /\ r1 = Err PyStructError).
Proof.
  intros md5 sha1 sha256 enc_block dec_block J json_loads S app auth c d es t0 d0 outs0 h1 w1 h2 w2 m y m1 s1 s1' r1
    m2 s2 s2' r2 (H1 & H2 & H3) Hin HT Hh1 Hh2 HT2.
  pose proof (together_linked md5 sha1 sha256 enc_block dec_block J json_loads S app auth c H1 H2 H3 _ _ _ _ HT) as HL.
  cbn [fst snd] in HL. specialize (HL (fun D => False_ind _ (diff_false_true D))).
  inversion HT2 as [|? ? ta da ? ? ? ? pa ? ? ? Hka Hsa Hma Haa HT3| | |]; subst.
  inversion HT3 as [|? ? tb db ? ? ? ? pb ? ? ? Hkb Hsb Hmb Hab _| | |]; subst.
  match goal with |- context [app ?a ?b] => destruct (app a b) as [s answer] eqn:Ea end.
  destruct (send_recovers md5 sha1 sha256 enc_block dec_block J json_loads S app auth c H1 H2 H3
              _ _ _ _ _ _ _ _ _ _ Hka Hsa Hma Haa Hin Hh1 HL) as [(E1 & E2)|[(E1 & E2 & E3)|(E1 & E2)]].
  - left. rewrite Ea in *. auto.
  - right. left. rewrite E1.
    assert (Hal : alive sha256 S auth 1 ta da) by (intros D; congruence).
    destruct (send_alive md5 sha1 sha256 enc_block dec_block J json_loads S app auth c H1 H2 H3
              _ _ _ _ _ _ _ _ _ _ Hkb Hsb Hmb Hab Hin Hh2 Hal) as (_ & F1 & F2).
    rewrite E1, Ea in F1, F2. auto.
  - right. right. auto.
Qed.
Print Assumptions klap_recovers_partial.

(** ** An example: a device that adds up what it is sent *)
Definition toy2_sha (m : bytes) : bytes := firstn 32 (rev m ++ repeat Ascii.zero 32).
Definition toy2_md5 (m : bytes) : bytes := firstn 4 m ++ lit "h".
Lemma toy2_ok : crypto_ok toy2_sha (fun _ b => b) (fun _ b => b).
Proof.
  split; [|split]; auto. intro m. unfold toy2_sha. rewrite firstn_length, app_length, repeat_length. lia.
Qed.
Definition count_app (s : nat) (m : bytes) : nat * bytes := ((s + length m)%nat, repeat "x"%char (s + length m)).
Definition count_json (b : bytes) : option (option nat) := Some (Some (length b)).
Definition my : credentials := mkCred (lit "user") (lit "pass").
Definition my_auth : bytes := auth_of toy2_md5 toy2_md5 toy2_sha V2 my.
Definition my_config : config := mkCfg V2 (Some my) my_auth.
Notation t_send := (klap_send toy2_md5 toy2_md5 toy2_sha (fun _ b => b) (fun _ b => b) nat count_json my_config).

(** What the device answers to the posts, put into the world. *)
Fixpoint feed (h : choice) (w : world) (d : device nat) (p : list post) : world :=
  match p with
  | [] => w
  | PHandshake1 seed :: p =>
      let (d1, r) := on_handshake1 toy2_sha nat V2 my_auth h seed d in
      feed h (mkWorld (w_now w) (w_seed w) r (w_cookie w) (w_timeout w) (w_now1 w) (w_h2 w) (w_req w)) d1 p
  | PHandshake2 y ck :: p =>
      let (d1, r) := on_handshake2 toy2_sha nat V2 my_auth h y ck d in
      feed h (mkWorld (w_now w) (w_seed w) (w_h1 w) (w_cookie w) (w_timeout w) (w_now1 w) r (w_req w)) d1 p
  | PRequest _ q pl ck :: p =>
      let (d1, r) := on_request toy2_sha (fun _ b => b) (fun _ b => b) nat count_app my_auth h ck q pl d in
      feed h (mkWorld (w_now w) (w_seed w) (w_h1 w) (w_cookie w) (w_timeout w) (w_now1 w) (w_h2 w) r) d1 p
  end.
Definition arranged (h : choice) (now : Z) (t : transport) (d : device nat) (m : bytes) : world :=
  let go w := feed h w d (snd (fst (t_send w t m))) in
  go (go (go (mkWorld now (lit "localseed-123456") (Err KKasa) (Some (h_cookie h)) (Timeout (h_life h)) (now + 1) (Err KKasa) (Err KKasa)))).
Definition fine (now : Z) (k : string) : choice :=
  mkChoice (lit "remoteseed-12345") k 3600 now (now + 2) Answered Answered Answered.

Definition d0 : device nat := mkDev [] 5%nat.
Definition w1 := Eval vm_compute in arranged (fine 0 "a") 0 init d0 (lit "four").
Definition t1 := Eval vm_compute in fst (fst (t_send w1 init (lit "four"))).
Definition d1 : device nat := Eval vm_compute in
  mkDev [mkD "a" (lit "localseed-123456") (lit "remoteseed-12345") true (peer_start toy2_sha my_auth (lit "localseed-123456") (lit "remoteseed-12345") + 1) 3600] 9%nat.
Definition w2 := Eval vm_compute in arranged (fine 10 "b") 10 t1 d1 (lit "xy").
Definition w3 := Eval vm_compute in arranged (fine 10 "b") 10 t1 (mkDev [] 9%nat) (lit "xy").
Definition t3 := Eval vm_compute in fst (fst (t_send w3 t1 (lit "xy"))).
Definition w4 := Eval vm_compute in arranged (fine 20 "c") 20 t3 (mkDev [] 9%nat) (lit "xy").

Ltac show_served := repeat (first [apply served_nil | eapply served_h1; [vm_compute; reflexivity|]
  | eapply served_h2; [vm_compute; reflexivity|] | eapply served_req; [vm_compute; reflexivity|]]).
Ltac show_apart := let a := fresh in let Ha := fresh in let E := fresh in intros a Ha E; vm_compute in Ha;
  repeat (destruct Ha as [Ha|Ha]; [subst a; first [reflexivity|vm_compute in E; discriminate]|]); destruct Ha.
Ltac show_send := eapply together_send; [vm_compute; reflexivity|show_served|vm_compute; repeat split|show_apart|].

(** Two requests in one session. *)
Example klap_together_ex : exists y outs,
  together toy2_md5 toy2_md5 toy2_sha (fun _ b => b) (fun _ b => b) nat count_json nat count_app my_auth my_config
    (init, d0) [HSend (fine 0 "a") w1 (lit "four"); HSend (fine 10 "b") w2 (lit "xy")] y outs
  /\ outs = [(lit "four", 5%nat, 9%nat, Ok 9%nat); (lit "xy", 9%nat, 11%nat, Ok 11%nat)]
  /\ all_healthy toy2_sha nat my_auth [HSend (fine 0 "a") w1 (lit "four"); HSend (fine 10 "b") w2 (lit "xy")]
  /\ In my_auth (candidates toy2_md5 toy2_md5 toy2_sha my_config).
Proof.
  do 2 eexists. split; [|split; [|split]].
  - show_send. show_send. apply together_nil.
  - vm_compute. reflexivity.
  - cbn [all_healthy]. unfold healthy. repeat split; vm_compute; congruence.
  - left. reflexivity.
Qed.
(** The device restarts in between: one refusal, then success. *)
Example klap_recovers_ex : exists y outs,
  together toy2_md5 toy2_md5 toy2_sha (fun _ b => b) (fun _ b => b) nat count_json nat count_app my_auth my_config
    (init, d0) [HSend (fine 0 "a") w1 (lit "four"); HForget (fun _ => false);
                HSend (fine 10 "b") w3 (lit "xy"); HSend (fine 20 "c") w4 (lit "xy")] y outs
  /\ outs = [(lit "four", 5%nat, 9%nat, Ok 9%nat); (lit "xy", 9%nat, 9%nat, Err (KRetry None)); (lit "xy", 9%nat, 11%nat, Ok 11%nat)].
Proof.
  do 2 eexists. split.
  - show_send. apply together_forget. show_send. show_send. apply together_nil.
  - vm_compute. reflexivity.
Qed.

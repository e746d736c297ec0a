(** Property C110: whole queries, from the protocol to the device and back. *)
From Verif Require Import Base Base_Lemmas Py Crypto_Model Retry_Model Smart_Model CamQuery_Model Stack_Spec Stack_Proofs Stack_Peers.
From Verif Require Klap_Model Klap_Spec KlapPeer_Spec KlapPeer_Proofs KlapPeer_Props Aes_Model Aes_Props AesPeer_Spec AesPeer_Proofs AesPeer_Props
  Cam_Model Cam_Spec CamPeer_Spec CamPeer_Proofs CamPeer_Props.
Open Scope string_scope.
Open Scope list_scope.
Open Scope Z_scope.

(** In the following [x] is a client with its device: the client is new, or was reset after any
    history. *)
Definition klap_fresh md5 sha1 sha256 enc_block dec_block json_loads S app auth c
    (x : Klap_Model.transport * KlapPeer_Spec.device S) : Prop :=
  exists d es t o, KlapPeer_Spec.together md5 sha1 sha256 enc_block dec_block json json_loads S app auth c
    (Klap_Model.init, d) es (t, snd x) o /\ (fst x = Klap_Model.init \/ fst x = Klap_Model.klap_reset t).
Definition aes_fresh enc_block dec_block json_loads open_key login_text S app accepts welcome refusal
    (x : Aes_Model.aes * AesPeer_Spec.device S) : Prop :=
  exists d es t o, AesPeer_Spec.together enc_block dec_block json_loads open_key login_text S app accepts welcome refusal
    (Aes_Model.init, d) es (t, snd x) o /\ (fst x = Aes_Model.init \/ fst x = Aes_Model.reset t).
Definition cam_fresh enc_block dec_block json_loads md5_hex sha256_hex sha256 str_int str_json wrap cfg user pass S app
    (x : Cam_Model.cam * CamPeer_Spec.device S) : Prop :=
  exists d es t o, CamPeer_Spec.together enc_block dec_block json_loads md5_hex sha256_hex sha256 str_int str_json wrap cfg
    user pass S app (Cam_Model.init cfg, d) es (t, snd x) o /\
    (fst x = Cam_Model.init cfg \/ fst x = Cam_Model.reset t).

(** ** Modern devices, KLAP: while nothing goes wrong with the network, the sessions and the device,
    a program that makes queries has the results, the log and the effects it would have if the device
    was a function it calls; errors the device itself reports, and the retries they cause, included. *)
Theorem whole_klap_smart : forall md5 sha1 sha256 enc_block dec_block json_loads S app auth c encode script x b qs w' rs y o,
  Klap_Spec.crypto_ok sha256 enc_block dec_block ->
  In auth (Klap_Model.candidates md5 sha1 sha256 c) ->
  klap_fresh md5 sha1 sha256 enc_block dec_block json_loads S app auth c x ->
  ask_all (smart_ask (stack_send _ _ S _ _ (klap_client md5 sha1 sha256 enc_block dec_block json_loads c) encode as_dict script)
             (stack_reset _ _ S Klap_Model.klap_reset))
    (mkW (mkStack (fst x) 0 []) b []) qs = (w', rs) ->
  KlapPeer_Spec.together md5 sha1 sha256 enc_block dec_block json json_loads S app auth c
    x (klap_happenings (k_trace (wdev w'))) y o ->
  KlapPeer_Spec.all_healthy sha256 S auth (klap_happenings (k_trace (wdev w'))) ->
  exists v', ask_all (smart_ask (direct_send _ S _ _ encode as_dict script app (KlapPeer_Spec.understood json json_loads)) (fun y => y))
    (mkW (KlapPeer_Spec.dv_state (snd x), 0%nat) b []) qs = (v', rs) /\
  fst (wdev v') = KlapPeer_Spec.dv_state (snd y) /\ wlog v' = wlog w'.
Proof.
  intros md5 sha1 sha256 enc_block dec_block json_loads S app auth c encode script x b qs w' rs y o (H1 & H2 & H3) Hin
    (d & es & t & o0 & HT & Hx) Hq Hr Hh.
  assert (HA : forall n, KlapPeer_Proofs.alive sha256 S auth n (fst x) (snd x))
    by (intros n; destruct Hx as [-> | ->]; intros D; discriminate).
  assert (HL : KlapPeer_Proofs.linked sha256 S auth (fst x) (snd x)) by (destruct Hx as [-> | ->]; intros D; discriminate).
  refine (smart_transparent _ _ _ _ (klap_client md5 sha1 sha256 enc_block dec_block json_loads c) Klap_Model.klap_reset script app
    (KlapPeer_Spec.understood json json_loads) KlapPeer_Spec.dv_state
    (klap_runs md5 sha1 sha256 enc_block dec_block json_loads S app auth c) _ _ _ _ _ x _ _ y o Hr true _
    encode b qs w' rs eq_refl Hq eq_refl).
  - apply klap_nil.
  - apply klap_app.
  - apply klap_sends.
  - apply klap_resets.
  - apply klap_det.
  - intros. eapply klap_once; eassumption.
  - intros _ es0 f c0 m y1 o1 y0 r HF R1 R2. eapply klap_direct; eassumption.
Qed.
Print Assumptions whole_klap_smart.

(** Legacy devices with the new firmware, KLAP. *)
Theorem whole_klap_iot : forall md5 sha1 sha256 enc_block dec_block json_loads S app auth c script x qs w' rs y o,
  Klap_Spec.crypto_ok sha256 enc_block dec_block ->
  In auth (Klap_Model.candidates md5 sha1 sha256 c) ->
  klap_fresh md5 sha1 sha256 enc_block dec_block json_loads S app auth c x ->
  iot_all (stack_send _ _ S _ _ (klap_client md5 sha1 sha256 enc_block dec_block json_loads c) plain (@Ok json) script)
    (stack_reset _ _ S Klap_Model.klap_reset) (mkStack (fst x) 0 []) qs = (w', rs) ->
  KlapPeer_Spec.together md5 sha1 sha256 enc_block dec_block json json_loads S app auth c
    x (klap_happenings (k_trace w')) y o ->
  KlapPeer_Spec.all_healthy sha256 S auth (klap_happenings (k_trace w')) ->
  exists v', iot_all (direct_send _ S _ _ plain (@Ok json) script app (KlapPeer_Spec.understood json json_loads)) (fun y => y)
    (KlapPeer_Spec.dv_state (snd x), 0%nat) qs = (v', rs) /\
  fst v' = KlapPeer_Spec.dv_state (snd y).
Proof.
  intros md5 sha1 sha256 enc_block dec_block json_loads S app auth c script x qs w' rs y o (H1 & H2 & H3) Hin
    (d & es & t & o0 & HT & Hx) Hq Hr Hh.
  assert (HA : forall n, KlapPeer_Proofs.alive sha256 S auth n (fst x) (snd x))
    by (intros n; destruct Hx as [-> | ->]; intros D; discriminate).
  assert (HL : KlapPeer_Proofs.linked sha256 S auth (fst x) (snd x)) by (destruct Hx as [-> | ->]; intros D; discriminate).
  refine (iwhole_transparent _ _ _ _ (klap_client md5 sha1 sha256 enc_block dec_block json_loads c) Klap_Model.klap_reset script app
    (KlapPeer_Spec.understood json json_loads) KlapPeer_Spec.dv_state
    (klap_runs md5 sha1 sha256 enc_block dec_block json_loads S app auth c) _ _ _ _ _ x _ _ y o Hr true _
    qs w' rs eq_refl Hq eq_refl).
  - apply klap_nil.
  - apply klap_app.
  - apply klap_sends.
  - apply klap_resets.
  - apply klap_det.
  - intros. eapply klap_once; eassumption.
  - intros _ es0 f c0 m y1 o1 y0 r HF R1 R2. eapply klap_direct; eassumption.
Qed.
Print Assumptions whole_klap_iot.

(** Modern devices, the AES transport. *)
Theorem whole_aes_smart : forall enc_block dec_block json_loads open_key login_text S app accepts welcome refusal encode script x b qs w' rs y o,
  Aes_Props.cipher_ok enc_block dec_block ->
  AesPeer_Spec.speaks json_loads S app welcome refusal ->
  AesPeer_Spec.knows login_text accepts ->
  aes_fresh enc_block dec_block json_loads open_key login_text S app accepts welcome refusal x ->
  ask_all (smart_ask (stack_send _ _ S _ _ (aes_client enc_block dec_block json_loads open_key login_text) encode as_dict script)
             (stack_reset _ _ S Aes_Model.reset))
    (mkW (mkStack (fst x) 0 []) b []) qs = (w', rs) ->
  AesPeer_Spec.together enc_block dec_block json_loads open_key login_text S app accepts welcome refusal
    x (aes_happenings (k_trace (wdev w'))) y o ->
  AesPeer_Spec.all_healthy S (aes_happenings (k_trace (wdev w'))) ->
  exists v', ask_all (smart_ask (direct_send _ S _ _ encode as_dict script app (AesPeer_Spec.understood json_loads)) (fun y => y))
    (mkW (AesPeer_Spec.dv_state (snd x), 0%nat) b []) qs = (v', rs) /\
  fst (wdev v') = AesPeer_Spec.dv_state (snd y) /\ wlog v' = wlog w'.
Proof.
  intros enc_block dec_block json_loads open_key login_text S app accepts welcome refusal encode script x b qs w' rs y o (H1 & H2) Hj Hin
    (d & es & t & o0 & HT & Hx) Hq Hr Hh.
  assert (HA : AesPeer_Proofs.alive S (fst x) (snd x)) by (destruct Hx as [-> | ->]; intros N; now destruct N).
  assert (HL : AesPeer_Proofs.linked S (fst x) (snd x)) by (destruct Hx as [-> | ->]; intros N; now destruct N).
  refine (smart_transparent _ _ _ _ (aes_client enc_block dec_block json_loads open_key login_text) Aes_Model.reset script app
    (AesPeer_Spec.understood json_loads) AesPeer_Spec.dv_state
    (aes_runs enc_block dec_block json_loads open_key login_text S app accepts welcome refusal) _ _ _ _ _ x _ _ y o Hr true _
    encode b qs w' rs eq_refl Hq eq_refl).
  - apply aes_nil.
  - apply aes_app.
  - apply aes_send.
  - apply aes_reset.
  - apply aes_det.
  - intros. eapply aes_once; eassumption.
  - intros _ es0 f c0 m y1 o1 y0 r HF R1 R2. eapply aes_direct; eassumption.
Qed.
Print Assumptions whole_aes_smart.

(** Cameras and hubs with the encrypted camera transport. *)
Theorem whole_cam_camera : forall enc_block dec_block json_loads md5_hex sha256_hex sha256 str_int str_json wrap cfg user pass S app encode script x b qs w' rs y o,
  Aes_Props.cipher_ok enc_block dec_block ->
  (forall b, length (sha256 b) = 32%nat) ->
  (forall s, str_json (JStr s) = s) ->
  CamPeer_Spec.speaks json_loads S app ->
  CamPeer_Spec.knows md5_hex sha256_hex cfg user pass ->
  cam_fresh enc_block dec_block json_loads md5_hex sha256_hex sha256 str_int str_json wrap cfg user pass S app x ->
  ask_all (cam_ask (stack_send _ _ S _ _ (cam_client enc_block dec_block json_loads md5_hex sha256_hex sha256 str_int str_json wrap cfg) encode as_dict script)
             (stack_reset _ _ S Cam_Model.reset))
    (mkW (mkStack (fst x) 0 []) b []) qs = (w', rs) ->
  CamPeer_Spec.together enc_block dec_block json_loads md5_hex sha256_hex sha256 str_int str_json wrap cfg user pass S app
    x (cam_happenings (k_trace (wdev w'))) y o ->
  CamPeer_Spec.all_healthy md5_hex sha256_hex cfg S (cam_happenings (k_trace (wdev w'))) ->
  exists v', ask_all (cam_ask (direct_send _ S _ _ encode as_dict script app (CamPeer_Spec.understood json_loads)) (fun y => y))
    (mkW (CamPeer_Spec.dv_state (snd x), 0%nat) b []) qs = (v', rs) /\
  fst (wdev v') = CamPeer_Spec.dv_state (snd y) /\ wlog v' = wlog w'.
Proof.
  intros enc_block dec_block json_loads md5_hex sha256_hex sha256 str_int str_json wrap cfg user pass S app encode script x b qs w' rs y o (H1 & H2) Hs Hst Hj Hin
    (d & es & t & o0 & HT & Hx) Hq Hr Hh.
  pose proof (proj1 Hin) as Hu.
  destruct (CamPeer_Proofs.together_linked enc_block dec_block json_loads md5_hex sha256_hex sha256 str_int str_json wrap cfg user pass S app
    H1 H2 Hs Hst Hj Hu _ _ _ _ _ HT (CamPeer_Proofs.init_linked _ _ _ _)) as (HL0 & _).
  assert (HA : CamPeer_Proofs.alive cfg user pass S (fst x) (snd x)).
  { destruct Hx as [-> | ->]; [apply CamPeer_Proofs.init_alive|exact (CamPeer_Proofs.reset_alive _ _ _ _ _ _ _ HL0)]. }
  pose proof (CamPeer_Proofs.alive_linked _ _ _ _ _ _ HA) as HL.
  refine (camera_transparent _ _ _ _ (cam_client enc_block dec_block json_loads md5_hex sha256_hex sha256 str_int str_json wrap cfg) Cam_Model.reset script app
    (CamPeer_Spec.understood json_loads) CamPeer_Spec.dv_state
    (cam_runs enc_block dec_block json_loads md5_hex sha256_hex sha256 str_int str_json wrap cfg user pass S app) _ _ _ _ _ x _ _ y o Hr true _
    encode b qs w' rs eq_refl Hq eq_refl).
  - apply cam_nil.
  - apply cam_app.
  - apply cam_send.
  - apply cam_reset.
  - apply cam_det.
  - intros. eapply cam_once; eassumption.
  - intros _ es0 f c0 m y1 o1 y0 r HF R1 R2. eapply cam_direct; eassumption.
Qed.
Print Assumptions whole_cam_camera.

(** ** Whatever goes wrong (messages and answers lost, sessions forgotten, logins refused, clocks
    anywhere), and after any history: every message has taken effect at most once and in order, and a
    query that returns a result has as its last attempt exactly the run that calls the device
    directly, from the state the earlier messages left; nothing comes after it. *)
Theorem whole_klap_smart_once : forall md5 sha1 sha256 enc_block dec_block json_loads S app auth c encode script d es x o0 b qs q rc w1 rs w' tr r y o,
  Klap_Spec.crypto_ok sha256 enc_block dec_block ->
  KlapPeer_Spec.together md5 sha1 sha256 enc_block dec_block json json_loads S app auth c (Klap_Model.init, d) es x o0 ->
  ask_all (smart_ask (stack_send _ _ S _ _ (klap_client md5 sha1 sha256 enc_block dec_block json_loads c) encode as_dict script)
             (stack_reset _ _ S Klap_Model.klap_reset))
    (mkW (mkStack (fst x) 0 []) b []) qs = (w1, rs) ->
  smart_ask (stack_send _ _ S _ _ (klap_client md5 sha1 sha256 enc_block dec_block json_loads c) encode as_dict script)
    (stack_reset _ _ S Klap_Model.klap_reset) q rc w1 = (w', tr, r) ->
  KlapPeer_Spec.together md5 sha1 sha256 enc_block dec_block json json_loads S app auth c
    x (klap_happenings (k_trace (wdev w'))) y o ->
  effects _ S app (KlapPeer_Spec.dv_state (snd x)) (k_trace (wdev w')) (KlapPeer_Spec.dv_state (snd y)) /\
  forall a, r = Ok a -> exists before after s b' l v',
    k_trace (wdev w') = before ++ after /\ effects _ S app (KlapPeer_Spec.dv_state (snd x)) before s /\
    smart_execute_query (direct_send _ S _ _ encode as_dict script app (KlapPeer_Spec.understood json json_loads)) q (mkW (s, sends before) b' l) = (v', Ok a) /\
    wdev v' = (KlapPeer_Spec.dv_state (snd y), sends (k_trace (wdev w'))).
Proof.
  intros md5 sha1 sha256 enc_block dec_block json_loads S app auth c encode script d es x o0 b qs q rc w1 rs w' tr r y o (H1 & H2 & H3) HT Hqs Hq Hr.
  pose proof (KlapPeer_Proofs.together_linked md5 sha1 sha256 enc_block dec_block json json_loads S app auth c H1 H2 H3 _ _ _ _ HT
    (fun D => False_ind _ (diff_false_true D))) as HL.
  refine (smart_once _ _ _ _ (klap_client md5 sha1 sha256 enc_block dec_block json_loads c) Klap_Model.klap_reset script app
    (KlapPeer_Spec.understood json json_loads) KlapPeer_Spec.dv_state
    (klap_runs md5 sha1 sha256 enc_block dec_block json_loads S app auth c) _ _ _ _ _ _ _ _ y o Hr false _
    encode b qs q rc w1 rs w' tr r Hqs Hq eq_refl).
  - apply klap_nil.
  - apply klap_app.
  - apply klap_sends.
  - apply klap_resets.
  - apply klap_det.
  - intros. eapply klap_once; eassumption.
  - discriminate.
Qed.
Print Assumptions whole_klap_smart_once.

(** The same for legacy devices. *)
Theorem whole_klap_iot_once : forall md5 sha1 sha256 enc_block dec_block json_loads S app auth c script d es x o0 qs m rc w1 rs w' tr r y o,
  Klap_Spec.crypto_ok sha256 enc_block dec_block ->
  KlapPeer_Spec.together md5 sha1 sha256 enc_block dec_block json json_loads S app auth c (Klap_Model.init, d) es x o0 ->
  iot_all (stack_send _ _ S _ _ (klap_client md5 sha1 sha256 enc_block dec_block json_loads c) plain (@Ok json) script)
    (stack_reset _ _ S Klap_Model.klap_reset) (mkStack (fst x) 0 []) qs = (w1, rs) ->
  iot_query (fun d => stack_send _ _ S _ _ (klap_client md5 sha1 sha256 enc_block dec_block json_loads c) plain (@Ok json) script d m)
    (stack_reset _ _ S Klap_Model.klap_reset) rc w1 = (w', tr, r) ->
  KlapPeer_Spec.together md5 sha1 sha256 enc_block dec_block json json_loads S app auth c
    x (klap_happenings (k_trace w')) y o ->
  effects _ S app (KlapPeer_Spec.dv_state (snd x)) (k_trace w') (KlapPeer_Spec.dv_state (snd y)) /\
  forall a, r = Ok a -> exists before after s v',
    k_trace w' = before ++ after /\ effects _ S app (KlapPeer_Spec.dv_state (snd x)) before s /\
    direct_send _ S _ _ plain (@Ok json) script app (KlapPeer_Spec.understood json json_loads) (s, sends before) m = (v', Ok a) /\
    v' = (KlapPeer_Spec.dv_state (snd y), sends (k_trace w')).
Proof.
  intros md5 sha1 sha256 enc_block dec_block json_loads S app auth c script d es x o0 qs m rc w1 rs w' tr r y o (H1 & H2 & H3) HT Hqs Hq Hr.
  pose proof (KlapPeer_Proofs.together_linked md5 sha1 sha256 enc_block dec_block json json_loads S app auth c H1 H2 H3 _ _ _ _ HT
    (fun D => False_ind _ (diff_false_true D))) as HL.
  refine (iwhole_once _ _ _ _ (klap_client md5 sha1 sha256 enc_block dec_block json_loads c) Klap_Model.klap_reset script app
    (KlapPeer_Spec.understood json json_loads) KlapPeer_Spec.dv_state
    (klap_runs md5 sha1 sha256 enc_block dec_block json_loads S app auth c) _ _ _ _ _ _ _ _ y o Hr false _
    qs m rc w1 rs w' tr r Hqs Hq eq_refl).
  - apply klap_nil.
  - apply klap_app.
  - apply klap_sends.
  - apply klap_resets.
  - apply klap_det.
  - intros. eapply klap_once; eassumption.
  - discriminate.
Qed.
Print Assumptions whole_klap_iot_once.

(** The same for the AES transport. *)
Theorem whole_aes_smart_once : forall enc_block dec_block json_loads open_key login_text S app accepts welcome refusal encode script d es x o0 b qs q rc w1 rs w' tr r y o,
  Aes_Props.cipher_ok enc_block dec_block ->
  AesPeer_Spec.speaks json_loads S app welcome refusal ->
  AesPeer_Spec.together enc_block dec_block json_loads open_key login_text S app accepts welcome refusal (Aes_Model.init, d) es x o0 ->
  ask_all (smart_ask (stack_send _ _ S _ _ (aes_client enc_block dec_block json_loads open_key login_text) encode as_dict script)
             (stack_reset _ _ S Aes_Model.reset))
    (mkW (mkStack (fst x) 0 []) b []) qs = (w1, rs) ->
  smart_ask (stack_send _ _ S _ _ (aes_client enc_block dec_block json_loads open_key login_text) encode as_dict script)
    (stack_reset _ _ S Aes_Model.reset) q rc w1 = (w', tr, r) ->
  AesPeer_Spec.together enc_block dec_block json_loads open_key login_text S app accepts welcome refusal
    x (aes_happenings (k_trace (wdev w'))) y o ->
  effects _ S app (AesPeer_Spec.dv_state (snd x)) (k_trace (wdev w')) (AesPeer_Spec.dv_state (snd y)) /\
  forall a, r = Ok a -> exists before after s b' l v',
    k_trace (wdev w') = before ++ after /\ effects _ S app (AesPeer_Spec.dv_state (snd x)) before s /\
    smart_execute_query (direct_send _ S _ _ encode as_dict script app (AesPeer_Spec.understood json_loads)) q (mkW (s, sends before) b' l) = (v', Ok a) /\
    wdev v' = (AesPeer_Spec.dv_state (snd y), sends (k_trace (wdev w'))).
Proof.
  intros enc_block dec_block json_loads open_key login_text S app accepts welcome refusal encode script d es x o0 b qs q rc w1 rs w' tr r y o (H1 & H2) Hj HT Hqs Hq Hr.
  destruct x as [tx dx].
  destruct (AesPeer_Proofs.together_linked enc_block dec_block json_loads open_key login_text S app accepts welcome refusal
    H1 H2 Hj _ _ _ _ _ HT) as (HL & _); [intros N; now destruct N|].
  refine (smart_once _ _ _ _ (aes_client enc_block dec_block json_loads open_key login_text) Aes_Model.reset script app
    (AesPeer_Spec.understood json_loads) AesPeer_Spec.dv_state
    (aes_runs enc_block dec_block json_loads open_key login_text S app accepts welcome refusal) _ _ _ _ _ _ _ _ y o Hr false _
    encode b qs q rc w1 rs w' tr r Hqs Hq eq_refl).
  - apply aes_nil.
  - apply aes_app.
  - apply aes_send.
  - apply aes_reset.
  - apply aes_det.
  - intros. eapply aes_once; eassumption.
  - discriminate.
Qed.
Print Assumptions whole_aes_smart_once.

(** The same for cameras. *)
Theorem whole_cam_camera_once : forall enc_block dec_block json_loads md5_hex sha256_hex sha256 str_int str_json wrap cfg user pass S app encode script d es x o0 b qs q rc w1 rs w' tr r y o,
  Aes_Props.cipher_ok enc_block dec_block ->
  (forall b, length (sha256 b) = 32%nat) ->
  (forall s, str_json (JStr s) = s) ->
  CamPeer_Spec.speaks json_loads S app ->
  user <> "" ->
  CamPeer_Spec.together enc_block dec_block json_loads md5_hex sha256_hex sha256 str_int str_json wrap cfg user pass S app (Cam_Model.init cfg, d) es x o0 ->
  ask_all (cam_ask (stack_send _ _ S _ _ (cam_client enc_block dec_block json_loads md5_hex sha256_hex sha256 str_int str_json wrap cfg) encode as_dict script)
             (stack_reset _ _ S Cam_Model.reset))
    (mkW (mkStack (fst x) 0 []) b []) qs = (w1, rs) ->
  cam_ask (stack_send _ _ S _ _ (cam_client enc_block dec_block json_loads md5_hex sha256_hex sha256 str_int str_json wrap cfg) encode as_dict script)
    (stack_reset _ _ S Cam_Model.reset) q rc w1 = (w', tr, r) ->
  CamPeer_Spec.together enc_block dec_block json_loads md5_hex sha256_hex sha256 str_int str_json wrap cfg user pass S app
    x (cam_happenings (k_trace (wdev w'))) y o ->
  effects _ S app (CamPeer_Spec.dv_state (snd x)) (k_trace (wdev w')) (CamPeer_Spec.dv_state (snd y)) /\
  forall a, r = Ok a -> exists before after s b' l v',
    k_trace (wdev w') = before ++ after /\ effects _ S app (CamPeer_Spec.dv_state (snd x)) before s /\
    cam_execute_query (fun d r => direct_send _ S _ _ encode as_dict script app (CamPeer_Spec.understood json_loads) d (inl r))
      (fun d r => direct_send _ S _ _ encode as_dict script app (CamPeer_Spec.understood json_loads) d (inr r)) q (mkW (s, sends before) b' l) = (v', Ok a) /\
    wdev v' = (CamPeer_Spec.dv_state (snd y), sends (k_trace (wdev w'))).
Proof.
  intros enc_block dec_block json_loads md5_hex sha256_hex sha256 str_int str_json wrap cfg user pass S app encode script d es x o0 b qs q rc w1 rs w' tr r y o (H1 & H2) Hs Hst Hj Hu HT Hqs Hq Hr.
  destruct x as [tx dx].
  destruct (CamPeer_Proofs.together_linked enc_block dec_block json_loads md5_hex sha256_hex sha256 str_int str_json wrap cfg user pass S app
    H1 H2 Hs Hst Hj Hu _ _ _ _ _ HT (CamPeer_Proofs.init_linked _ _ _ _)) as (HL & _).
  refine (camera_once _ _ _ _ (cam_client enc_block dec_block json_loads md5_hex sha256_hex sha256 str_int str_json wrap cfg) Cam_Model.reset script app
    (CamPeer_Spec.understood json_loads) CamPeer_Spec.dv_state
    (cam_runs enc_block dec_block json_loads md5_hex sha256_hex sha256 str_int str_json wrap cfg user pass S app) _ _ _ _ _ _ _ _ y o Hr false _
    encode b qs q rc w1 rs w' tr r Hqs Hq eq_refl).
  - apply cam_nil.
  - apply cam_app.
  - apply cam_send.
  - apply cam_reset.
  - apply cam_det.
  - intros. eapply cam_once; eassumption.
  - discriminate.
Qed.
Print Assumptions whole_cam_camera_once.

(** ** Examples: devices that add up what they are sent.  First queries over KLAP. *)
Definition ex_app (s : nat) (m : bytes) : nat * bytes := ((s + length m)%nat, repeat "x"%char (s + length m)).
Definition ex_obj (n : nat) : json := JObj [("error_code", JInt 0); ("result", JObj [("n", JInt (Z.of_nat n))])].
Definition ex_text (n : nat) (r : request) : bytes := match r with Single m _ => Klap_Model.lit m | Batch _ => Klap_Model.lit "batch" end.
Fixpoint again {A} (n : nat) (f : A -> A) (x : A) : A := match n with O => x | S n => again n f (f x) end.

Section ExKlap.
Import Klap_Model KlapPeer_Spec KlapPeer_Props.
Definition xk_json (b : bytes) : option (option json) := Some (Some (ex_obj (length b))).
Definition xk_send := klap_send toy2_md5 toy2_md5 toy2_sha (fun _ b => b) (fun _ b => b) json xk_json my_config.
Definition xk_arranged (h : choice) (now : Z) (t : transport) (d : device nat) (m : bytes) : Klap_Model.world :=
  again 3 (fun w => feed h w d (snd (fst (xk_send w t m))))
    (mkWorld now (lit "localseed-123456") (Err KKasa) (Some (h_cookie h)) (Timeout (h_life h)) (now + 1) (Err KKasa) (Err KKasa)).
Definition xk_w1 := Eval vm_compute in xk_arranged (fine 0 "a") 0 init d0 (lit "four").
Definition xk_t1 := Eval vm_compute in fst (fst (xk_send xk_w1 init (lit "four"))).
Definition xk_w2 := Eval vm_compute in xk_arranged (fine 10 "b") 10 xk_t1 (mkDev (dv_sessions d1) 10%nat) (lit "xy").
Definition xk_w3 := Eval vm_compute in xk_arranged (fine 10 "b") 10 xk_t1 (mkDev [] 10%nat) (lit "xy").
Definition xk_w4 := Eval vm_compute in xk_arranged (fine 20 "c") 20 init (mkDev [] 10%nat) (lit "xy").
(** Nothing goes wrong, and the device counts one more between the queries. *)
Definition xk_script (n : nat) : (nat -> nat) * (option (string -> bool) * choice * Klap_Model.world) :=
  match n with O => (fun s => s, (None, fine 0 "a", xk_w1)) | _ => (S, (None, fine 10 "b", xk_w2)) end.
(** The device restarts before the second query. *)
Definition xk_restart (n : nat) : (nat -> nat) * (option (string -> bool) * choice * Klap_Model.world) :=
  match n with
  | O => (fun s => s, (None, fine 0 "a", xk_w1))
  | 1%nat => (S, (Some (fun _ => false), fine 10 "b", xk_w3))
  | _ => (fun s => s, (None, fine 20 "c", xk_w4))
  end.
Notation xk_together := (together toy2_md5 toy2_md5 toy2_sha (fun _ b => b) (fun _ b => b) json xk_json nat ex_app my_auth my_config).
Notation xk_client := (klap_client toy2_md5 toy2_md5 toy2_sha (fun _ b => b) (fun _ b => b) xk_json my_config).

Example whole_klap_smart_ex :
  klap_fresh toy2_md5 toy2_md5 toy2_sha (fun _ b => b) (fun _ b => b) xk_json nat ex_app my_auth my_config (init, d0) /\
  exists w' y o,
  ask_all (smart_ask (stack_send _ _ nat _ _ xk_client ex_text as_dict xk_script) (stack_reset _ _ nat klap_reset))
    (Smart_Model.mkW (mkStack init 0 []) 5 []) [([("four", JNull)], 3); ([("xy", JNull)], 3)] =
  (w', [([Exec], Ok [("four", RJson (JObj [("n", JInt 9)]))]); ([Exec], Ok [("xy", RJson (JObj [("n", JInt 12)]))])]) /\
  xk_together (init, d0) (klap_happenings (k_trace (wdev w'))) y o /\
  all_healthy toy2_sha nat my_auth (klap_happenings (k_trace (wdev w'))) /\ dv_state (snd y) = 12%nat.
Proof.
  split; [exists d0, [], init, []; split; [constructor|now left]|].
  do 3 eexists. split; [vm_compute; reflexivity|]. cbn [wdev k_trace klap_happenings flat_map List.app]. split; [|split].
  - apply together_device. show_send. apply together_device. show_send. apply together_nil.
  - cbn [all_healthy]. unfold healthy. repeat split; vm_compute; congruence.
  - reflexivity.
Qed.
Example whole_klap_iot_ex : exists w' y o,
  iot_all (stack_send _ _ nat _ _ xk_client plain (@Ok json) xk_script) (stack_reset _ _ nat klap_reset)
    (mkStack init 0 []) [(lit "four", 3); (lit "xy", 3)] = (w', [([Exec], Ok (ex_obj 9)); ([Exec], Ok (ex_obj 12))]) /\
  xk_together (init, d0) (klap_happenings (k_trace w')) y o /\
  all_healthy toy2_sha nat my_auth (klap_happenings (k_trace w')) /\ dv_state (snd y) = 12%nat.
Proof.
  do 3 eexists. split; [vm_compute; reflexivity|]. cbn [k_trace klap_happenings flat_map List.app]. split; [|split].
  - apply together_device. show_send. apply together_device. show_send. apply together_nil.
  - cbn [all_healthy]. unfold healthy. repeat split; vm_compute; congruence.
  - reflexivity.
Qed.
(** The second query is refused without effect, the client resets, tries again and gets the answer. *)
Example whole_klap_smart_once_ex : exists w1 rs w' y o,
  ask_all (smart_ask (stack_send _ _ nat _ _ xk_client ex_text as_dict xk_restart) (stack_reset _ _ nat klap_reset))
    (Smart_Model.mkW (mkStack init 0 []) 5 []) [([("four", JNull)], 3)] = (w1, rs) /\
  smart_ask (stack_send _ _ nat _ _ xk_client ex_text as_dict xk_restart) (stack_reset _ _ nat klap_reset) [("xy", JNull)] 3 w1 =
    (w', [Exec; Reset; Sleep; Exec], Ok [("xy", RJson (JObj [("n", JInt 12)]))]) /\
  xk_together (init, d0) (klap_happenings (k_trace (wdev w'))) y o /\ dv_state (snd y) = 12%nat.
Proof.
  do 5 eexists. split; [vm_compute; reflexivity|]. split; [vm_compute; reflexivity|].
  cbn [wdev k_trace klap_happenings flat_map List.app]. split.
  - apply together_device. show_send. apply together_device. apply together_forget. show_send.
    apply together_reset. apply together_device. show_send. apply together_nil.
  - reflexivity.
Qed.
Example whole_klap_iot_once_ex : exists w1 rs w' y o,
  iot_all (stack_send _ _ nat _ _ xk_client plain (@Ok json) xk_restart) (stack_reset _ _ nat klap_reset)
    (mkStack init 0 []) [(lit "four", 3)] = (w1, rs) /\
  iot_query (fun d => stack_send _ _ nat _ _ xk_client plain (@Ok json) xk_restart d (lit "xy")) (stack_reset _ _ nat klap_reset) 3 w1 =
    (w', [Exec; Reset; Exec], Ok (ex_obj 12)) /\
  xk_together (init, d0) (klap_happenings (k_trace w')) y o /\ dv_state (snd y) = 12%nat.
Proof.
  do 5 eexists. split; [vm_compute; reflexivity|]. split; [vm_compute; reflexivity|].
  cbn [k_trace klap_happenings flat_map List.app]. split.
  - apply together_device. show_send. apply together_device. apply together_forget. show_send.
    apply together_reset. apply together_device. show_send. apply together_nil.
  - reflexivity.
Qed.
End ExKlap.

(** The AES transport. *)
Section ExAes.
Import Aes_Model AesPeer_Spec AesPeer_Props.
Definition xa_json (b : bytes) : option json :=
  match b with
  | "T"%char :: _ | "R"%char :: _ => toy_json b
  | _ => Some (ex_obj (length b))
  end.
Notation xa_send := (send (fun _ b => b) (fun _ b => b) xa_json toy_open toy_login).
Definition xa_arranged (h : choice) (now : Z) (t : aes) (d : device nat) (m : bytes) : Aes_Model.world :=
  let hs k := mkHs (Err KKasa) (Some (k_cookie k)) (Klap_Model.Timeout (k_life k)) (now + 1) in
  again 6 (fun w => feed h w false d (log (fst (xa_send w m (cleared t)))))
    (Aes_Model.mkW now (hs (h_shake h)) (Err KKasa) (hs (h_shake2 h)) (Err KKasa) (Err KKasa)).
Definition xa_w1 := Eval vm_compute in xa_arranged (fine 0 "a") 0 init d0 (lit "four").
Definition xa_t1 := Eval vm_compute in fst (xa_send xa_w1 (lit "four") init).
Definition xa_w2 := Eval vm_compute in xa_arranged (fine 10 "b") 10 xa_t1 (mkDev (dv_sessions d1) 10%nat) (lit "xy").
Definition xa_w3 := Eval vm_compute in xa_arranged (fine 10 "b") 10 xa_t1 (mkDev [] 10%nat) (lit "xy").
Definition xa_w4 := Eval vm_compute in xa_arranged (fine 20 "c") 20 init (mkDev [] 10%nat) (lit "xy").
Definition xa_script (n : nat) : (nat -> nat) * (option (string -> bool) * choice * Aes_Model.world) :=
  match n with O => (fun s => s, (None, fine 0 "a", xa_w1)) | _ => (S, (None, fine 10 "b", xa_w2)) end.
Definition xa_restart (n : nat) : (nat -> nat) * (option (string -> bool) * choice * Aes_Model.world) :=
  match n with
  | O => (fun s => s, (None, fine 0 "a", xa_w1))
  | 1%nat => (S, (Some (fun _ => false), fine 10 "b", xa_w3))
  | _ => (fun s => s, (None, fine 20 "c", xa_w4))
  end.
Notation xa_together := (together (fun _ b => b) (fun _ b => b) xa_json toy_open toy_login nat ex_app toy_accepts toy_welcome toy_refusal).
Notation xa_client := (aes_client (fun _ b => b) (fun _ b => b) xa_json toy_open toy_login).

Example xa_speaks : speaks xa_json nat ex_app toy_welcome toy_refusal.
Proof.
  split; [|split].
  - intros s m. cbn [ex_app snd]. destruct (s + length m)%nat; eexists; reflexivity.
  - intros tk. cbn. now rewrite string_of_list_ascii_of_string.
  - reflexivity.
Qed.
Example whole_aes_smart_ex :
  aes_fresh (fun _ b => b) (fun _ b => b) xa_json toy_open toy_login nat ex_app toy_accepts toy_welcome toy_refusal (init, d0) /\
  exists w' y o,
  ask_all (smart_ask (stack_send _ _ nat _ _ xa_client ex_text as_dict xa_script) (stack_reset _ _ nat reset))
    (Smart_Model.mkW (mkStack init 0 []) 5 []) [([("four", JNull)], 3); ([("xy", JNull)], 3)] =
  (w', [([Exec], Ok [("four", RJson (JObj [("n", JInt 9)]))]); ([Exec], Ok [("xy", RJson (JObj [("n", JInt 12)]))])]) /\
  xa_together (init, d0) (aes_happenings (k_trace (wdev w'))) y o /\
  all_healthy nat (aes_happenings (k_trace (wdev w'))) /\ dv_state (snd y) = 12%nat.
Proof.
  split; [exists d0, [], init, []; split; [constructor|now left]|].
  do 3 eexists. split; [vm_compute; reflexivity|]. cbn [wdev k_trace aes_happenings flat_map List.app]. split; [|split].
  - apply together_device. show_send. apply together_device. show_send. apply together_nil.
  - repeat constructor; vm_compute; congruence.
  - reflexivity.
Qed.
Example whole_aes_smart_once_ex : exists w1 rs w' y o,
  ask_all (smart_ask (stack_send _ _ nat _ _ xa_client ex_text as_dict xa_restart) (stack_reset _ _ nat reset))
    (Smart_Model.mkW (mkStack init 0 []) 5 []) [([("four", JNull)], 3)] = (w1, rs) /\
  smart_ask (stack_send _ _ nat _ _ xa_client ex_text as_dict xa_restart) (stack_reset _ _ nat reset) [("xy", JNull)] 3 w1 =
    (w', [Exec; Reset; Sleep; Exec], Ok [("xy", RJson (JObj [("n", JInt 12)]))]) /\
  xa_together (init, d0) (aes_happenings (k_trace (wdev w'))) y o /\ dv_state (snd y) = 12%nat.
Proof.
  do 5 eexists. split; [vm_compute; reflexivity|]. split; [vm_compute; reflexivity|].
  cbn [wdev k_trace aes_happenings flat_map List.app]. split.
  - apply together_device. show_send. apply together_device. apply together_forget. show_send.
    apply together_reset. apply together_device. show_send. apply together_nil.
  - reflexivity.
Qed.
End ExAes.

(** The camera. *)
Section ExCam.
Import Cam_Model Cam_Spec CamPeer_Spec CamPeer_Props.
Definition xc_json (b : bytes) : option json := Some (ex_obj (length b)).
Notation xc_send := (send (fun _ b => b) (fun _ b => b) xc_json toy_md5 toy_hex toy_sha toy_int toy_str (fun b => b) toy_cfg).
Definition xc_arranged (h : choice) (t : cam) (d : device nat) (m : bytes) : Cam_Model.world :=
  let bad := Err KKasa in
  again 6 (fun w => feed h w d (log (fst (xc_send w m (cleared t))))) (Cam_Model.mkW "n1" "n2" bad bad bad bad bad bad).
Definition xc_w1 := Eval vm_compute in xc_arranged (fine "a") (init toy_cfg) d0 (lit "four").
Definition xc_t1 := Eval vm_compute in fst (xc_send xc_w1 (lit "four") (init toy_cfg)).
Definition xc_w2 := Eval vm_compute in xc_arranged (fine "b") xc_t1 (mkDev None (dv_sessions d1) 10%nat) (lit "xy").
Definition xc_w3 := Eval vm_compute in xc_arranged (fine "b") xc_t1 (mkDev None [] 10%nat) (lit "xy").
Definition xc_t3 := Eval vm_compute in fst (xc_send xc_w3 (lit "xy") (cleared xc_t1)).
Definition xc_w4 := Eval vm_compute in xc_arranged (fine "c") (reset xc_t3) (mkDev None [] 10%nat) (lit "xy").
Definition xc_script (n : nat) : (nat -> nat) * (option (string -> bool) * choice * Cam_Model.world) :=
  match n with O => (fun s => s, (None, fine "a", xc_w1)) | _ => (S, (None, fine "b", xc_w2)) end.
Definition xc_restart (n : nat) : (nat -> nat) * (option (string -> bool) * choice * Cam_Model.world) :=
  match n with
  | O => (fun s => s, (None, fine "a", xc_w1))
  | 1%nat => (S, (Some (fun _ => false), fine "b", xc_w3))
  | _ => (fun s => s, (None, fine "c", xc_w4))
  end.
Notation xc_together := (together (fun _ b => b) (fun _ b => b) xc_json toy_md5 toy_hex toy_sha toy_int toy_str (fun b => b) toy_cfg
  "admin" toy_pass nat ex_app).
Notation xc_client := (cam_client (fun _ b => b) (fun _ b => b) xc_json toy_md5 toy_hex toy_sha toy_int toy_str (fun b => b) toy_cfg).

Example whole_cam_camera_ex :
  cam_fresh (fun _ b => b) (fun _ b => b) xc_json toy_md5 toy_hex toy_sha toy_int toy_str (fun b => b) toy_cfg "admin" toy_pass nat ex_app
    (init toy_cfg, d0) /\
  exists w' y o,
  ask_all (cam_ask (stack_send _ _ nat _ _ xc_client (fun n q => match q with inl _ => lit "four" | inr _ => lit "xy" end) as_dict xc_script)
     (stack_reset _ _ nat reset))
    (Smart_Model.mkW (mkStack (init toy_cfg) 0 []) 1 []) [(QDict [("four", JNull)], 3); (QName "doIt", 3)] =
  (w', [([Exec], Ok [("four", RJson (JObj [("n", JInt 9)]))]); ([Exec], Ok [("doIt", RJson (ex_obj 12))])]) /\
  xc_together (init toy_cfg, d0) (cam_happenings (k_trace (wdev w'))) y o /\
  all_healthy toy_md5 toy_hex toy_cfg nat (cam_happenings (k_trace (wdev w'))) /\ dv_state (snd y) = 12%nat.
Proof.
  split; [exists d0, [], (init toy_cfg), []; split; [constructor|now left]|].
  do 3 eexists. split; [vm_compute; reflexivity|]. cbn [wdev k_trace cam_happenings flat_map List.app]. split; [|split].
  - apply together_device. show_send. apply together_device. show_send. apply together_nil.
  - show_healthy.
  - reflexivity.
Qed.
Example whole_cam_camera_once_ex : exists w1 rs w' y o,
  ask_all (cam_ask (stack_send _ _ nat _ _ xc_client (fun n q => match q with inl _ => lit "four" | inr _ => lit "xy" end) as_dict xc_restart)
     (stack_reset _ _ nat reset))
    (Smart_Model.mkW (mkStack (init toy_cfg) 0 []) 1 []) [(QDict [("four", JNull)], 3)] = (w1, rs) /\
  cam_ask (stack_send _ _ nat _ _ xc_client (fun n q => match q with inl _ => lit "four" | inr _ => lit "xy" end) as_dict xc_restart)
     (stack_reset _ _ nat reset) (QName "doIt") 3 w1 =
    (w', [Exec; Reset; Sleep; Exec], Ok [("doIt", RJson (ex_obj 12))]) /\
  xc_together (init toy_cfg, d0) (cam_happenings (k_trace (wdev w'))) y o /\ dv_state (snd y) = 12%nat.
Proof.
  do 5 eexists. split; [vm_compute; reflexivity|]. split; [vm_compute; reflexivity|].
  cbn [wdev k_trace cam_happenings flat_map List.app]. split.
  - apply together_device. show_send. apply together_device. apply together_forget. show_send.
    apply together_reset. apply together_device. show_send. apply together_nil.
  - reflexivity.
Qed.
End ExCam.

(** Property C146: device objects over protocol, transport and device. *)
From Verif Require Import Base Base_Lemmas Py Crypto_Model Retry_Model Smart_Model CamQuery_Model Smart_Spec Stack_Spec Stack_Props Stack2_Spec Stack2_Props.
From Verif Require Import Smod_Model Smod_Spec Smod_Props Whole_Model Whole_Spec Whole_Proofs.
From Verif Require Smart_Props KlapPeer_Props Klap_Model Klap_Spec KlapPeer_Spec Aes_Model Aes_Props AesPeer_Spec Cam_Model CamPeer_Spec Ssl_Model SslPeer_Spec.
Open Scope string_scope.
Open Scope list_scope.
Open Scope Z_scope.

(** ** Every use of an object over any protocol, transport and device is one of the histories of
    module updates: what is proved of those holds of it. *)
Theorem session_is_history : forall D (one : dict json -> Z -> world D -> world D * list Retry_Model.act * res (dict rval)) par us d (w w' : world D) d' os,
  perform one (session par us d Ret) w = (w', (d', os)) ->
  exists es, Forall2 as_event us es /\ run d es = (d', map as_obs os).
Proof.
  intros D one par us d w w' d' os H. destruct (session_run par one us d Ret w _ H) as (es & x & w1 & F & Hr & E).
  cbn [perform] in E. pose proof (f_equal snd E) as E2. cbn [snd] in E2. subst x. exists es. split; [exact F|]. exact Hr.
Qed.
Print Assumptions session_is_history.

(** ** Over each transport, while nothing goes wrong with the network, the sessions and the device, a
    program has the results and the effects it would have if the device was a function it calls,
    whatever it makes of the replies it gets. *)
Theorem program_over_klap : forall R md5 sha1 sha256 enc_block dec_block json_loads S app auth c encode script x b (p : prog (dict json) R) w' r y o,
  Klap_Spec.crypto_ok sha256 enc_block dec_block ->
  In auth (Klap_Model.candidates md5 sha1 sha256 c) ->
  klap_fresh md5 sha1 sha256 enc_block dec_block json_loads S app auth c x ->
  perform (smart_ask (stack_send _ _ S _ _ (klap_client md5 sha1 sha256 enc_block dec_block json_loads c) encode as_dict script)
             (stack_reset _ _ S Klap_Model.klap_reset)) p
    (mkW (mkStack (fst x) 0 []) b []) = (w', r) ->
  KlapPeer_Spec.together md5 sha1 sha256 enc_block dec_block json json_loads S app auth c
    x (klap_happenings (k_trace (wdev w'))) y o ->
  KlapPeer_Spec.all_healthy sha256 S auth (klap_happenings (k_trace (wdev w'))) ->
  exists v', perform (smart_ask (direct_send _ S _ _ encode as_dict script app (KlapPeer_Spec.understood json json_loads)) (fun y => y)) p
    (mkW (KlapPeer_Spec.dv_state (snd x), 0%nat) b []) = (v', r) /\
  (fst (wdev v') = KlapPeer_Spec.dv_state (snd y) /\ wlog v' = wlog w').
Proof.
  intros R md5 sha1 sha256 enc_block dec_block json_loads S app auth c encode script x b p w' r y o H1 H2 H3 H H4 H5.
  refine (perform_transfer _ _ _ w' _ (fun v' => fst (wdev v') = KlapPeer_Spec.dv_state (snd y) /\ wlog v' = wlog w') p r H _).
  intros qs rs Hq. eapply whole_klap_smart; eassumption.
Qed.
Print Assumptions program_over_klap.
Theorem program_over_aes : forall R enc_block dec_block json_loads open_key login_text S app accepts welcome refusal encode script x b (p : prog (dict json) R) w' r y o,
  Aes_Props.cipher_ok enc_block dec_block ->
  AesPeer_Spec.speaks json_loads S app welcome refusal ->
  AesPeer_Spec.knows login_text accepts ->
  aes_fresh enc_block dec_block json_loads open_key login_text S app accepts welcome refusal x ->
  perform (smart_ask (stack_send _ _ S _ _ (aes_client enc_block dec_block json_loads open_key login_text) encode as_dict script)
             (stack_reset _ _ S Aes_Model.reset)) p
    (mkW (mkStack (fst x) 0 []) b []) = (w', r) ->
  AesPeer_Spec.together enc_block dec_block json_loads open_key login_text S app accepts welcome refusal
    x (aes_happenings (k_trace (wdev w'))) y o ->
  AesPeer_Spec.all_healthy S (aes_happenings (k_trace (wdev w'))) ->
  exists v', perform (smart_ask (direct_send _ S _ _ encode as_dict script app (AesPeer_Spec.understood json_loads)) (fun y => y)) p
    (mkW (AesPeer_Spec.dv_state (snd x), 0%nat) b []) = (v', r) /\
  (fst (wdev v') = AesPeer_Spec.dv_state (snd y) /\ wlog v' = wlog w').
Proof.
  intros R enc_block dec_block json_loads open_key login_text S app accepts welcome refusal encode script x b p w' r y o H1 H2 H3 H4 H H5 H6.
  refine (perform_transfer _ _ _ w' _ (fun v' => fst (wdev v') = AesPeer_Spec.dv_state (snd y) /\ wlog v' = wlog w') p r H _).
  intros qs rs Hq. eapply whole_aes_smart; eassumption.
Qed.
Print Assumptions program_over_aes.
Theorem program_over_https : forall R json_loads S app accepts encode script x b (p : prog (dict json) R) w' r y o,
  SslPeer_Spec.knows accepts ->
  ssl_fresh json_loads S app accepts x ->
  perform (smart_ask (stack_send _ _ S _ _ ssl_client encode as_dict script)
             (stack_reset _ _ S Ssl_Model.reset)) p
    (mkW (mkStack (fst x) 0 []) b []) = (w', r) ->
  SslPeer_Spec.together json_loads S app accepts
    x (ssl_happenings (k_trace (wdev w'))) y o ->
  SslPeer_Spec.all_healthy S (ssl_happenings (k_trace (wdev w'))) ->
  exists v', perform (smart_ask (direct_send _ S _ _ encode as_dict script app (SslPeer_Spec.understood json_loads)) (fun y => y)) p
    (mkW (SslPeer_Spec.dv_state (snd x), 0%nat) b []) = (v', r) /\
  (fst (wdev v') = SslPeer_Spec.dv_state (snd y) /\ wlog v' = wlog w').
Proof.
  intros R json_loads S app accepts encode script x b p w' r y o H1 H2 H H3 H4.
  refine (perform_transfer _ _ _ w' _ (fun v' => fst (wdev v') = SslPeer_Spec.dv_state (snd y) /\ wlog v' = wlog w') p r H _).
  intros qs rs Hq. eapply whole_ssl_smart; eassumption.
Qed.
Print Assumptions program_over_https.
Theorem program_over_camera : forall R enc_block dec_block json_loads md5_hex sha256_hex sha256 str_int str_json wrap cfg user pass S app encode script x b (p : prog cam_request R) w' r y o,
  Aes_Props.cipher_ok enc_block dec_block ->
  (forall b, length (sha256 b) = 32%nat) ->
  (forall s, str_json (JStr s) = s) ->
  CamPeer_Spec.speaks json_loads S app ->
  CamPeer_Spec.knows md5_hex sha256_hex cfg user pass ->
  cam_fresh enc_block dec_block json_loads md5_hex sha256_hex sha256 str_int str_json wrap cfg user pass S app x ->
  perform (cam_ask (stack_send _ _ S _ _ (cam_client enc_block dec_block json_loads md5_hex sha256_hex sha256 str_int str_json wrap cfg) encode as_dict script)
             (stack_reset _ _ S Cam_Model.reset)) p
    (mkW (mkStack (fst x) 0 []) b []) = (w', r) ->
  CamPeer_Spec.together enc_block dec_block json_loads md5_hex sha256_hex sha256 str_int str_json wrap cfg user pass S app
    x (cam_happenings (k_trace (wdev w'))) y o ->
  CamPeer_Spec.all_healthy md5_hex sha256_hex cfg S (cam_happenings (k_trace (wdev w'))) ->
  exists v', perform (cam_ask (direct_send _ S _ _ encode as_dict script app (CamPeer_Spec.understood json_loads)) (fun y => y)) p
    (mkW (CamPeer_Spec.dv_state (snd x), 0%nat) b []) = (v', r) /\
  (fst (wdev v') = CamPeer_Spec.dv_state (snd y) /\ wlog v' = wlog w').
Proof.
  intros R enc_block dec_block json_loads md5_hex sha256_hex sha256 str_int str_json wrap cfg user pass S app encode script x b p w' r y o H1 H2 H3 H4 H5 H6 H H7 H8.
  refine (perform_transfer _ _ _ w' _ (fun v' => fst (wdev v') = CamPeer_Spec.dv_state (snd y) /\ wlog v' = wlog w') p r H _).
  intros qs rs Hq. eapply whole_cam_camera; eassumption.
Qed.
Print Assumptions program_over_camera.

(** ** A device whose answers do not change meanwhile: after an update the object has for every method
    that was asked for what the device says, and what it had for every other. *)
Theorem update_shows_device : forall D (dev_send : D -> Smart_Model.request -> D * res (dict json)) ans treset par val init now d w w' d' r out,
  honest dev_send ans -> live dev_send -> complete dev_send -> 2 <= wbatch w ->
  started d = true -> dwf (lu d) ->
  perform (smart_ask dev_send treset) (update_object par init now d Ret) w = (w', (d', r, out)) ->
  (forall req k, requested r = Some req -> In k req -> known ans k (par k) (val k)) ->
  exists req, requested r = Some req /\ wbatch w' = wbatch w /\ dwf (lu d') /\ started d' = true /\
    (forall k, dget k (lu d') = then_shown req val (fun k => dget k (lu d)) k) /\
    (out = Ok tt <-> In "get_device_info" req /\ exists i, informs (val "get_device_info") i) /\
    (out = Ok tt -> informs (val "get_device_info") (info d')).
Proof.
  intros D dev_send ans treset par val init now d w w' d' r out Hh Hl Hc Hb Hs Hd H Hv.
  unfold update_object in H. rewrite Hs in H.
  destruct (modules_honest dev_send ans Hh Hl Hc treset par val false now d Ret w w' (d', r, out) Hb Hd H
    (fun x r0 o => ex_intro _ r0 (conj eq_refl eq_refl)) Hv) as (req & Hq & Hn & Hw & Hf & Hst & Hg & Hi).
  cbn [fst snd] in *. exists req. split; [exact Hq|]. split; [exact Hw|]. split; [exact Hf|]. split; [congruence|]. split; [exact Hg|].
  destruct Hi as [(i & (I & V) & N & -> & E)|(G & N)].
  - split.
    + split; [|reflexivity]. intros _. split; [exact I|]. exists i. now split.
    + intros _. rewrite E. now split.
  - split; [|intros X; now contradiction N]. split; [intros X; now contradiction N|]. intros (I & i & V & X). exfalso. apply X. now apply G.
Qed.
Print Assumptions update_shows_device.

(** The same of a first update. *)
Theorem first_update_shows_device : forall D (dev_send : D -> Smart_Model.request -> D * res (dict json)) ans treset par val init now d w w' d' r out i,
  honest dev_send ans -> live dev_send -> complete dev_send -> 2 <= wbatch w ->
  started d = false -> dwf (lu d) ->
  (forall k, In k first_methods -> known ans k JNull (val k)) ->
  informs (val "get_device_info") i ->
  (forall resp, (forall k, dget k resp = if in_dec string_dec k first_methods then Some (shown first_methods (val k)) else None) -> exists l, init resp = Ok l) ->
  perform (smart_ask dev_send treset) (update_object par init now d Ret) w = (w', (d', r, out)) ->
  (forall req k, requested r = Some req -> In k req -> known ans k (par k) (val k)) ->
  exists req, requested r = Some req /\ wbatch w' = wbatch w /\ dwf (lu d') /\ started d' = true /\
    (forall k, dget k (lu d') = then_shown req val (then_shown first_methods val (fun k => dget k (lu d))) k) /\
    out = Ok tt /\ info d' = i.
Proof.
  intros D dev_send ans treset par val init now d w w' d' r out i Hh Hl Hc Hb Hs Hd Hf [Vi Ni] Hin H Hv.
  unfold update_object in H. rewrite Hs in H. cbn [perform] in H.
  assert (W0 : dwf initial_query) by (repeat constructor; cbn; intuition discriminate).
  destruct (ask_many dev_send ans Hh Hl Hc treset initial_query val w W0 ltac:(discriminate) Hb) as (w1 & tr & r1 & E & B & W & G).
  { intros m p E. apply dget_In in E. assert (X : In m first_methods /\ p = JNull).
    { cbn in E. destruct E as [E|[E|[E|[]]]]; injection E as <- <-; cbn; auto. }
    destruct X as (X & ->). auto. }
  rewrite E in H.
  assert (GK : forall k, dget k (keep r1) = if in_dec string_dec k first_methods then Some (shown first_methods (val k)) else None).
  { intros k. rewrite dget_keep, G. destruct (in_dec string_dec k first_methods) as [I|N].
    - assert (M : dmem k initial_query = true) by (apply dmem_keys; exact I). rewrite M. now destruct (val k).
    - destruct (dmem k initial_query) eqn:M; [|reflexivity]. exfalso. apply N. apply dmem_keys in M. exact M. }
  assert (T : try_get "get_device_info" (keep r1) = Ok i).
  { apply try_get_json; [exact Ni|]. rewrite GK. destruct (in_dec string_dec "get_device_info" first_methods) as [_|N]; [|exfalso; apply N; cbn; auto]. now rewrite Vi. }
  rewrite T in H. destruct (Hin _ GK) as (l & L). rewrite L in H.
  assert (GD : forall k, dget k (dupdate (lu d) (keep r1)) = then_shown first_methods val (fun k => dget k (lu d)) k).
  { intros k. rewrite dget_dupdate_wf by (unfold dwf; rewrite keys_keep; exact W). unfold then_shown. rewrite GK. now destruct (in_dec string_dec k first_methods). }
  cbn [set_started lu] in H. rewrite <- B in Hb.
  match type of H with perform _ (update_modules _ _ _ ?d1 ?k) _ = _ => set (dd := d1) in H; set (kk := k) in H end.
  assert (LU : lu dd = dupdate (lu d) (keep r1)) by reflexivity.
  destruct (modules_honest dev_send ans Hh Hl Hc treset par val true now dd kk w1 w' (d', r, out) Hb) as (req & Hq & Hn & Hw & Hf2 & Hst & Hg & Hi).
  - rewrite LU. now apply dwf_dupdate.
  - exact H.
  - intros x r0 o. unfold kk. eexists. split; [reflexivity|reflexivity].
  - exact Hv.
  - cbn [fst snd] in *. exists req. split; [exact Hq|]. split; [congruence|]. split; [exact Hf2|]. split; [exact Hst|].
    assert (GG : forall k, dget k (lu d') = then_shown req val (then_shown first_methods val (fun k => dget k (lu d))) k).
    { intros k. rewrite Hg. unfold then_shown. destruct (in_dec string_dec k req); [reflexivity|]. rewrite LU. apply GD. }
    split; [exact GG|].
    assert (V : dget "get_device_info" (lu d') = Some (RVal i)).
    { rewrite GG. unfold then_shown. destruct (in_dec string_dec "get_device_info" req); [now rewrite Vi|].
      destruct (in_dec string_dec "get_device_info" first_methods) as [_|N]; [now rewrite Vi|]. exfalso; apply N; cbn; auto. }
    destruct Hi as [(i' & E' & N' & -> & I')|(X & _)].
    + split; [reflexivity|]. rewrite E' in V. injection V as ->. exact I'.
    + exfalso. apply Ni. now apply X.
Qed.
Print Assumptions first_update_shows_device.

(** What a module gives whose methods the object has: the values of the device, or an error with the
    device's code. *)
Theorem module_presents_device : forall m d (has : string -> option reply),
  dwf (lu d) -> m_query m <> [] -> (forall k, In k (m_query m) -> dget k (lu d) = has k /\ has k <> None) ->
  presents (m_query m) (m_optional m) has (data m (lu d) None (info d)).
Proof.
  intros m d has W N H. destruct (module_data_partial m (lu d) None (info d)) as (_ & _ & P).
  assert (S0 : source m (lu d) None (lu d)).
  { unfold source. destruct (m_query m) as [|k0 q] eqn:Q; [now contradiction N|]. destruct (H k0 (or_introl eq_refl)) as (E & X).
    left. split; [|reflexivity]. destruct (dget k0 (lu d)) eqn:E0; [|congruence]. apply dmem_keys. unfold dmem. now rewrite E0. }
  specialize (P _ S0 W). unfold presents. destruct (data m (lu d) None (info d)) as [[j|l]|e].
  - destruct P as (k & I & E & U). exists k. destruct (H k I) as (E1 & _). split; [congruence|]. intros x. split; [|intros ->; exact I].
    intros Ix. destruct (string_dec x k) as [->|NE]; [reflexivity|]. exfalso. destruct (H x Ix) as (E2 & X). rewrite (U x Ix NE) in E2. congruence.
  - destruct P as (Wl & G & O). split; [exact Wl|]. split.
    + intros k. destruct (in_dec string_dec k (m_query m)) as [I|NI].
      * destruct (H k I) as (E1 & _). destruct (has k) as [[j|c]|] eqn:Hk.
        -- apply G. now split.
        -- destruct (dget k l) as [j|] eqn:E; [|reflexivity]. apply G in E. destruct E as (_ & E). congruence.
        -- destruct (dget k l) as [j|] eqn:E; [|reflexivity]. apply G in E. destruct E as (_ & E). congruence.
      * destruct (dget k l) as [j|] eqn:E; [|reflexivity]. apply G in E. now destruct E.
    + intros k c I Hk. apply (O k c I). destruct (H k I). congruence.
  - destruct P as (k & c & -> & I & NO & E). exists k, c. destruct (H k I). repeat split; try assumption. congruence.
Qed.
Print Assumptions module_presents_device.

(** ** All of it together: an object, the protocol, the KLAP transport, the network and a device whose
    answers do not change meanwhile.  While nothing goes wrong the update succeeds, the object has
    what the device says, and so do the modules whose methods were asked for. *)
Theorem update_over_klap_shows_device : forall md5 sha1 sha256 enc_block dec_block json_loads S app auth c encode script x b
    ans par val init now d w' d' r out y o,
  Klap_Spec.crypto_ok sha256 enc_block dec_block ->
  In auth (Klap_Model.candidates md5 sha1 sha256 c) ->
  klap_fresh md5 sha1 sha256 enc_block dec_block json_loads S app auth c x ->
  perform (smart_ask (stack_send _ _ S _ _ (klap_client md5 sha1 sha256 enc_block dec_block json_loads c) encode as_dict script)
             (stack_reset _ _ S Klap_Model.klap_reset)) (update_object par init now d Ret)
    (mkW (mkStack (fst x) 0 []) b []) = (w', (d', r, out)) ->
  KlapPeer_Spec.together md5 sha1 sha256 enc_block dec_block json json_loads S app auth c
    x (klap_happenings (k_trace (wdev w'))) y o ->
  KlapPeer_Spec.all_healthy sha256 S auth (klap_happenings (k_trace (wdev w'))) ->
  (let device := direct_send _ S _ _ encode as_dict script app (KlapPeer_Spec.understood json json_loads) in
   honest device ans /\ live device /\ complete device) ->
  2 <= b -> started d = true -> dwf (lu d) ->
  (forall req k, requested r = Some req -> In k req -> known ans k (par k) (val k)) ->
  exists req, requested r = Some req /\
    (forall k, dget k (lu d') = then_shown req val (fun k => dget k (lu d)) k) /\
    (out = Ok tt <-> In "get_device_info" req /\ exists i, informs (val "get_device_info") i) /\
    (out = Ok tt -> informs (val "get_device_info") (info d')) /\
    (forall m, m_query m <> [] -> (forall k, In k (m_query m) -> In k req) ->
       presents (m_query m) (m_optional m) (fun k => Some (shown req (val k))) (data m (lu d') None (info d'))).
Proof.
  intros md5 sha1 sha256 enc_block dec_block json_loads S app auth c encode script x b ans par val init now d w' d' r out y o
    H1 H2 H3 H H4 H5 (Hh & Hl & Hc) Hb Hs Hd Hv.
  destruct (program_over_klap _ _ _ _ _ _ _ _ _ _ _ _ _ _ _ _ _ _ _ _ H1 H2 H3 H H4 H5) as (v' & E & _ & _).
  destruct (update_shows_device _ _ ans _ par val init now d (mkW (KlapPeer_Spec.dv_state (snd x), 0%nat) b []) v' d' r out Hh Hl Hc Hb Hs Hd E Hv) as (req & Q & _ & W & _ & G & O & I).
  exists req. split; [exact Q|]. split; [exact G|]. split; [exact O|]. split; [exact I|]. intros m N A.
  apply module_presents_device; [exact W|exact N|]. intros k K. rewrite G. unfold then_shown.
  destruct (in_dec string_dec k req) as [_|X]; [split; [reflexivity|discriminate]|]. exfalso. apply X. auto.
Qed.
Print Assumptions update_over_klap_shows_device.
Theorem first_update_over_klap_shows_device : forall md5 sha1 sha256 enc_block dec_block json_loads S app auth c encode script x b
    ans par val init now d w' d' r out i y o,
  Klap_Spec.crypto_ok sha256 enc_block dec_block ->
  In auth (Klap_Model.candidates md5 sha1 sha256 c) ->
  klap_fresh md5 sha1 sha256 enc_block dec_block json_loads S app auth c x ->
  perform (smart_ask (stack_send _ _ S _ _ (klap_client md5 sha1 sha256 enc_block dec_block json_loads c) encode as_dict script)
             (stack_reset _ _ S Klap_Model.klap_reset)) (update_object par init now d Ret)
    (mkW (mkStack (fst x) 0 []) b []) = (w', (d', r, out)) ->
  KlapPeer_Spec.together md5 sha1 sha256 enc_block dec_block json json_loads S app auth c
    x (klap_happenings (k_trace (wdev w'))) y o ->
  KlapPeer_Spec.all_healthy sha256 S auth (klap_happenings (k_trace (wdev w'))) ->
  (let device := direct_send _ S _ _ encode as_dict script app (KlapPeer_Spec.understood json json_loads) in
   honest device ans /\ live device /\ complete device) ->
  2 <= b -> d = new_dev ->
  (forall k, In k first_methods -> known ans k JNull (val k)) ->
  informs (val "get_device_info") i ->
  (forall resp, (forall k, dget k resp = if in_dec string_dec k first_methods then Some (shown first_methods (val k)) else None) -> exists l, init resp = Ok l) ->
  (forall req k, requested r = Some req -> In k req -> known ans k (par k) (val k)) ->
  exists req, requested r = Some req /\ out = Ok tt /\ info d' = i /\
    (forall k, dget k (lu d') = then_shown req val (then_shown first_methods val (fun _ => None)) k) /\
    (forall m, m_query m <> [] -> (forall k, In k (m_query m) -> In k req) ->
       presents (m_query m) (m_optional m) (fun k => Some (shown req (val k))) (data m (lu d') None (info d'))).
Proof.
  intros md5 sha1 sha256 enc_block dec_block json_loads S app auth c encode script x b ans par val init now d w' d' r out i y o
    H1 H2 H3 H H4 H5 (Hh & Hl & Hc) Hb -> Hf Hi Hin Hv.
  destruct (program_over_klap _ _ _ _ _ _ _ _ _ _ _ _ _ _ _ _ _ _ _ _ H1 H2 H3 H H4 H5) as (v' & E & _ & _).
  destruct (first_update_shows_device _ _ ans _ par val init now new_dev (mkW (KlapPeer_Spec.dv_state (snd x), 0%nat) b []) v' d' r out i Hh Hl Hc Hb eq_refl dwf_nil Hf Hi Hin E Hv) as (req & Q & _ & W & _ & G & O & I).
  exists req. split; [exact Q|]. split; [exact O|]. split; [exact I|]. split; [exact G|]. intros m N A.
  apply module_presents_device; [exact W|exact N|]. intros k K. rewrite G. unfold then_shown at 1.
  destruct (in_dec string_dec k req) as [_|X]; [split; [reflexivity|discriminate]|]. exfalso. apply X. auto.
Qed.
Print Assumptions first_update_over_klap_shows_device.

(** The same over the AES transport and over HTTPS *)
Theorem update_over_aes_shows_device : forall enc_block dec_block json_loads open_key login_text S app accepts welcome refusal encode script x b
    ans par val init now d w' d' r out y o,
  Aes_Props.cipher_ok enc_block dec_block ->
  AesPeer_Spec.speaks json_loads S app welcome refusal ->
  AesPeer_Spec.knows login_text accepts ->
  aes_fresh enc_block dec_block json_loads open_key login_text S app accepts welcome refusal x ->
  perform (smart_ask (stack_send _ _ S _ _ (aes_client enc_block dec_block json_loads open_key login_text) encode as_dict script)
             (stack_reset _ _ S Aes_Model.reset)) (update_object par init now d Ret)
    (mkW (mkStack (fst x) 0 []) b []) = (w', (d', r, out)) ->
  AesPeer_Spec.together enc_block dec_block json_loads open_key login_text S app accepts welcome refusal
    x (aes_happenings (k_trace (wdev w'))) y o ->
  AesPeer_Spec.all_healthy S (aes_happenings (k_trace (wdev w'))) ->
  (let device := direct_send _ S _ _ encode as_dict script app (AesPeer_Spec.understood json_loads) in
   honest device ans /\ live device /\ complete device) ->
  2 <= b -> started d = true -> dwf (lu d) ->
  (forall req k, requested r = Some req -> In k req -> known ans k (par k) (val k)) ->
  exists req, requested r = Some req /\
    (forall k, dget k (lu d') = then_shown req val (fun k => dget k (lu d)) k) /\
    (out = Ok tt <-> In "get_device_info" req /\ exists i, informs (val "get_device_info") i) /\
    (out = Ok tt -> informs (val "get_device_info") (info d')) /\
    (forall m, m_query m <> [] -> (forall k, In k (m_query m) -> In k req) ->
       presents (m_query m) (m_optional m) (fun k => Some (shown req (val k))) (data m (lu d') None (info d'))).
Proof.
  intros enc_block dec_block json_loads open_key login_text S app accepts welcome refusal encode script x b ans par val init now d w' d' r out y o
    H1 H2 H3 H4 H HT HH (Hh & Hl & Hc) Hb Hs Hd Hv.
  edestruct program_over_aes as (v' & E & _ & _); [exact H1|exact H2|exact H3|exact H4|exact H|exact HT|exact HH|].
  destruct (update_shows_device _ _ ans _ par val init now d (mkW (AesPeer_Spec.dv_state (snd x), 0%nat) b []) v' d' r out Hh Hl Hc Hb Hs Hd E Hv) as (req & Q & _ & W & _ & G & O & I).
  exists req. split; [exact Q|]. split; [exact G|]. split; [exact O|]. split; [exact I|]. intros m N A.
  apply module_presents_device; [exact W|exact N|]. intros k K. rewrite G. unfold then_shown.
  destruct (in_dec string_dec k req) as [_|X]; [split; [reflexivity|discriminate]|]. exfalso. apply X. auto.
Qed.
Print Assumptions update_over_aes_shows_device.
Theorem update_over_https_shows_device : forall json_loads S app accepts encode script x b
    ans par val init now d w' d' r out y o,
  SslPeer_Spec.knows accepts ->
  ssl_fresh json_loads S app accepts x ->
  perform (smart_ask (stack_send _ _ S _ _ ssl_client encode as_dict script)
             (stack_reset _ _ S Ssl_Model.reset)) (update_object par init now d Ret)
    (mkW (mkStack (fst x) 0 []) b []) = (w', (d', r, out)) ->
  SslPeer_Spec.together json_loads S app accepts
    x (ssl_happenings (k_trace (wdev w'))) y o ->
  SslPeer_Spec.all_healthy S (ssl_happenings (k_trace (wdev w'))) ->
  (let device := direct_send _ S _ _ encode as_dict script app (SslPeer_Spec.understood json_loads) in
   honest device ans /\ live device /\ complete device) ->
  2 <= b -> started d = true -> dwf (lu d) ->
  (forall req k, requested r = Some req -> In k req -> known ans k (par k) (val k)) ->
  exists req, requested r = Some req /\
    (forall k, dget k (lu d') = then_shown req val (fun k => dget k (lu d)) k) /\
    (out = Ok tt <-> In "get_device_info" req /\ exists i, informs (val "get_device_info") i) /\
    (out = Ok tt -> informs (val "get_device_info") (info d')) /\
    (forall m, m_query m <> [] -> (forall k, In k (m_query m) -> In k req) ->
       presents (m_query m) (m_optional m) (fun k => Some (shown req (val k))) (data m (lu d') None (info d'))).
Proof.
  intros json_loads S app accepts encode script x b ans par val init now d w' d' r out y o
    H1 H2 H HT HH (Hh & Hl & Hc) Hb Hs Hd Hv.
  edestruct program_over_https as (v' & E & _ & _); [exact H1|exact H2|exact H|exact HT|exact HH|].
  destruct (update_shows_device _ _ ans _ par val init now d (mkW (SslPeer_Spec.dv_state (snd x), 0%nat) b []) v' d' r out Hh Hl Hc Hb Hs Hd E Hv) as (req & Q & _ & W & _ & G & O & I).
  exists req. split; [exact Q|]. split; [exact G|]. split; [exact O|]. split; [exact I|]. intros m N A.
  apply module_presents_device; [exact W|exact N|]. intros k K. rewrite G. unfold then_shown.
  destruct (in_dec string_dec k req) as [_|X]; [split; [reflexivity|discriminate]|]. exfalso. apply X. auto.
Qed.
Print Assumptions update_over_https_shows_device.
Theorem first_update_over_aes_shows_device : forall enc_block dec_block json_loads open_key login_text S app accepts welcome refusal encode script x b
    ans par val init now d w' d' r out i y o,
  Aes_Props.cipher_ok enc_block dec_block ->
  AesPeer_Spec.speaks json_loads S app welcome refusal ->
  AesPeer_Spec.knows login_text accepts ->
  aes_fresh enc_block dec_block json_loads open_key login_text S app accepts welcome refusal x ->
  perform (smart_ask (stack_send _ _ S _ _ (aes_client enc_block dec_block json_loads open_key login_text) encode as_dict script)
             (stack_reset _ _ S Aes_Model.reset)) (update_object par init now d Ret)
    (mkW (mkStack (fst x) 0 []) b []) = (w', (d', r, out)) ->
  AesPeer_Spec.together enc_block dec_block json_loads open_key login_text S app accepts welcome refusal
    x (aes_happenings (k_trace (wdev w'))) y o ->
  AesPeer_Spec.all_healthy S (aes_happenings (k_trace (wdev w'))) ->
  (let device := direct_send _ S _ _ encode as_dict script app (AesPeer_Spec.understood json_loads) in
   honest device ans /\ live device /\ complete device) ->
  2 <= b -> d = new_dev ->
  (forall k, In k first_methods -> known ans k JNull (val k)) ->
  informs (val "get_device_info") i ->
  (forall resp, (forall k, dget k resp = if in_dec string_dec k first_methods then Some (shown first_methods (val k)) else None) -> exists l, init resp = Ok l) ->
  (forall req k, requested r = Some req -> In k req -> known ans k (par k) (val k)) ->
  exists req, requested r = Some req /\ out = Ok tt /\ info d' = i /\
    (forall k, dget k (lu d') = then_shown req val (then_shown first_methods val (fun _ => None)) k) /\
    (forall m, m_query m <> [] -> (forall k, In k (m_query m) -> In k req) ->
       presents (m_query m) (m_optional m) (fun k => Some (shown req (val k))) (data m (lu d') None (info d'))).
Proof.
  intros enc_block dec_block json_loads open_key login_text S app accepts welcome refusal encode script x b ans par val init now d w' d' r out i y o
    H1 H2 H3 H4 H HT HH (Hh & Hl & Hc) Hb -> Hf Hi Hin Hv.
  edestruct program_over_aes as (v' & E & _ & _); [exact H1|exact H2|exact H3|exact H4|exact H|exact HT|exact HH|].
  destruct (first_update_shows_device _ _ ans _ par val init now new_dev (mkW (AesPeer_Spec.dv_state (snd x), 0%nat) b []) v' d' r out i Hh Hl Hc Hb eq_refl dwf_nil Hf Hi Hin E Hv) as (req & Q & _ & W & _ & G & O & I).
  exists req. split; [exact Q|]. split; [exact O|]. split; [exact I|]. split; [exact G|]. intros m N A.
  apply module_presents_device; [exact W|exact N|]. intros k K. rewrite G. unfold then_shown at 1.
  destruct (in_dec string_dec k req) as [_|X]; [split; [reflexivity|discriminate]|]. exfalso. apply X. auto.
Qed.
Print Assumptions first_update_over_aes_shows_device.
Theorem first_update_over_https_shows_device : forall json_loads S app accepts encode script x b
    ans par val init now d w' d' r out i y o,
  SslPeer_Spec.knows accepts ->
  ssl_fresh json_loads S app accepts x ->
  perform (smart_ask (stack_send _ _ S _ _ ssl_client encode as_dict script)
             (stack_reset _ _ S Ssl_Model.reset)) (update_object par init now d Ret)
    (mkW (mkStack (fst x) 0 []) b []) = (w', (d', r, out)) ->
  SslPeer_Spec.together json_loads S app accepts
    x (ssl_happenings (k_trace (wdev w'))) y o ->
  SslPeer_Spec.all_healthy S (ssl_happenings (k_trace (wdev w'))) ->
  (let device := direct_send _ S _ _ encode as_dict script app (SslPeer_Spec.understood json_loads) in
   honest device ans /\ live device /\ complete device) ->
  2 <= b -> d = new_dev ->
  (forall k, In k first_methods -> known ans k JNull (val k)) ->
  informs (val "get_device_info") i ->
  (forall resp, (forall k, dget k resp = if in_dec string_dec k first_methods then Some (shown first_methods (val k)) else None) -> exists l, init resp = Ok l) ->
  (forall req k, requested r = Some req -> In k req -> known ans k (par k) (val k)) ->
  exists req, requested r = Some req /\ out = Ok tt /\ info d' = i /\
    (forall k, dget k (lu d') = then_shown req val (then_shown first_methods val (fun _ => None)) k) /\
    (forall m, m_query m <> [] -> (forall k, In k (m_query m) -> In k req) ->
       presents (m_query m) (m_optional m) (fun k => Some (shown req (val k))) (data m (lu d') None (info d'))).
Proof.
  intros json_loads S app accepts encode script x b ans par val init now d w' d' r out i y o
    H1 H2 H HT HH (Hh & Hl & Hc) Hb -> Hf Hi Hin Hv.
  edestruct program_over_https as (v' & E & _ & _); [exact H1|exact H2|exact H|exact HT|exact HH|].
  destruct (first_update_shows_device _ _ ans _ par val init now new_dev (mkW (SslPeer_Spec.dv_state (snd x), 0%nat) b []) v' d' r out i Hh Hl Hc Hb eq_refl dwf_nil Hf Hi Hin E Hv) as (req & Q & _ & W & _ & G & O & I).
  exists req. split; [exact Q|]. split; [exact O|]. split; [exact I|]. split; [exact G|]. intros m N A.
  apply module_presents_device; [exact W|exact N|]. intros k K. rewrite G. unfold then_shown at 1.
  destruct (in_dec string_dec k req) as [_|X]; [split; [reflexivity|discriminate]|]. exfalso. apply X. auto.
Qed.
Print Assumptions first_update_over_https_shows_device.

(** ** Where it fails: the same device, the same error; asked for together with another method the
    object knows the device's code, asked for alone a general one. *)
Definition lonely : smod := mkMod "Lonely" ["get_b"] 0 [] false None.
Definition other : smod := mkMod "Other" ["get_a"] 0 [] false None.
Definition having (l : list smod) : dev := mkDev (map (fun m => (m, fresh)) l) [("get_b", RVal (JInt 1))] (JObj []) true false.
Theorem error_code_kept_refuted :
  honest Smart_Props.full_send Smart_Props.demo_ans /\ live Smart_Props.full_send /\ complete Smart_Props.full_send /\
  let after l := fst (fst (snd (perform (smart_ask Smart_Props.full_send S) (update_object (fun _ => JNull) ex_init 5 (having l) Ret) (mkW 0%nat 5 [])))) in
  data lonely (lu (after [lonely; other])) None JNull = Err (KDevice (Some (-1001))) /\
  data lonely (lu (after [lonely])) None JNull = Err (KDevice (Some (-100001))).
Proof.
  split; [exact Smart_Props.full_honest|]. split; [exact Smart_Props.full_live|]. split; [exact Smart_Props.full_complete|]. split; vm_compute; reflexivity.
Qed.
Print Assumptions error_code_kept_refuted.

(** ** Examples.  A device that says of every method its name; its messages are written with two
    letters for one. *)
Definition spell (m : string) : bytes := flat_map (fun c => ["a"%char; c]) (list_ascii_of_string m).
Definition wx_text (n : nat) (r : Smart_Model.request) : bytes :=
  match r with
  | Single m _ => "S"%char :: spell m ++ ["b"%char]
  | Batch l => "B"%char :: flat_map (fun x : string * option json => spell (fst x) ++ ["b"%char]) l
  end.
Fixpoint names (b cur : bytes) : list string :=
  match b with
  | "a"%char :: c :: b => names b (cur ++ [c])
  | "b"%char :: b => string_of_list_ascii cur :: names b []
  | _ => []
  end.
Definition wx_ans (m : string) (p : option json) : answer :=
  if String.eqb m "get_bad" then AError (-1008) else AResult (JObj [("name", JStr m)]).
Definition wx_reply (m : string) : dict json :=
  ("method", JStr m) :: match wx_ans m None with AResult j => [("error_code", JInt 0); ("result", j)] | AError c => [("error_code", JInt c)] end.
Definition wx_json (b : bytes) : option (option json) :=
  Some (Some (JObj (match b with
    | "S"%char :: b => match names b [] with m :: _ => wx_reply m | [] => [] end
    | _ :: b => [("error_code", JInt 0); ("result", JObj [("responses", JArr (map (fun m => JObj (wx_reply m)) (names b [])))])]
    | [] => []
    end))).
(** It counts the messages. *)
Definition wx_app (s : nat) (m : bytes) : nat * bytes := (Datatypes.S s, m).
Lemma names_spell m : forall cur rest, names (spell m ++ "b"%char :: rest) cur = string_of_list_ascii (cur ++ list_ascii_of_string m) :: names rest [].
Proof.
  unfold spell. induction (list_ascii_of_string m) as [|c l IH]; intros cur rest; cbn [flat_map List.app names]; [now rewrite app_nil_r|].
  rewrite IH, <- app_assoc. reflexivity.
Qed.
Lemma names_text l : names (flat_map (fun x : string * option json => spell (fst x) ++ ["b"%char]) l) [] = map fst l.
Proof.
  induction l as [|[m p] l IH]; [reflexivity|]. cbn [flat_map map fst]. rewrite <- app_assoc. cbn [List.app]. rewrite names_spell, IH. cbn [List.app].
  now rewrite string_of_list_ascii_of_string.
Qed.
Definition wx_device script := direct_send (option (string -> bool) * KlapPeer_Spec.choice * Klap_Model.world) nat _ _ wx_text as_dict script wx_app (KlapPeer_Spec.understood json wx_json).
Lemma wx_single script d m p : wx_device script d (Single m p) = ((Datatypes.S (fst (script (snd d)) (fst d)), Datatypes.S (snd d)), Ok (wx_reply m)).
Proof.
  unfold wx_device, direct_send, wx_app, wx_text, KlapPeer_Spec.understood, wx_json. rewrite names_spell. cbn [List.app].
  now rewrite string_of_list_ascii_of_string.
Qed.
Lemma wx_batch script d l : wx_device script d (Batch l) = ((Datatypes.S (fst (script (snd d)) (fst d)), Datatypes.S (snd d)),
  Ok [("error_code", JInt 0); ("result", JObj [("responses", JArr (map (fun m => JObj (wx_reply m)) (map fst l)))])]).
Proof. unfold wx_device, direct_send, wx_app, wx_text, KlapPeer_Spec.understood, wx_json. cbn [fst snd]. rewrite names_text. reflexivity. Qed.
Lemma wx_reports m p : reports (wx_ans m p) (wx_reply m).
Proof.
  assert (E : wx_ans m p = wx_ans m None) by reflexivity. rewrite E. unfold wx_reply, wx_ans. destruct (String.eqb m "get_bad"); cbn; [split; [discriminate|reflexivity]|auto].
Qed.
Lemma wx_named m : m <> "" -> named m (wx_reply m).
Proof. intros N. split; [exact N|reflexivity]. Qed.
Lemma wx_fine script : honest (wx_device script) wx_ans /\ live (wx_device script) /\ complete (wx_device script).
Proof.
  split; [|split].
  - intros d req d' reply H. destruct req as [m p|l].
    + rewrite wx_single in H. pose proof (f_equal snd H) as E. cbn [snd] in E. injection E as <-. apply wx_reports.
    + rewrite wx_batch in H. pose proof (f_equal snd H) as E. cbn [snd] in E. injection E as <-. split; [reflexivity|].
      eexists _, _. split; [reflexivity|]. split; [reflexivity|]. apply Forall_forall. intros x Hx. rewrite map_map in Hx. apply in_map_iff in Hx.
      destruct Hx as ([m p] & <- & I). cbn [fst]. exists (wx_reply m). split; [reflexivity|]. destruct (string_dec m "") as [->|N]; [left; right; right; reflexivity|].
      right. exists m, p. split; [exact I|]. split; [now apply wx_named|apply wx_reports].
  - intros d [m p|l]; [rewrite wx_single|rewrite wx_batch]; eauto.
  - intros d l d' reply r rs H Hr Hs m p Hi Hn. rewrite wx_batch in H. pose proof (f_equal snd H) as E. cbn [snd] in E. injection E as <-.
    injection Hr as <-. injection Hs as <-. exists (wx_reply m). split; [|now apply wx_named]. rewrite map_map. apply in_map_iff. exists (m, p). now split.
Qed.
Definition wx_val (m : string) : rval := if String.eqb m "get_bad" then RCode (-1008) else RJson (JObj [("name", JStr m)]).
Lemma wx_known m p : known wx_ans m p (wx_val m).
Proof.
  assert (S1 : simple wx_ans m (eff_params p) (wx_val m)).
  { unfold wx_val. destruct (String.eqb m "get_bad") eqn:E.
    - change (RCode (-1008)) with (RCode (reported_code (-1008))). apply simple_code. unfold wx_ans. now rewrite E.
    - apply simple_plain; [unfold wx_ans; now rewrite E| |right; eauto]. intros d Hd. now injection Hd as <-. }
  split; [now constructor|auto].
Qed.
Definition meter : smod := mkMod "Meter" ["get_power"; "get_bad"] 0 ["get_bad"] false None.
Definition wx_init (r : dict reply) : res (list smod) := Ok [dm; auto_off; meter].

Section ExKlap.
Import Klap_Model KlapPeer_Spec KlapPeer_Props.
Fixpoint wx_feed (h : choice) (w : Klap_Model.world) (d : device nat) (p : list post) : Klap_Model.world :=
  match p with
  | [] => w
  | PHandshake1 seed :: p =>
      let (d1, r) := on_handshake1 toy2_sha nat V2 my_auth h seed d in
      wx_feed h (mkWorld (w_now w) (w_seed w) r (w_cookie w) (w_timeout w) (w_now1 w) (w_h2 w) (w_req w)) d1 p
  | PHandshake2 y ck :: p =>
      let (d1, r) := on_handshake2 toy2_sha nat V2 my_auth h y ck d in
      wx_feed h (mkWorld (w_now w) (w_seed w) (w_h1 w) (w_cookie w) (w_timeout w) (w_now1 w) r (w_req w)) d1 p
  | PRequest _ q pl ck :: p =>
      let (d1, r) := on_request toy2_sha (fun _ b => b) (fun _ b => b) nat wx_app my_auth h ck q pl d in
      wx_feed h (mkWorld (w_now w) (w_seed w) (w_h1 w) (w_cookie w) (w_timeout w) (w_now1 w) (w_h2 w) r) d1 p
  end.
Definition wx_send := klap_send toy2_md5 toy2_md5 toy2_sha (fun _ b => b) (fun _ b => b) json wx_json my_config.
Definition wx_arranged (h : choice) (now : Z) (t : transport) (d : device nat) (m : bytes) : Klap_Model.world :=
  again 3 (fun w => wx_feed h w d (snd (fst (wx_send w t m))))
    (mkWorld now (lit "localseed-123456") (Err KKasa) (Some (h_cookie h)) (Timeout (h_life h)) (now + 1) (Err KKasa) (Err KKasa)).
Definition wx_m1 : bytes := Eval vm_compute in wx_text 0 (Batch [("component_nego", None); ("get_device_info", None); ("get_connect_cloud_state", None)]).
Definition wx_m2 : bytes := Eval vm_compute in wx_text 1 (Batch [("get_auto_off_config", None); ("get_power", None); ("get_bad", None)]).
Definition wx_w1 := Eval vm_compute in wx_arranged (fine 0 "a") 0 init d0 wx_m1.
Definition wx_t1 := Eval vm_compute in fst (fst (wx_send wx_w1 init wx_m1)).
Definition wx_w2 := Eval vm_compute in wx_arranged (fine 10 "b") 10 wx_t1 (mkDev (dv_sessions d1) 6%nat) wx_m2.
Definition wx_script (n : nat) : (nat -> nat) * (option (string -> bool) * choice * Klap_Model.world) :=
  match n with O => (fun s => s, (None, fine 0 "a", wx_w1)) | _ => (fun s => s, (None, fine 10 "b", wx_w2)) end.
Notation wx_together := (together toy2_md5 toy2_md5 toy2_sha (fun _ b => b) (fun _ b => b) json wx_json nat wx_app my_auth my_config).
Notation wx_client := (klap_client toy2_md5 toy2_md5 toy2_sha (fun _ b => b) (fun _ b => b) wx_json my_config).
Notation wx_ask := (smart_ask (stack_send _ _ nat _ _ wx_client wx_text as_dict wx_script) (stack_reset _ _ nat klap_reset)).
Example first_update_over_klap_ex :
  (forall k p, known wx_ans k p (wx_val k)) /\
  klap_fresh toy2_md5 toy2_md5 toy2_sha (fun _ b => b) (fun _ b => b) wx_json nat wx_app my_auth my_config (init, d0) /\
  (honest (wx_device wx_script) wx_ans /\ live (wx_device wx_script) /\ complete (wx_device wx_script)) /\
  exists w' d' r y o,
  perform wx_ask (update_object (fun _ => JNull) wx_init SEC new_dev Ret) (Smart_Model.mkW (mkStack init 0 []) 5 []) = (w', (d', r, Ok tt)) /\
  requested r = Some ["get_auto_off_config"; "get_power"; "get_bad"] /\
  data meter (lu d') None (info d') = Ok (Many [("get_power", JObj [("name", JStr "get_power")])]) /\
  wx_together (init, d0) (klap_happenings (k_trace (wdev w'))) y o /\
  all_healthy toy2_sha nat my_auth (klap_happenings (k_trace (wdev w'))) /\ dv_state (snd y) = 7%nat.
Proof.
  split; [exact wx_known|]. split; [exists d0, [], init, []; split; [constructor|now left]|]. split; [apply wx_fine|].
  do 5 eexists. split; [vm_compute; reflexivity|]. split; [reflexivity|]. split; [vm_compute; reflexivity|]. cbn [wdev k_trace klap_happenings flat_map List.app]. split; [|split].
  - apply together_device. show_send. apply together_device. show_send. apply together_nil.
  - cbn [all_healthy]. unfold healthy. repeat split; vm_compute; congruence.
  - reflexivity.
Qed.
(** An update of an object that was updated before, and a setter between two updates. *)
Definition wx_old : dev := Smod_Model.mkDev [(dm, fresh); (meter, fresh)] [("get_auto_off_config", RVal (JInt 7))] JNull true false.
Example update_shows_device_ex :
  started wx_old = true /\ dwf (lu wx_old) /\
  exists w' d' r, perform (smart_ask (wx_device wx_script) (fun y => y)) (update_object (fun _ => JNull) wx_init (9 * SEC) wx_old Ret)
    (Smart_Model.mkW (5%nat, 0%nat) 5 []) = (w', (d', r, Ok tt)) /\
  requested r = Some ["get_device_info"; "get_power"; "get_bad"] /\ dget "get_bad" (lu d') = Some (RErr (-1008)) /\
  dget "get_auto_off_config" (lu d') = Some (RVal (JInt 7)) /\ info d' = JObj [("name", JStr "get_device_info")].
Proof.
  split; [reflexivity|]. split; [repeat constructor; cbn; intuition discriminate|]. do 3 eexists. split; [vm_compute; reflexivity|]. repeat split.
Qed.
Example session_is_history_ex : exists w' d' o1 o2,
  perform (smart_ask (wx_device wx_script) (fun y => y))
    (Whole_Model.session (fun _ => JNull) [UUpdate wx_init SEC; USetter "Meter" [("set_power", JNull)]; UUpdate wx_init (2 * SEC)] new_dev Ret)
    (Smart_Model.mkW (5%nat, 0%nat) 5 []) = (w', (d', [o1; DidSet "Meter" (Ok [("set_power", RJson (JObj [("name", JStr "set_power")]))]); o2])) /\
  fst (wdev w') = 9%nat.
Proof. do 4 eexists. split; [vm_compute; reflexivity|]. reflexivity. Qed.
End ExKlap.
(** Cases of [program_over_aes], [program_over_https] and [program_over_camera]: the conversations in
    [Stack_Props] and [Stack2_Props], which meet the same conditions. *)

(** C21-C24, C64, C65: configurations, selection of the protocol, connecting. *)
From Verif Require Import Base Base_Lemmas Py Factory_Model Factory_Spec Factory_Proofs.
Open Scope string_scope.
Open Scope list_scope.
Open Scope Z_scope.

(** * C21 *)
(** A configuration with a timeout is restored exactly, but for the HTTP client. *)
Theorem config_round_trip_partial : forall c, timeout c <> None ->
  from_dict (to_dict c) = Ok (mkConf (host c) (timeout c) (port_override c) (creds c) (creds_hash c)
                                     (batch_size c) (conn c) None (aes_keys c)).
Proof. intros c H. rewrite config_round_trip_lemma. unfold restored. now destruct (timeout c). Qed.
Print Assumptions config_round_trip_partial.
Example config_round_trip_ex :
  let c := mkConf "127.0.0.1" (Some 9) (Some 123) (Some ("user", "pass")) (Some "hash") None
             (mkParams SmartTapoHub Klap (Some 2) true (Some 4433)) (Some 7%nat) (Some ("priv", "pub")) in
  timeout c <> None /\ from_dict (to_dict c) <> Ok c.
Proof. split; discriminate. Qed.

(** "No timeout" is not restored: it becomes the default of five seconds. *)
Theorem config_timeout_refuted : exists c c', client c = None /\ from_dict (to_dict c) = Ok c' /\
  timeout c = None /\ timeout c' = Some 5.
Proof.
  exists (mkConf "127.0.0.1" None None None None None default_params None None), (default_config "127.0.0.1").
  vm_compute. auto.
Qed.
Print Assumptions config_timeout_refuted.

(** Credentials in the dictionary: with a supplied hash there are no credentials
    and the hash is the one supplied, or absent when it is empty; when credentials
    are excluded there are none; nothing else changes. *)
Theorem config_credentials_controlled : forall c hash exclude,
  let d := to_dict_control c hash exclude in
  dget "credentials" d = (if negb exclude && (match hash with None => true | Some _ => false end)
                          then dget "credentials" (to_dict c) else None) /\
  dget "credentials_hash" d = (match hash with
                               | None => dget "credentials_hash" (to_dict c)
                               | Some "" => None
                               | Some h => Some (JStr h)
                               end) /\
  forall k, k <> "credentials" -> k <> "credentials_hash" -> dget k d = dget k (to_dict c).
Proof.
  intros c hash exclude d. subst d.
  assert (Hk : forall h k, k <> "credentials" -> k <> "credentials_hash" ->
     dget k (to_dict (with_hash c h)) = dget k (to_dict c)).
  { intros h k H1 H2. unfold to_dict. rewrite !dget_app_opt, !dget_opt.
    apply String.eqb_neq in H1, H2. rewrite H1, H2. reflexivity. }
  unfold to_dict_control. destruct hash as [h|].
  - rewrite andb_false_r, f_creds, f_hash. cbn [creds creds_hash with_hash option_map]. split; [reflexivity|].
    split; [|intros k; apply Hk]. destruct (String.eqb h "") eqn:E.
    + apply String.eqb_eq in E. subst h. reflexivity.
    + destruct h; [discriminate | reflexivity].
  - destruct exclude; [|now repeat split]. change (without_creds c) with (with_hash c (creds_hash c)).
    rewrite f_creds, !f_hash. split; [reflexivity|]. split; [reflexivity|]. intro k. apply Hk.
Qed.
Print Assumptions config_credentials_controlled.
Example config_credentials_ex :
  let c := mkConf "h" (Some 5) None (Some ("user", "pass")) (Some "old") None default_params None None in
  dget "credentials" (to_dict c) <> None /\
  dget "credentials_hash" (to_dict_control c (Some "new") false) = Some (JStr "new").
Proof. split; [discriminate | reflexivity]. Qed.

(** * C22 *)
Theorem parameters_from_values : forall fam enc login tls port,
  ((In fam known_families /\ In enc known_encryptions) ->
     exists p, from_values (JStr fam) (JStr enc) login tls port = Ok p /\
       family_value (family_ p) = fam /\ enc_value (enc_ p) = enc /\ login_version p = login /\
       https p = (match tls with Some b => b | None => false end) /\ http_port p = port) /\
  (~ (In fam known_families /\ In enc known_encryptions) ->
     from_values (JStr fam) (JStr enc) login tls port = Err KKasa).
Proof.
  intros fam enc login tls port. rewrite known_family, known_encryption. split.
  - intros [[f ->] [e ->]]. unfold from_values. rewrite family_of_value, enc_of_value. eexists. split; [reflexivity|].
    repeat split.
  - intro H. unfold from_values. destruct (family_of (JStr fam)) as [f|] eqn:E1; [|reflexivity].
    destruct (enc_of (JStr enc)) as [e|] eqn:E2; [|reflexivity]. elim H.
    apply family_of_inv in E1. apply enc_of_inv in E2. injection E1 as ->. injection E2 as ->. eauto.
Qed.
Print Assumptions parameters_from_values.
(** Anything that is not a string is rejected too. *)
Theorem parameters_from_other_values : forall fam enc login tls port,
  (forall s, fam <> JStr s) \/ (forall s, enc <> JStr s) -> from_values fam enc login tls port = Err KKasa.
Proof.
  intros fam enc login tls port H. unfold from_values. destruct (family_of fam) as [f|] eqn:E1; [|reflexivity].
  destruct (enc_of enc) as [e|] eqn:E2; [|reflexivity]. apply family_of_inv in E1. apply enc_of_inv in E2.
  destruct H as [H|H]; [elim (H _ E1) | elim (H _ E2)].
Qed.
Print Assumptions parameters_from_other_values.
Example parameters_ex :
  In "SMART.TAPOHUB" known_families /\ ~ In "SMART.TAPOSENSOR" known_families /\
  from_values (JStr "SMART.TAPOSENSOR") (JStr "AES") None None None = Err KKasa /\
  from_values (JStr "SMART.TAPOHUB") JNull None None None = Err KKasa.
Proof.
  split; [cbn; tauto|]. split; [|split; reflexivity].
  cbn. intro H. repeat (destruct H as [H|H]; [discriminate|]). exact H.
Qed.

(** * C23 *)
Theorem protocol_selection : forall p strict,
  get_protocol p strict =
    if strict && negb (strict_ok (family_ p) (enc_ p)) then None
    else expected_protocol (family_ p) (enc_ p) (https p).
Proof. intros [f e l h po] strict. apply protocol_table. Qed.
Print Assumptions protocol_selection.
Theorem strict_is_stricter : forall p x, get_protocol p true = Some x -> get_protocol p false = Some x.
Proof.
  intros p x. rewrite !protocol_selection. cbn [andb]. destruct (negb _); [discriminate | auto].
Qed.
Print Assumptions strict_is_stricter.
(** Cameras get the camera transports, and other devices only with AES over TLS;
    legacy devices, and only they, speak the legacy protocol. *)
Theorem cameras_apart : forall p strict pr tr, get_protocol p strict = Some (pr, tr) ->
  (camera (family_ p) = true -> tr = LinkieTransportV2 \/ tr = SslAesTransport) /\
  (tr = LinkieTransportV2 <-> family_ p = IotIpCamera) /\
  (tr = SslAesTransport -> camera (family_ p) = true \/ (https p = true /\ enc_ p = Aes)) /\
  (legacy (family_ p) = true <-> pr = IotProtocol).
Proof.
  intros [f e l h po] strict pr tr. rewrite protocol_table. cbn [family_ enc_ https]. intro H.
  destruct f, e, h, strict; cbn in H; try discriminate H; injection H as <- <-; cbn; repeat split; intro G;
    auto; discriminate.
Qed.
Print Assumptions cameras_apart.
Example selection_ex :
  get_protocol (mkParams SmartIpCamera Klap None true None) false = Some (SmartCamProtocol, SslAesTransport) /\
  get_protocol (mkParams SmartIpCamera Klap None true None) true = None /\
  get_protocol (mkParams IotSmartBulb Aes None false None) false = None.
Proof. repeat split. Qed.

(** Whether HTTP is used is told correctly, except for a camera declared with the
    legacy encryption and no TLS. *)
Theorem uses_http_right : forall c pr tr, get_protocol (conn c) false = Some (pr, tr) ->
  (camera (family_ (conn c)) = true -> enc_ (conn c) = Xor -> https (conn c) = true) ->
  uses_http c = over_http tr.
Proof.
  intros c pr tr. unfold uses_http. destruct (conn c) as [f e l h po]. rewrite protocol_table. cbn [family_ enc_ https andb].
  intros H G. destruct f, e, h; cbn in H; try discriminate H; injection H as <- <-; cbn in *; try reflexivity;
    discriminate (G eq_refl eq_refl).
Qed.
Print Assumptions uses_http_right.
Theorem uses_http_refuted : exists c pr tr, get_protocol (conn c) true = Some (pr, tr) /\ over_http tr = true /\ uses_http c = false.
Proof.
  exists (mkConf "h" (Some 5) None None None None (mkParams IotIpCamera Xor None false None) None None).
  exists IotProtocol, LinkieTransportV2. repeat split.
Qed.
Print Assumptions uses_http_refuted.

(** * C65 *)
Theorem class_and_protocol_partial : forall p pr tr cls,
  get_protocol p false = Some (pr, tr) ->
  class_from_family (family_value (family_ p)) (https p) false = Some cls ->
  (class_protocol cls = pr <-> fits (family_ p) (enc_ p) (https p) = true).
Proof.
  intros [f e l h po] pr tr cls. rewrite protocol_table. cbn [family_ enc_ https andb]. intros H G.
  destruct f, e, h; vm_compute in H; try discriminate H; vm_compute in G; try discriminate G;
    injection H as <- <-; injection G as <-; cbn; split; congruence.
Qed.
Print Assumptions class_and_protocol_partial.
Example class_and_protocol_ex : exists cls,
  get_protocol (mkParams SmartTapoHub Aes None true None) false = Some (SmartCamProtocol, SslAesTransport) /\
  class_from_family (family_value SmartTapoHub) true false = Some cls /\ class_protocol cls = SmartCamProtocol.
Proof. exists SmartCamDevice. repeat split. Qed.
(** A connection that pairs a device with the other device's protocol. *)
Theorem class_and_protocol_refuted : exists w c l d,
  connect w None (Some c) [] = (l, Ok d) /\ family_ (conn c) = SmartIpCamera /\ enc_ (conn c) = Aes /\
  d_class d = SmartDevice /\ fst (d_protocol d) = SmartCamProtocol.
Proof.
  exists (mkWorld (Ok JNull) (Ok tt) (Ok tt) (Ok tt)).
  exists (mkConf "h" (Some 5) None None None None (mkParams SmartIpCamera Aes None false None) None None).
  exists [OCreate (SmartCamProtocol, SslAesTransport); OUpdate], (mkDev SmartDevice "h" (SmartCamProtocol, SslAesTransport)).
  repeat split.
Qed.
Print Assumptions class_and_protocol_refuted.

(** * C24 *)
(** A device is returned only after its update on the open protocol. *)
Theorem connect_ok : forall w h config l d, connect w h config [] = (l, Ok d) ->
  worked w d l /\ closes l = 0%nat /\ creates l = 1%nat /\
  exists c, (config = Some c \/ config = None /\ exists s, h = Some s /\ c = default_config s) /\
    d_host d = host c /\
    expected_protocol (family_ (conn c)) (enc_ (conn c)) (https (conn c)) = Some (d_protocol d) /\
    (d_protocol d <> (IotProtocol, XorTransport) ->
       class_from_family (family_value (family_ (conn c))) (https (conn c)) false = Some (d_class d)).
Proof.
  intros w h config l d. unfold connect.
  set (hh := match h with Some s => negb (String.eqb s "") | None => false end).
  destruct ((hh && _) || _) eqn:Ev; [discriminate|].
  set (c := match h, config with Some s, _ => _ | None, Some c => c | None, None => _ end).
  rewrite protocol_selection. cbn [andb].
  destruct (expected_protocol (family_ (conn c)) (enc_ (conn c)) (https (conn c))) as [pt|] eqn:Ep; [|discriminate].
  destruct (connect_with w c pt ([] ++ [OCreate pt])) as [l' r] eqn:E. destruct r as [d'|e]; [|destruct (w_close w); discriminate].
  intro H. injection H as <- <-. apply connect_with_ok in E. destruct E as (Hp & Hh & tail & -> & Hw & Hc). cbn [app].
  split; [exact Hw|].
  assert (Hcc : closes tail = 0%nat /\ creates tail = 1%nat).
  { destruct Hw as [_ [(_ & _ & ->)|(_ & ->)]]; split; reflexivity. }
  split; [apply Hcc|]. split; [apply Hcc|]. exists c. split.
  - subst c hh. destruct h as [s|], config as [c|]; cbn in *; auto; try discriminate.
    + destruct (String.eqb s ""); [auto | discriminate].
    + right. split; [reflexivity|]. exists s. split; [reflexivity|]. destruct (String.eqb s ""); reflexivity.
  - split; [exact Hh|]. rewrite Hp. split; [exact Ep | exact Hc].
Qed.
Print Assumptions connect_ok.
(** When it raises, a protocol that was created has been closed, once, at the
    end; what is raised is the failure, or the failure to close. *)
Theorem connect_err : forall w h config l e, connect w h config [] = (l, Err e) ->
  l = [] \/ (creates l = 1%nat /\ closes l = 1%nat /\ last l OQuery = OClose).
Proof.
  intros w h config l e. unfold connect.
  set (hh := match h with Some s => negb (String.eqb s "") | None => false end).
  destruct ((hh && _) || _) eqn:Ev; [intro H; injection H as <- <-; auto|].
  set (c := match h, config with Some s, _ => _ | None, Some c => c | None, None => _ end).
  destruct (get_protocol (conn c) false) as [pt|]; [|intro H; injection H as <- <-; auto].
  pose proof (connect_with_ops w c pt ([] ++ [OCreate pt])) as (tail & Hf & Hcl & Hcr).
  destruct (connect_with w c pt ([] ++ [OCreate pt])) as [l' r]. cbn [fst] in Hf. subst l'.
  destruct r; [discriminate|]. intro H. injection H as <- _. right.
  assert (Hadd : forall x y, closes (x ++ y) = (closes x + closes y)%nat /\ creates (x ++ y) = (creates x + creates y)%nat)
    by (intros x y; unfold closes, creates; rewrite !filter_app, !app_length; split; reflexivity).
  split; [|split; [|apply (last_last (OCreate pt :: tail))]].
  - change (creates ((OCreate pt :: tail) ++ [OClose]) = 1%nat). rewrite (proj2 (Hadd _ _)). change (S (creates tail) + 0 = 1)%nat. now rewrite Hcr.
  - change (closes ((OCreate pt :: tail) ++ [OClose]) = 1%nat). rewrite (proj1 (Hadd _ _)). change (closes tail + 1 = 1)%nat. now rewrite Hcl.
Qed.
Print Assumptions connect_err.
(** The error raised. *)
Theorem connect_error_kind : forall w c l e, connect w None (Some c) [] = (l, Err e) -> w_close w = Ok tt ->
  (l = [] -> e = KUnsupported) /\
  (e = KUnsupported \/ w_query w = Err e \/ w_absorb w = Err e \/ w_update w = Err e \/
   exists info, w_query w = Ok info /\ class_from_sys_info info = Err e).
Proof.
  intros w c l e. unfold connect. cbn [andb orb negb].
  destruct (get_protocol (conn c) false) as [pt|]; [|intro H; injection H as <- <-; auto].
  destruct (connect_with w c pt ([] ++ [OCreate pt])) as [l' r] eqn:E. destruct r as [d'|e']; [discriminate|].
  intros H Hcl. rewrite Hcl in H. injection H as <- <-. split; [destruct l'; discriminate|].
  unfold connect_with in E.
  assert (Hf : match class_from_family (family_value (family_ (conn c))) (https (conn c)) false with
      | Some cls => do! _ <- (fun l => (l ++ [OUpdate], w_update w)) ;; mret (mkDev cls (host c) pt)
      | None => mfail KUnsupported end ([] ++ [OCreate pt]) = (l', Err e') -> e' = KUnsupported \/ w_update w = Err e').
  { destruct (class_from_family _ _ _).
    - unfold mbind, mret. destruct (w_update w); [discriminate|]. intro H. injection H as _ <-. auto.
    - unfold mfail. intro H. injection H as _ <-. auto. }
  destruct pt as [pr tr]. destruct pr; try (destruct (Hf E); auto; fail). destruct tr; try (destruct (Hf E); auto; fail).
  unfold mbind, mlift, mret in E. destruct (w_query w) as [info|]; [|injection E as _ <-; auto].
  destruct (class_from_sys_info info) eqn:Ec; [|injection E as _ <-; eauto 8].
  destruct (w_absorb w); [|injection E as _ <-; auto 8]. destruct (w_update w); [discriminate | injection E as _ <-; auto 8].
Qed.
Print Assumptions connect_error_kind.
(** Both or neither of host and configuration: refused before anything is created. *)
Theorem connect_arguments : forall w s c, s <> "" ->
  connect w (Some s) (Some c) [] = ([], Err KKasa) /\ connect w None None [] = ([], Err KKasa) /\
  connect w (Some "") None [] = ([], Err KKasa).
Proof.
  intros w s c H. unfold connect. apply String.eqb_neq in H. rewrite H. repeat split.
Qed.
Print Assumptions connect_arguments.
Definition ex_plug : json :=
  JObj [("system", JObj [("get_sysinfo", JObj [("type", JStr "IOT.SMARTPLUGSWITCH"); ("dev_name", JStr "Light Switch")])])].
Example connect_ex :
  connect (mkWorld (Ok ex_plug) (Ok tt) (Ok tt) (Ok tt)) (Some "h") None [] =
    ([OCreate (IotProtocol, XorTransport); OQuery; OUpdate], Ok (mkDev IotWallSwitch "h" (IotProtocol, XorTransport))) /\
  connect (mkWorld (Ok ex_plug) (Ok tt) (Err KTimeout) (Ok tt)) (Some "h") None [] =
    ([OCreate (IotProtocol, XorTransport); OQuery; OUpdate; OClose], Err KTimeout).
Proof. split; vm_compute; reflexivity. Qed.

(** A legacy camera is not reported as unsupported: a plain KeyError escapes. *)
Theorem connect_camera_refuted : exists w l, connect w (Some "h") None [] = (l, Err PyKeyError) /\ w_close w = Ok tt /\
  is_kasa PyKeyError = false /\ exists info, w_query w = Ok info.
Proof.
  exists (mkWorld (Ok (JObj [("system", JObj [("get_sysinfo", JObj [("system", JObj [("type", JStr "IOT.IPCAMERA")])])])]))
            (Ok tt) (Ok tt) (Ok tt)).
  exists [OCreate (IotProtocol, XorTransport); OQuery; OClose]. vm_compute. repeat split. eauto.
Qed.
Print Assumptions connect_camera_refuted.

(** * C64 *)
Lemma exact_class_ok f h : class_from_family (family_value f) h true = exact_class f h.
Proof. destruct f, h; vm_compute; reflexivity. Qed.

(** No combination is tried twice, every attempt's protocol is closed exactly once
    and last, and the outcome is as the attempts went. *)
Theorem try_all_attempts : forall w families c0 trace out, try_connect_all w families c0 = (trace, out) ->
  NoDup (map a_key trace) /\
  Forall (fun a => creates (a_ops a) = 1%nat /\ closes (a_ops a) = 1%nat /\ last (a_ops a) OQuery = OClose /\
                   hd OQuery (a_ops a) = OCreate (k_protocol (a_key a), k_transport (a_key a))) trace /\
  match out with
  | Ok (Some d) => exists earlier a, trace = earlier ++ [a] /\ a_told a = Some true /\
       Forall (fun a => a_told a = Some false) earlier /\
       d_host d = host c0 /\ d_protocol d = (k_protocol (a_key a), k_transport (a_key a)) /\
       w_update (w (a_key a)) = Ok tt
  | Ok None => Forall (fun a => a_told a = Some false) trace /\
       (forall e f tls pr tr cls, In f families -> expected_protocol f e tls = Some (pr, tr) -> strict_ok f e = true ->
          exact_class f tls = Some cls -> exists a, In a trace /\ a_key a = mkKey pr tr cls tls)
  | Err e => exists a, In a trace /\ (w_close (w (a_key a)) = Err e \/ is_exception e = false)
  end.
Proof.
  intros w families c0 trace out H. unfold try_connect_all in H. apply try_spec in H.
  destruct H as (tr & tried & rest & -> & Hc & Hk & Hf & Ho). cbn [app].
  destruct (candidates_ok families) as (Hok & Hnd & Hcov). rewrite Hc in Hnd, Hok. rewrite map_app in Hnd.
  assert (Hnd' : NoDup (map fst tried)).
  { clear -Hnd. induction tried as [|x l IH]; [constructor|]. cbn in Hnd. inversion Hnd as [|? ? H1 H2]. constructor; [|auto].
    intro G. apply H1. apply in_or_app. auto. }
  split; [now rewrite Hk|]. split.
  { eapply Forall_impl; [|exact Hf]. intros a (H1 & H2 & H3 & H4). auto. }
  destruct out as [[d|]|e].
  - destruct Ho as (pre & k & p & -> & Hr & _ & Ht).
    destruct (exists_last (l := tr)) as (earlier & a & ->).
    { intros ->. destruct pre; discriminate. }
    repeat rewrite map_app in Hk. repeat rewrite map_app in Ht. cbn [map] in Hk, Ht. apply app_inj_tail in Hk, Ht. destruct Hk as [Hk1 Hk2], Ht as [Ht1 Ht2].
    exists earlier, a. split; [reflexivity|]. split; [exact Ht2|]. split.
    { clear -Ht1. revert pre Ht1. induction earlier as [|x l IH]; intros pre H; [constructor|].
      destruct pre as [|y pre]; [discriminate|]. cbn in H. injection H as H1 H2. constructor; [exact H1 | eapply IH; exact H2]. }
    unfold attempt_result in Hr.
    destruct (connect_with (w k) (candidate_config c0 p) (k_protocol k, k_transport k) [OCreate (k_protocol k, k_transport k)]) as [l' r] eqn:E.
    cbn [snd] in Hr. subst r. apply (connect_with_ok (w k) (candidate_config c0 p) _ []) in E.
    destruct E as (E1 & E2 & tail & _ & E3 & _). cbn [fst] in Hk2. rewrite Hk2. split; [exact E2|]. split; [exact E1 | apply E3].
  - destruct Ho as (-> & _ & Ht). split; [exact Ht|]. intros e f tls pr tr0 cls Hin He Hs Hx.
    assert (Hp : In (e, f, tls) (pairs families)).
    { unfold pairs. apply in_flat_map. exists e. split; [destruct e; cbn; tauto|]. apply in_flat_map. exists f.
      split; [exact Hin|]. destruct tls; cbn; tauto. }
    pose proof (Hcov e f tls pr tr0 cls Hp He Hs) as G. rewrite exact_class_ok in G. specialize (G Hx).
    rewrite Hc, app_nil_r, <- Hk in G. apply in_map_iff in G. destruct G as (a & Ha & Hina). eauto.
  - destruct Ho as (pre & k & p & -> & Hr & _). rewrite map_app in Hk. cbn [map fst] in Hk.
    assert (Hin : In k (map a_key tr)) by (rewrite Hk; apply in_or_app; right; left; reflexivity).
    apply in_map_iff in Hin. destruct Hin as (a & <- & Ha). exists a. split; [exact Ha|].
    destruct Hr as [[_ Hr]|Hr]; auto.
Qed.
Print Assumptions try_all_attempts.

(** Every combination tried has a device class that belongs to its protocol. *)
Theorem try_all_fits : forall families k p, (forall f, In f families -> In f main_device_families) ->
  In (k, p) (candidates families) -> class_protocol (k_class k) = k_protocol k.
Proof.
  intros families k p Hsub Hin. destruct (candidates_ok families) as (Hok & _ & _).
  rewrite Forall_forall in Hok. specialize (Hok _ Hin). destruct Hok as (_ & _ & Hf & Hh & Hg & Hc).
  apply Hsub in Hf. destruct p as [f e l h po], k as [pr tr cls kh]. cbn [family_ https k_https k_protocol k_transport k_class] in *.
  rewrite protocol_table in Hg. rewrite exact_class_ok in Hc.
  cbn [In main_device_families] in Hf.
  repeat (destruct Hf as [<-|Hf]; [destruct e, h; cbn in Hg; try discriminate Hg; cbn in Hc; try discriminate Hc;
    injection Hg as <- <-; injection Hc as <-; reflexivity|]).
  contradiction.
Qed.
Print Assumptions try_all_fits.

(** Both login versions are meant to be tried; only version 2 ever is. *)
Theorem try_all_login_refuted : forall families k p, In (k, p) (candidates families) -> login_version p = Some 2.
Proof.
  intros families k p Hin. destruct (candidates_ok families) as (Hok & _ & _).
  rewrite Forall_forall in Hok. apply (Hok _ Hin).
Qed.
Print Assumptions try_all_login_refuted.
Example try_all_login_ex : List.length (candidates main_device_families) = 7%nat /\
  In (mkParams SmartTapoPlug Aes None false None) (all_params main_device_families).
Proof. split; [vm_compute; reflexivity | vm_compute; tauto]. Qed.

(** With the main families, the bulb class is never tried over KLAP. *)
Theorem try_all_bulb_refuted : forall families k p, (forall f, In f families -> In f main_device_families) ->
  In (k, p) (candidates families) -> k_class k <> IotBulb.
Proof.
  intros families k p Hsub Hin. destruct (candidates_ok families) as (Hok & _ & _).
  rewrite Forall_forall in Hok. specialize (Hok _ Hin). destruct Hok as (_ & _ & Hf & _ & _ & Hc).
  apply Hsub in Hf. rewrite exact_class_ok in Hc. destruct p as [f e l h po]. cbn [family_ https] in *.
  cbn [In main_device_families] in Hf. intro Hb. rewrite Hb in Hc.
  repeat (destruct Hf as [<-|Hf]; [destruct h; discriminate Hc|]). contradiction.
Qed.
Print Assumptions try_all_bulb_refuted.

(** The ways in that are tried. *)
Definition ways_in : list key :=
  [mkKey SmartProtocol KlapTransportV2 SmartDevice false; mkKey SmartProtocol KlapTransportV2 SmartDevice true;
   mkKey SmartProtocol AesTransport SmartDevice false; mkKey SmartProtocol SslTransport SmartDevice true;
   mkKey SmartCamProtocol SslAesTransport SmartCamDevice true;
   mkKey IotProtocol KlapTransport IotPlug false; mkKey IotProtocol XorTransport IotPlug false].
(** Whatever the order of the families: nothing else is tried, and all of these before giving up. *)
Theorem try_all_ways : forall w families c0 trace out, (forall f, In f families <-> In f main_device_families) ->
  try_connect_all w families c0 = (trace, out) ->
  (forall a, In a trace -> In (a_key a) ways_in) /\
  (out = Ok None -> forall k, In k ways_in -> exists a, In a trace /\ a_key a = k).
Proof.
  intros w families c0 trace out Hfam H. split.
  - intros a Ha. unfold try_connect_all in H. apply try_spec in H. destruct H as (tr & tried & rest & -> & Hc & Hk & _). cbn [app] in Ha.
    destruct (candidates_ok families) as (Hok & _ & _). rewrite Hc in Hok. apply (in_map a_key) in Ha. rewrite Hk in Ha.
    apply in_map_iff in Ha. destruct Ha as ([k p] & Ek & Hin). cbn [fst] in Ek. subst k.
    rewrite Forall_forall in Hok. specialize (Hok (a_key a, p) (in_or_app _ _ _ (or_introl Hin))). destruct Hok as (_ & _ & Hf & Hh & Hg & Hcl).
    apply Hfam in Hf. destruct p as [f e l h po], (a_key a) as [pr tr' cls kh]. cbn [family_ https k_https k_protocol k_transport k_class] in *.
    rewrite protocol_table in Hg. rewrite exact_class_ok in Hcl. cbn [In main_device_families] in Hf. subst kh.
    repeat (destruct Hf as [<-|Hf]; [destruct e, h; cbn in Hg; try discriminate Hg; cbn in Hcl; try discriminate Hcl;
      injection Hg as <- <-; injection Hcl as <-; unfold ways_in; cbn [In]; tauto|]).
    contradiction.
  - intros -> k Hk. pose proof (try_all_attempts w families c0 trace (Ok None) H) as (_ & _ & _ & G).
    assert (F : forall f, In f main_device_families -> In f families) by (intros f; apply Hfam).
    cbn [In ways_in] in Hk. destruct Hk as [<-|[<-|[<-|[<-|[<-|[<-|[<-|[]]]]]]]].
    + apply (G Klap SmartTapoPlug false); try reflexivity. apply F. cbn; tauto.
    + apply (G Klap SmartTapoRobovac true); try reflexivity. apply F. cbn; tauto.
    + apply (G Aes SmartTapoPlug false); try reflexivity. apply F. cbn; tauto.
    + apply (G Aes SmartTapoRobovac true); try reflexivity. apply F. cbn; tauto.
    + apply (G Aes SmartIpCamera true); try reflexivity. apply F. cbn; tauto.
    + apply (G Klap IotSmartPlugSwitch false); try reflexivity. apply F. cbn; tauto.
    + apply (G Xor IotSmartPlugSwitch false); try reflexivity. apply F. cbn; tauto.
Qed.
Print Assumptions try_all_ways.
Example try_all_ex :
  let w k := mkWorld (Err KTimeout) (Ok tt) (if k_https k then Ok tt else Err KTimeout) (Ok tt) in
  let (trace, out) := try_connect_all w main_device_families (default_config "h") in
  List.length trace = 3%nat /\ out = Ok (Some (mkDev SmartDevice "h" (SmartProtocol, KlapTransportV2))).
Proof. vm_compute. split; reflexivity. Qed.
(** Without system information no class is chosen. *)
Theorem class_needs_sys_info : forall info,
  (dget "system" info = None \/ exists s, dget "system" info = Some (JObj s) /\ dget "get_sysinfo" s = None) ->
  class_from_sys_info (JObj info) = Err KKasa.
Proof.
  intros info H. unfold class_from_sys_info, type_from_sys_info. cbn [jget_or_empty bind jcontains jitem].
  destruct H as [H|(s & H & Hs)].
  - rewrite H. cbn [jget_or_empty bind jcontains dget dmem]. unfold dmem. rewrite H. reflexivity.
  - rewrite H. cbn [jget_or_empty bind]. rewrite Hs. cbn [bind jcontains dmem dget]. unfold dmem, dindex. rewrite H.
    cbn [bind jcontains]. unfold dmem. rewrite Hs. reflexivity.
Qed.
Print Assumptions class_needs_sys_info.
Example class_needs_sys_info_ex : class_from_sys_info (JObj [("system", JObj [("err_code", JInt (-1))])]) = Err KKasa.
Proof. reflexivity. Qed.

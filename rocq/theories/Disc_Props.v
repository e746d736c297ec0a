(** C18-C20, C66, C67: discovery over UDP. *)
From Verif Require Import Base Base_Lemmas Py Xor_Model Xor_Proofs Factory_Model Factory_Spec Factory_Proofs Disc_Model Disc_Spec Disc_Proofs.
Open Scope string_scope.
Open Scope list_scope.
Open Scope Z_scope.

(** * C18 *)
(** The first datagram of a host decides alone what is recorded for it and what
    its callbacks are, whatever else arrives before and after. *)
Theorem first_reply_decides : forall V O es ip,
  let s := run V O init es in
  match first_from ip es with
  | None => recorded s ip = record_of Nothing /\ callbacks_of ip s = []
  | Some (data, port) =>
      let (raw, r) := read_datagram V O data ip port in
      recorded s ip = record_of (verdict_of r) /\
      callbacks_of ip s = raw ++ (match verdict_of r with
                                  | Device d => if has_on_discovered O then [CDiscovered ip d] else []
                                  | Unsupported => if has_on_unsupported O then [CUnsupported ip] else []
                                  | _ => []
                                  end) /\
      (raw = [] \/ raw = [CRaw ip])
  end.
Proof.
  intros V O es ip s. subst s. pose proof (first_decides V O es init ip eq_refl eq_refl eq_refl) as [H1 H2].
  destruct (first_from ip es) as [[data port]|]; [|split; assumption].
  assert (Hraw : fst (read_datagram V O data ip port) = [] \/ fst (read_datagram V O data ip port) = [CRaw ip]).
  { unfold read_datagram. destruct (port =? discovery_port O); [|destruct (port =? DISCOVERY_PORT_2); [|auto]].
    - destruct (json_legacy V data); cbn; [destruct (has_on_raw O)|]; auto.
    - destruct (json_new V data); cbn; [destruct (has_on_raw O)|]; auto. }
  unfold cbs_of in H2. destruct (read_datagram V O data ip port) as [raw r]. cbn [fst snd] in *. auto.
Qed.
Print Assumptions first_reply_decides.

(** Hence at most one table lists a host, and each callback runs at most once for
    it, the discovered one exactly for discovered devices. *)
Theorem reported_once : forall V O es ip,
  let s := run V O init es in
  (exists v, recorded s ip = record_of v) /\
  filter is_discovered_cb (callbacks_of ip s) =
    (match dget ip (discovered s) with Some d => if has_on_discovered O then [CDiscovered ip d] else [] | None => [] end) /\
  filter is_unsupported_cb (callbacks_of ip s) =
    (match dget ip (unsupported s) with Some _ => if has_on_unsupported O then [CUnsupported ip] else [] | None => [] end) /\
  (List.length (callbacks_of ip s) <= 2)%nat.
Proof.
  intros V O es ip s. pose proof (first_reply_decides V O es ip) as H. fold s in H. cbv zeta in H.
  destruct (first_from ip es) as [[data port]|].
  - destruct (read_datagram V O data ip port) as [raw r]. destruct H as (H1 & H2 & H3). split; [eauto|]. rewrite H2.
    unfold recorded in H1.
    assert (Hd : dget ip (discovered s) = fst (fst (record_of (verdict_of r)))) by now rewrite <- H1.
    assert (Hu : dget ip (unsupported s) = snd (fst (record_of (verdict_of r)))) by now rewrite <- H1.
    rewrite Hd, Hu. destruct H3 as [-> | ->]; destruct (verdict_of r), (has_on_discovered O), (has_on_unsupported O); cbn; repeat split; lia.
  - destruct H as [H1 H2]. split; [exists Nothing; exact H1|]. rewrite H2. unfold recorded in H1. injection H1 as -> -> _. cbn. repeat split; lia.
Qed.
Print Assumptions reported_once.

(** * C19 *)
Definition reply_json (lv : json) : json :=
  JObj [("result", JObj [("device_type", JStr "SMART.TAPOPLUG"); ("device_model", JStr "P110(EU)"); ("lv", lv)])].
(** An environment in which the text "R" is a good reply, "K" a legacy plug, "L" a legacy camera and "T" a
    legacy reply that names a SMART type. *)
Definition ex_loads (b : bytes) : option json :=
  match map N_of_ascii b with
  | [82%N] => Some (reply_json JNull)
  | [76%N] => Some (JObj [("system", JObj [("get_sysinfo", JObj [("system", JObj [("type", JStr "IOT.IPCAMERA")])])])])
  | [84%N] => Some (JObj [("system", JObj [("get_sysinfo", JObj [("type", JStr "SMART.TAPOPLUG")])])])
  | [75%N] => Some (legacy_plug "kitchen")
  | _ => None
  end.
Definition ex_parse (v : json) : res dresult :=
  match v with
  | JObj _ => Ok (mkDresult (JStr "SMART.TAPOPLUG") (JStr "P110(EU)") (Some (mkScheme (JBool false) (JStr "KLAP") JNull (JInt 2))) None None)
  | _ => Err PyTypeError
  end.
Definition exV : env := mkEnv ex_loads ex_parse (fun _ => None) (fun _ => true) (fun _ => Ok tt) (fun _ => Ok tt).
Definition exO (t : string) : options := mkOpts t None (Some ("user", "pass")) (Some 9) 3 true true false.
Definition header : bytes := repeat "000"%char 16.
Definition R : bytes := header ++ ["R"%char].
(** [XOR] autokey obfuscation of one byte: 171 xor byte *)
Definition xor1 (n : N) : bytes := [ascii_of_N (N.lxor 171 n)].

(** A good reply that is the first datagram of its host is recorded, whatever
    arrives from other hosts, and whatever this host sends later. *)
Lemma good_reply_discovered_partial_lemma : forall V O es ip data f e tls lv port cls pr tr,
  discovery_port O <> DISCOVERY_PORT_2 -> (forall info, has_on_raw O = true -> raw_callback V info = Ok tt) ->
  first_from ip es = Some (data, DISCOVERY_PORT_2) ->
  good_reply V data f e tls lv port ->
  expected_protocol f e tls = Some (pr, tr) -> class_from_family (family_value f) tls false = Some cls ->
  exists c, recorded (run V O init es) ip = record_of (Device (mkFound cls ip c (Some (pr, tr)))) /\
    host c = ip /\ conn c = mkParams f e lv tls port /\ creds c = o_creds O /\ port_override c = o_port O.
Proof.
  intros V O es ip data f e tls lv port cls pr tr Hport Hraw Hfirst Hgood Hp Hc.
  pose proof (first_reply_decides V O es ip) as H. cbv zeta in H. rewrite Hfirst in H.
  destruct Hgood as (info & result & d & s & model & Hj & Hr & Hparse & Ht & Hm & Hs & Hh & Henc & Hdec & Hlv & Hpt).
  exists (with_conn (host_config O ip) (mkParams f e lv tls port)). split; [|repeat split].
  assert (Hread : snd (read_datagram V O data ip DISCOVERY_PORT_2) =
     Ok (Some (mkFound cls ip (with_conn (host_config O ip) (mkParams f e lv tls port)) (Some (pr, tr))))).
  { unfold read_datagram. apply Z.eqb_neq in Hport. rewrite Z.eqb_sym in Hport. rewrite Hport, Z.eqb_refl.
    unfold json_new. rewrite Hj. cbn [snd].
    assert (Hi : instance_new V (JObj info) (host_config O ip) =
       Ok (mkFound cls ip (with_conn (host_config O ip) (mkParams f e lv tls port)) (Some (pr, tr)))).
    { unfold instance_new. cbn [jitem]. unfold dindex. rewrite Hr. cbn [bind]. rewrite Hparse.
      assert (Hd : (match d_sym_schm d with
                    | Some (JStr "AES") => if decrypt_info V d then Ok tt else log_redacted V (JObj info)
                    | _ => Ok tt end) = Ok tt).
      { destruct (d_sym_schm d) as [v|] eqn:Ev; [|reflexivity].
        destruct v as [| | | |str| |]; try reflexivity.
        destruct (String.eqb str "AES") eqn:Es.
        - apply String.eqb_eq in Es. subst str. destruct (decrypt_info V d) eqn:Ed; [reflexivity | apply Hdec; reflexivity].
        - apply String.eqb_neq in Es.
          repeat (destruct str as [|[[] [] [] [] [] [] [] []] str]; try reflexivity; try (now elim Es)). }
      rewrite Hd. cbn [bind].
      assert (Hg : get_connection_parameters V d = Ok (mkParams f e lv tls port)).
      { unfold get_connection_parameters. rewrite Hs.
        assert (Het : (if truthy (s_encrypt_type s) then s_encrypt_type s
                 else match d_sym_schm d with Some v => v | None => s_encrypt_type s end) = JStr (enc_value e)).
        { destruct Henc as [-> | [-> Hsym]]; [destruct e; reflexivity | rewrite Hsym; reflexivity]. }
        rewrite Het, Hh, Ht.
        assert (Hl : (if truthy (s_lv s) then Ok (z_of (s_lv s))
            else match d_encrypt_type d with Some (v :: et) => max_int V (v :: et) | _ => Ok (z_of (s_lv s)) end) = Ok lv).
        { destruct lv as [z|].
          - destruct Hlv as [Hz ->]. cbn [truthy]. apply Z.eqb_neq in Hz. rewrite Hz. reflexivity.
          - destruct Hlv as [-> ->]. reflexivity. }
        rewrite Hl. cbn [bind]. replace (truthy (JStr (enc_value e))) with true by (destruct e; reflexivity).
        unfold from_values. rewrite family_of_value, enc_of_value, Hpt. destruct port; reflexivity. }
      rewrite Hg, Ht. cbn [class_from_type https bind]. rewrite Hc, protocol_table. cbn [andb]. rewrite Hp, Hm. reflexivity. }
    rewrite Hi. destruct (has_on_raw O); [rewrite Hraw by reflexivity|]; reflexivity. }
  destruct (read_datagram V O data ip DISCOVERY_PORT_2) as [raw r]. cbn [snd] in Hread. subst r. apply H.
Qed.
Theorem good_reply_discovered_partial : forall V O es ip data f e tls lv port cls pr tr,
  discovery_port O <> 20002 -> (forall info, has_on_raw O = true -> raw_callback V info = Ok tt) ->
  first_from ip es = Some (data, 20002) ->
  good_reply V data f e tls lv port ->
  expected_protocol f e tls = Some (pr, tr) -> class_from_family (family_value f) tls false = Some cls ->
  exists c, recorded (run V O init es) ip = record_of (Device (mkFound cls ip c (Some (pr, tr)))) /\
    host c = ip /\ conn c = mkParams f e lv tls port /\ creds c = o_creds O /\ port_override c = o_port O.
Proof. exact good_reply_discovered_partial_lemma. Qed.
Print Assumptions good_reply_discovered_partial.
Example good_reply_ex : good_reply exV R SmartTapoPlug Klap false (Some 2) None.
Proof.
  exists [("result", JObj [("device_type", JStr "SMART.TAPOPLUG"); ("device_model", JStr "P110(EU)"); ("lv", JNull)])].
  eexists _, _, _, _. split; [vm_compute; reflexivity|]. split; [reflexivity|]. split; [reflexivity|].
  cbn. repeat split; auto; discriminate.
Qed.
Example good_reply_run : exists c,
  recorded (run exV (exO "x") init [ETick; EDatagram (xor1 75) "other" 9999; EDatagram R "ip" 20002; EDatagram [] "ip" 9999]) "ip" =
    record_of (Device (mkFound SmartDevice "ip" c (Some (SmartProtocol, KlapTransportV2)))).
Proof. eexists. vm_compute. reflexivity. Qed.

(** The same for a legacy reply; its class is the one its system information
    names, and it speaks the legacy protocol. *)
Theorem legacy_reply_discovered_partial : forall V O es ip text data si f cls,
  (forall info, has_on_raw O = true -> raw_callback V info = Ok tt) ->
  first_from ip es = Some (data, discovery_port O) ->
  data = xor_payload IV text ->
  json_loads V text = Some (JObj [("system", JObj [("get_sysinfo", JObj si)])]) -> good_sysinfo si f ->
  class_from_sys_info (JObj [("system", JObj [("get_sysinfo", JObj si)])]) = Ok cls ->
  exists c, recorded (run V O init es) ip = record_of (Device (mkFound cls ip c (Some (IotProtocol, XorTransport)))) /\
    host c = ip /\ conn c = mkParams f Xor None false None /\ creds c = o_creds O.
Proof.
  intros V O es ip text data si f cls Hraw Hfirst Hdata Hj (Hne & Hns & Hf & Ht & Hfe) Hc.
  pose proof (first_reply_decides V O es ip) as H. cbv zeta in H. rewrite Hfirst in H.
  set (info := JObj [("system", JObj [("get_sysinfo", JObj si)])]) in *.
  exists (with_conn (host_config O ip) (mkParams f Xor None false None)). split; [|repeat split].
  assert (Hread : snd (read_datagram V O data ip (discovery_port O)) =
     Ok (Some (mkFound cls ip (with_conn (host_config O ip) (mkParams f Xor None false None)) (Some (IotProtocol, XorTransport))))).
  { unfold read_datagram. rewrite Z.eqb_refl. unfold json_legacy.
    assert (Hd : decrypt data = text) by (subst data; apply Xor_Proofs.xor_round_trip). rewrite Hd, Hj. cbn [snd].
    assert (Hi : instance_legacy V info (host_config O ip) =
       Ok (mkFound cls ip (with_conn (host_config O ip) (mkParams f Xor None false None)) (Some (IotProtocol, XorTransport)))).
    { unfold instance_legacy. change (get_device_class V info) with (class_from_sys_info info). rewrite Hc. cbn [bind].
      assert (He : extract_sys_info info = Ok (JObj si)).
      { unfold extract_sys_info, info. cbn [jget_or_empty dget String.eqb Ascii.eqb Bool.eqb bind]. rewrite Hns. cbn [bind jlen List.length].
        destruct si; [now elim Hne | reflexivity]. }
      rewrite He. cbn [bind get_either].
      assert (Hty : match dget "mic_type" si with Some x => x | None => match dget "type" si with Some y => y | None => JNull end end = JStr (family_value f)).
      { destruct Ht as [-> | [-> ->]]; reflexivity. }
      rewrite Hty. cbn [bind].
      replace (String.eqb (family_value f) "IOT.IPCAMERA") with false by (destruct Hf as [-> | ->]; reflexivity). cbn [bind].
      unfold from_values. rewrite family_of_value, enc_of_value. cbn [bind].
      assert (Ha : absorb_legacy info = Ok tt).
      { unfold absorb_legacy, info. cbn [jcontains dmem dget jitem jget String.eqb Ascii.eqb Bool.eqb bind]. unfold dmem, dindex. cbn [dget String.eqb Ascii.eqb Bool.eqb bind].
        cbn [jget dget String.eqb Ascii.eqb Bool.eqb bind].
        replace (truthy (JObj si)) with true by (destruct si; [now elim Hne | reflexivity]). cbn [jget bind].
        destruct Hfe as [-> | [str ->]]; reflexivity. }
      rewrite Ha. cbn [bind]. rewrite protocol_table. destruct Hf as [-> | ->]; reflexivity. }
    rewrite Hi. destruct (has_on_raw O); [rewrite Hraw by reflexivity|]; reflexivity. }
  destruct (read_datagram V O data ip (discovery_port O)) as [raw r]. cbn [snd] in Hread. subst r. apply H.
Qed.
Print Assumptions legacy_reply_discovered_partial.
Example legacy_reply_ex : exists si, legacy_plug "kitchen" = JObj [("system", JObj [("get_sysinfo", JObj si)])] /\
  good_sysinfo si IotSmartPlugSwitch /\ class_from_sys_info (legacy_plug "kitchen") = Ok IotPlug.
Proof.
  eexists. split; [reflexivity|]. split; [|vm_compute; reflexivity]. split; [discriminate|].
  split; [reflexivity|]. split; [auto|]. split; [left; reflexivity|]. left. reflexivity.
Qed.

(** Not in general: a datagram of the host from another port makes it ignored. *)
Theorem stray_datagram_refuted : exists V O ip port stray,
  port <> 20002 /\ port <> discovery_port O /\
  (exists d, recorded (run V O init [EDatagram R ip 20002]) ip = record_of (Device d)) /\
  recorded (run V O init [EDatagram stray ip port; EDatagram R ip 20002]) ip = record_of Nothing.
Proof.
  exists exV, (exO "x"), "ip", 4711, []. split; [discriminate|]. split; [discriminate|]. split; [|vm_compute; reflexivity].
  eexists. vm_compute. reflexivity.
Qed.
Print Assumptions stray_datagram_refuted.
(** The same with an unreadable datagram from a discovery port: it is recorded as
    invalid and the good reply that follows is ignored. *)
Theorem unreadable_first_refuted : exists V O ip,
  (exists d, recorded (run V O init [EDatagram R ip 20002]) ip = record_of (Device d)) /\
  recorded (run V O init [EDatagram [] ip 9999; EDatagram R ip 20002]) ip = record_of (Invalid KKasa).
Proof.
  exists exV, (exO "x"), "ip". split; [eexists; vm_compute; reflexivity | vm_compute; reflexivity].
Qed.
Print Assumptions unreadable_first_refuted.

(** * C20 *)
(** The outcome of discovering one host, from its first datagram. *)
Theorem single_outcome_partial : forall V is_ip resolve h port creds timeout raw cb es,
  discover_single V is_ip resolve h port creds timeout raw cb es =
  match (if is_ip h then Some h else resolve h) with
  | None => SRaise KKasa
  | Some ip =>
      let O := mkOpts ip port creds timeout 3 false false raw in
      match (match first_from ip es with
             | Some (data, p) => verdict_of (snd (read_datagram V O data ip p))
             | None => Nothing end) with
      | Device d => match v_protocol d with
                    | Some p => SDevice (mkFound (v_class d) h (with_host (v_config d) h) (Some p))
                    | None => SRaise PyAttributeError
                    end
      | Unsupported => if cb then SNone else SRaise KUnsupported
      | Invalid e => SRaise e
      | Nothing => SRaise KTimeout
      end
  end.
Proof.
  intros V is_ip resolve h port creds timeout raw cb es. unfold discover_single.
  destruct (if is_ip h then Some h else resolve h) as [ip|]; [|reflexivity].
  pose proof (proj1 (first_decides V (mkOpts ip port creds timeout 3 false false raw) es init ip eq_refl eq_refl eq_refl)) as H.
  cbv zeta. destruct (match first_from ip es with Some _ => _ | None => _ end) as [d| |e|];
    unfold recorded in H; cbn [record_of] in H; injection H as H1 H2 H3; unfold single_result; rewrite H1, ?H2, ?H3; try reflexivity.
  destruct (v_protocol d); reflexivity.
Qed.
Print Assumptions single_outcome_partial.
Example single_ex : exists c,
  discover_single exV (fun _ => false) (fun h => if String.eqb h "plug.local" then Some "10.0.0.1" else None)
    "plug.local" None None None false false [EDatagram [] "10.0.0.2" 9999; ETick; EDatagram R "10.0.0.1" 20002] =
  SDevice (mkFound SmartDevice "plug.local" c (Some (SmartProtocol, KlapTransportV2))).
Proof. eexists. vm_compute. reflexivity. Qed.
(** A host that did answer, on the discovery port, is reported as timed out when
    reading its reply fails in a way that is not foreseen (here a camera). *)
Theorem single_timeout_refuted : exists V data,
  (exists e, snd (datagram V (exO "ip") init data "ip" 9999) = Some e /\ is_kasa e = false) /\
  discover_single V (fun _ => true) (fun _ => None) "ip" None None None false false [EDatagram data "ip" 9999] = SRaise KTimeout.
Proof. exists exV, (xor1 76). split; [exists PyKeyError; vm_compute; auto | vm_compute; reflexivity]. Qed.
Print Assumptions single_timeout_refuted.

(** * C66 *)
Theorem discovery_rounds : forall V O es,
  (sent (run V O init es) <= packets O)%nat /\
  forall es', is_seen (target O) (run V O init es) = true -> sent (run V O init (es ++ es')) = sent (run V O init es).
Proof.
  intros V O es. split.
  - assert (G : forall es s, (sent s <= packets O)%nat -> (sent (run V O s es) <= packets O)%nat).
    { induction es0 as [|e es0 IH]; intros s Hs; [exact Hs|]. apply IH. destruct (sent_step V O s e) as [H _]. lia. }
    apply G. cbn. lia.
  - intros es' Hs. unfold run. rewrite fold_left_app. fold (run V O init es). generalize dependent (run V O init es).
    induction es' as [|e es' IH]; intros s Hs; [reflexivity|]. cbn [fold_left]. rewrite IH.
    + destruct (sent_step V O s e) as (_ & H & _). exact (H Hs).
    + now rewrite seen_step, Hs.
Qed.
Print Assumptions discovery_rounds.
(** As long as the target has not been heard from, every round that is due is sent. *)
Theorem discovery_all_rounds : forall V O es, (forall data ip port, In (EDatagram data ip port) es -> ip <> target O) ->
  sent (run V O init es) = Nat.min (packets O) (List.length (filter (fun e => match e with ETick => true | _ => false end) es)).
Proof.
  intros V O es N.
  assert (HE : forall s, is_seen (target O) (handle_event O s) = false -> handle_event O s = s).
  { intros s. unfold handle_event. destruct (is_seen (target O) s) eqn:E; [|reflexivity]. intros Sn. unfold is_seen in E, Sn. cbn in Sn. congruence. }
  assert (G : forall es s, (forall data ip port, In (EDatagram data ip port) es -> ip <> target O) -> is_seen (target O) s = false ->
     (sent s <= packets O)%nat -> (sending s = false -> sent s = packets O) ->
     sent (run V O s es) = Nat.min (packets O) (sent s + List.length (filter (fun e => match e with ETick => true | _ => false end) es))).
  { clear - HE. induction es as [|e es IH]; intros s N Hs L K; [cbn; lia|]. unfold run. cbn [fold_left]. fold (run V O (step V O s e) es).
    assert (Sn : is_seen (target O) (step V O s e) = false).
    { rewrite seen_step, Hs. cbn. destruct e as [data ip port|]; [|reflexivity]. apply String.eqb_neq. intros E. exact (N data ip port (or_introl eq_refl) (eq_sym E)). }
    assert (Q : match e with ETick => sent (step V O s e) = Nat.min (packets O) (S (sent s)) /\ (sending (step V O s e) = false -> sent (step V O s e) = packets O)
                | _ => sent (step V O s e) = sent s /\ sending (step V O s e) = sending s end).
    { destruct e as [data ip port|]; cbn [step] in *.
      - revert Sn. unfold datagram. destruct (is_seen ip s); [auto|]. destruct (read_datagram V O data ip port) as [cbs r]. destruct r as [[d|]|e0].
        + cbn [fst]. intros Sn. rewrite (HE _ Sn). now split.
        + now split.
        + destruct e0; cbn [is_kasa fst]; intros Sn; try rewrite (HE _ Sn); now split.
      - unfold tick. rewrite Hs. destruct (sending s) eqn:E1; cbn [andb negb].
        + destruct (Nat.ltb_spec (sent s) (packets O)); cbn [andb sent sending]; [split; [lia|discriminate]|split; [lia|intros _; lia]].
        + cbn [sent sending]. specialize (K eq_refl). split; [lia|auto]. }
    rewrite IH; auto.
    - destruct e; cbn [filter List.length]; destruct Q as (Q & _); rewrite Q; lia.
    - intros data ip port I. apply (N data ip port). now right.
    - destruct e; destruct Q as (Q & _); lia.
    - destruct e; destruct Q as (Q & Q'); [rewrite Q', Q; exact K|exact Q']. }
  rewrite G; auto; cbn; [lia|discriminate].
Qed.
Print Assumptions discovery_all_rounds.
(** The search is only called off for a target that was heard from. *)
Theorem called_off_only_if_heard : forall V O es,
  target_discovered (run V O init es) = true -> is_seen (target O) (run V O init es) = true.
Proof.
  intros V O es. assert (G : forall es s, (target_discovered s = true -> is_seen (target O) s = true) ->
     target_discovered (run V O s es) = true -> is_seen (target O) (run V O s es) = true).
  { induction es0 as [|e es0 IH]; intros s Hs; [exact Hs|]. apply IH. intro Ht.
    destruct (sent_step V O s e) as (_ & _ & _ & H). destruct (H Ht) as [H'|H']; [|exact H'].
    rewrite seen_step, (Hs H'). reflexivity. }
  apply G. discriminate.
Qed.
Print Assumptions called_off_only_if_heard.
Example discovery_rounds_ex :
  sent (run exV (exO "ip") init [ETick; ETick; EDatagram R "ip" 20002; ETick]) = 2%nat /\
  sent (run exV (exO "255.255.255.255") init [ETick; ETick; ETick; ETick; ETick]) = 3%nat /\
  sent (run exV (exO "255.255.255.255") init [ETick; EDatagram R "ip" 20002; ETick]) = 2%nat.
Proof. repeat split; vm_compute; reflexivity. Qed.
(** But a target that was heard from may have been ignored: then another host's
    reply calls the search off with nothing recorded. *)
Theorem called_off_refuted : exists V O es,
  target_discovered (run V O init es) = true /\ recorded (run V O init es) (target O) = record_of Nothing.
Proof. exists exV, (exO "ip"), [EDatagram [] "ip" 4711; EDatagram R "other" 20002]. vm_compute. auto. Qed.
Print Assumptions called_off_refuted.

(** * C67 *)
(** A discovered device carries the caller's settings, is addressed to the host
    that answered, and its protocol is the one its parameters select. *)
Theorem discovered_settings : forall V O es ip d, dget ip (discovered (run V O init es)) = Some d ->
  v_host d = ip /\ host (v_config d) = ip /\ creds (v_config d) = o_creds O /\ port_override (v_config d) = o_port O /\
  timeout (v_config d) = (match o_timeout O with Some t => if t =? 0 then Some 5 else Some t | None => Some 5 end) /\
  v_protocol d = expected_protocol (family_ (conn (v_config d))) (enc_ (conn (v_config d))) (https (conn (v_config d))).
Proof.
  intros V O es ip d Hd. pose proof (first_reply_decides V O es ip) as H. cbv zeta in H.
  destruct (first_from ip es) as [[data port]|].
  2:{ destruct H as [H _]. unfold recorded in H. rewrite Hd in H. discriminate. }
  destruct (read_datagram V O data ip port) as [raw r] eqn:E. destruct H as (H & _ & _). unfold recorded in H. rewrite Hd in H.
  assert (Hr : r = Ok (Some d)).
  { destruct r as [[d'|]|e]; cbn in H; try discriminate; [congruence|].
    destruct e; cbn in H; discriminate. }
  subst r. clear H Hd.
  assert (G : forall text inst, (forall info d, inst info (host_config O ip) = Ok d ->
       exists p, d = mkFound (v_class d) ip (with_conn (host_config O ip) p) (get_protocol p false)) ->
     snd (match text with
          | Err e => ([], Err e)
          | Ok info => ((if has_on_raw O then [CRaw ip] else []),
              let! _ := (if has_on_raw O then raw_callback V info else Ok tt) in
              let! d := inst info (host_config O ip) in Ok (Some d)) end) = Ok (Some d) ->
     exists p, d = mkFound (v_class d) ip (with_conn (host_config O ip) p) (get_protocol p false)).
  { intros text inst Hi. destruct text as [info|]; cbn [snd]; [|discriminate].
    destruct (if has_on_raw O then raw_callback V info else Ok tt); [|discriminate]. cbn [bind].
    destruct (inst info (host_config O ip)) as [d'|] eqn:Ei; [|discriminate]. cbn [bind]. intro H. injection H as <-.
    exact (Hi _ _ Ei). }
  assert (Hex : exists p, d = mkFound (v_class d) ip (with_conn (host_config O ip) p) (get_protocol p false)).
  { apply (f_equal snd) in E. cbn [snd] in E. unfold read_datagram in E.
    destruct (port =? discovery_port O); [|destruct (port =? DISCOVERY_PORT_2); [|discriminate]].
    - eapply G; [|exact E]. intros info d' Hi. unfold instance_legacy in Hi.
      destruct (get_device_class V info) as [cls|]; [|discriminate]. cbn [bind] in Hi.
      destruct (extract_sys_info info) as [si|]; [|discriminate]. cbn [bind] in Hi.
      destruct (get_either "mic_type" "type" si) as [t|]; [|discriminate]. cbn [bind] in Hi.
      match type of Hi with bind ?x _ = _ => destruct x as [lg|]; [|discriminate] end. cbn [bind] in Hi.
      match type of Hi with bind ?x _ = _ => destruct x as [p|]; [|discriminate] end. cbn [bind] in Hi.
      destruct (absorb_legacy info); [|discriminate]. cbn [bind] in Hi. injection Hi as <-. exists p. reflexivity.
    - eapply G; [|exact E]. intros info d' Hi. unfold instance_new in Hi.
      match type of Hi with match ?x with _ => _ end = _ => destruct x as [dr|e] end; [|destruct (is_exception e); discriminate].
      match type of Hi with bind ?x _ = _ => destruct x; [|discriminate] end. cbn [bind] in Hi.
      destruct (get_connection_parameters V dr) as [p|e]; [|destruct (is_kasa e); discriminate].
      match type of Hi with bind ?x _ = _ => destruct x as [[cls|]|]; try discriminate end. cbn [bind] in Hi.
      destruct (get_protocol p false) as [pt|] eqn:Ep; [|discriminate].
      destruct (d_model dr); try discriminate. injection Hi as <-. exists p. cbn [v_class]. now rewrite Ep. }
  destruct Hex as [p ->]. cbn [v_host v_config v_protocol]. repeat split. rewrite (proj1 (conj eq_refl I) : conn (with_conn (host_config O ip) p) = p).
  destruct p as [f e l h po]. rewrite protocol_table. reflexivity.
Qed.
Print Assumptions discovered_settings.
Example discovered_settings_ex : exists d, dget "ip" (discovered (run exV (exO "x") init [EDatagram R "ip" 20002])) = Some d /\
  creds (v_config d) = Some ("user", "pass") /\ timeout (v_config d) = Some 9.
Proof. eexists. vm_compute. repeat split. Qed.
(** A device reported as discovered may have no protocol at all: a legacy reply
    that names a newer type. *)
Theorem discovered_without_protocol_refuted : exists V O es ip d,
  dget ip (discovered (run V O init es)) = Some d /\ v_protocol d = None.
Proof. exists exV, (exO "x"), [EDatagram (xor1 84) "ip" 9999], "ip". eexists. vm_compute. split; reflexivity. Qed.
Print Assumptions discovered_without_protocol_refuted.
(** A reply on the second port always gives a protocol. *)
Theorem new_reply_has_protocol : forall V O data ip raw d, discovery_port O <> 20002 ->
  read_datagram V O data ip 20002 = (raw, Ok (Some d)) -> v_protocol d <> None.
Proof.
  intros V O data ip raw d Hport H. unfold read_datagram in H. apply Z.eqb_neq in Hport. rewrite Z.eqb_sym in Hport.
  rewrite Hport in H. change (20002 =? DISCOVERY_PORT_2) with true in H. cbv iota in H. destruct (json_new V data) as [info|]; [|discriminate].
  injection H as _ H. destruct (if has_on_raw O then raw_callback V info else Ok tt); [|discriminate]. cbn [bind] in H.
  destruct (instance_new V info (host_config O ip)) as [d'|] eqn:Hi; [|discriminate]. cbn [bind] in H. injection H as ->.
  unfold instance_new in Hi.
  match type of Hi with match ?x with _ => _ end = _ => destruct x as [dr|e] end; [|destruct (is_exception e); discriminate].
  match type of Hi with bind ?x _ = _ => destruct x; [|discriminate] end. cbn [bind] in Hi.
  destruct (get_connection_parameters V dr) as [p|e]; [|destruct (is_kasa e); discriminate].
  match type of Hi with bind ?x _ = _ => destruct x as [[cls|]|]; try discriminate end. cbn [bind] in Hi.
  destruct (get_protocol p false) as [pt|] eqn:Ep; [|discriminate].
  destruct (d_model dr); try discriminate. injection Hi as <-. discriminate.
Qed.
Print Assumptions new_reply_has_protocol.
(** The login version is the one the reply names; when it names none, the greatest of
    those it offers. *)
Theorem login_version_chosen : forall V d s p, d_scheme d = Some s -> get_connection_parameters V d = Ok p ->
  (forall z, s_lv s = JInt z -> z <> 0 -> login_version p = Some z) /\
  (forall z zs, (s_lv s = JNull \/ s_lv s = JInt 0) -> d_encrypt_type d = Some (map JInt (z :: zs)) ->
     exists m, login_version p = Some m /\ In m (z :: zs) /\ forall x, In x (z :: zs) -> x <= m).
Proof.
  intros V d s p Hs H. unfold get_connection_parameters in H. rewrite Hs in H. cbv zeta in H.
  match type of H with bind ?x _ = _ => destruct x as [lv|] eqn:El; [cbn [bind] in H|discriminate] end.
  assert (Hp : login_version p = lv).
  { match type of H with (if ?b then _ else _) = _ => destruct b; [|discriminate] end.
    unfold from_values in H. destruct (family_of (d_type d)); [|discriminate].
    match type of H with match ?x with _ => _ end = _ => destruct x; [|discriminate] end. injection H as <-. reflexivity. }
  rewrite Hp. clear H Hp. split.
  - intros z Hz Hne. rewrite Hz in El. cbn [truthy z_of] in El. apply Z.eqb_neq in Hne. rewrite Hne in El. cbn in El. congruence.
  - intros z zs Hz He. assert (Ef : truthy (s_lv s) = false) by (destruct Hz as [-> | ->]; reflexivity).
    rewrite Ef, He in El. cbn [map] in El. change (JInt z :: map JInt zs) with (map JInt (z :: zs)) in El. revert El.
    assert (G : forall l, exists r, max_int V (map JInt l) = Ok r /\
        match r with None => l = [] | Some m => In m l /\ forall x, In x l -> x <= m end).
    { clear. induction l as [|x l (r & E & H)]; [exists None; split; reflexivity|].
      cbn [map max_int py_int bind]. rewrite E. cbn [bind]. eexists. split; [reflexivity|]. destruct r as [m|].
      - destruct H as [Hi Hm]. split.
        + destruct (Z.max_spec x m) as [[_ ->]|[_ ->]]; [right; exact Hi|left; reflexivity].
        + intros y [<-|Hy]; [apply Z.le_max_l|]. specialize (Hm y Hy). etransitivity; [exact Hm|apply Z.le_max_r].
      - subst l. split; [left; reflexivity|]. intros y [<-|[]]. apply Z.le_refl. }
    destruct (G (z :: zs)) as (r & E & H). rewrite E. intro Hr. injection Hr as <-. destruct r as [m|]; [|discriminate].
    exists m. split; [reflexivity|exact H].
Qed.
Print Assumptions login_version_chosen.
Example login_version_ex : exists p,
  get_connection_parameters exV (mkDresult (JStr "SMART.TAPOPLUG") (JStr "P110(EU)")
    (Some (mkScheme (JBool false) (JStr "KLAP") JNull JNull)) None (Some (map JInt [1; 3; 2]))) = Ok p /\ login_version p = Some 3.
Proof. eexists. vm_compute. split; reflexivity. Qed.

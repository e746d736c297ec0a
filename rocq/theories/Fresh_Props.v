(** C139: before its first update an object shows what discovery told, or asks for an
    update. *)
From Verif Require Import Base Base_Lemmas Py Factory_Model DevType_Model Sensor_Model Setup_Model Fresh_Model Fresh_Spec.
Open Scope string_scope.
Open Scope list_scope.
Open Scope Z_scope.

(** An object that was neither discovered nor updated asks for an update, whatever is
    read; it has no name.  (A legacy camera is always on.) *)
Theorem new_legacy_asks : forall k p, p <> PAlias -> ~ (k = KCamera /\ p = PIsOn) -> legacy_read k new_legacy p = Err KKasa.
Proof. intros k p Hp H. destruct p, k; try reflexivity; try congruence. exfalso. apply H. auto. Qed.
Print Assumptions new_legacy_asks.
Example new_legacy_case : legacy_read KPlug new_legacy PIsOn = Err KKasa /\ legacy_read KPlug new_legacy PAlias = Ok JNull.
Proof. split; reflexivity. Qed.

(** An object found by the full answer shows, for every property that is not of a module
    or of the sockets, what it would show after an update with that answer. *)
Lemma extract_plain info d : full_answer info d -> plain d -> extract_sys_info info = Ok (JObj d).
Proof.
  intros (i & s & -> & H1 & H2 & _) P. unfold extract_sys_info, jget_or_empty. rewrite H1. cbn [bind]. rewrite H2. cbn [bind].
  unfold plain in P. rewrite P. cbn [bind jlen length]. destruct (Nat.ltb (length d) 0) eqn:E; [|reflexivity].
  apply Nat.ltb_lt in E. exfalso. exact (Nat.nlt_0_r _ E).
Qed.
Lemma discovered_full info d : full_answer info d -> discovered_legacy info = Ok (mkLegacy info (Some d) None []).
Proof.
  intros (i & s & -> & H1 & H2 & N). unfold discovered_legacy. cbn [jcontains jitem]. unfold dmem, dindex. rewrite H1. cbn [bind jget].
  rewrite H2. cbn [bind truthy]. destruct d; [congruence|reflexivity].
Qed.
Theorem full_discovery_shows : forall k info d time o u p,
  full_answer info d -> plain d ->
  discovered_legacy info = Ok o -> updated_legacy k info time = Ok u ->
  (p = PTime -> k = KCamera) -> (p = PIsOn -> k <> KStrip) ->
  legacy_read k o p = legacy_read k u p.
Proof.
  intros k info d time o u p F P Ho Hu Ht Hs. rewrite (discovered_full _ _ F) in Ho. injection Ho as <-.
  unfold updated_legacy in Hu. rewrite (extract_plain _ _ F P) in Hu. injection Hu as <-.
  destruct p; try reflexivity.
  - rewrite (Ht eq_refl). reflexivity.
  - destruct k; try reflexivity. destruct (Hs eq_refl eq_refl).
Qed.
Print Assumptions full_discovery_shows.
(** and both objects exist *)
Theorem full_discovery_exists : forall k info d time, full_answer info d -> plain d ->
  (exists o, discovered_legacy info = Ok o) /\ exists u, updated_legacy k info time = Ok u.
Proof.
  intros k info d time F P. split; [eexists; apply (discovered_full _ _ F)|]. unfold updated_legacy. rewrite (extract_plain _ _ F P). eexists; reflexivity.
Qed.
Print Assumptions full_discovery_exists.
(** Whether the object of an updated device, or by [full_discovery_shows] a discovered
    plug or bulb, is on: exactly what the system information says; where it does not say,
    reading fails. *)
Lemma find_socket l i c : NoDup (map (dget "id") l) -> In c l -> dget "id" c = Some (JStr i) ->
  find (fun c => match c with JObj c => match dget "id" c with Some (JStr i') => String.eqb i' i | _ => false end | _ => false end) (map JObj l) = Some (JObj c).
Proof.
  induction l as [|c' l IH]; intros N I E; [destruct I|]. cbn [map] in N. inversion N as [|x y Nx Ny E1]. subst. cbn [map find].
  destruct I as [->|I].
  - rewrite E, String.eqb_refl. reflexivity.
  - destruct (dget "id" c') as [[| | | |i'| |]|] eqn:Ec; try apply (IH Ny I E).
    destruct (String.eqb_spec i' i) as [->|]; [|apply (IH Ny I E)].
    exfalso. apply Nx. rewrite <- E. apply (in_map (dget "id")). exact I.
Qed.
Lemma any_on_spec d l : dget "children" d = Some (JArr (map JObj l)) -> NoDup (map (dget "id") l) ->
  (forall c, In c l -> exists i v, dget "id" c = Some (JStr i) /\ dget "state" c = Some v) ->
  forall ids, (forall i, In i ids -> exists c, In c l /\ dget "id" c = Some (JStr i)) ->
  any_on d ids = Ok true /\ (exists i, In i ids /\ socket_on d i) \/ any_on d ids = Ok false /\ (forall i, In i ids -> ~ socket_on d i).
Proof.
  intros Hc N Hs ids. induction ids as [|i ids IH]; intros Hi.
  - right. split; [reflexivity|intros ? []].
  - destruct (Hi i (or_introl eq_refl)) as (c & Ic & Ec). destruct (Hs c Ic) as (i' & v & Ei & Ev).
    cbn [any_on]. unfold socket_is_on, dindex. rewrite Hc. cbn [bind jiter]. rewrite (find_socket l i c N Ic Ec). cbn [jitem]. unfold dindex. rewrite Ev. cbn [bind].
    destruct (truthy v) eqn:T.
    + left. split; [reflexivity|]. exists i. split; [now left|]. exists (map JObj l), c, v. repeat split; auto. apply in_map. exact Ic.
    + destruct (IH (fun j H => Hi j (or_intror H))) as [[E (j & Ij & Hj)]|[E Hn]].
      * left. split; [exact E|]. exists j. split; [now right|exact Hj].
      * right. split; [exact E|]. intros j [<-|Ij]; [|apply Hn; exact Ij].
        intros (l' & c' & v' & H1 & H2 & H3 & H4 & H5). rewrite Hc in H1. injection H1 as <-. apply in_map_iff in H2. destruct H2 as (c'' & E2 & I2). injection E2 as ->.
        assert (Some (JObj c) = Some (JObj c')) as Ecc by (rewrite <- (find_socket l i c N Ic Ec); apply (find_socket l i c' N I2 H3)).
        injection Ecc as <-. congruence.
Qed.
Lemma socket_ids_In d l : dget "children" d = Some (JArr (map JObj l)) ->
  forall i, In i (socket_ids d) <-> exists c, In c l /\ dget "id" c = Some (JStr i).
Proof.
  intros Hc i. unfold socket_ids. rewrite Hc, in_flat_map. split.
  - intros (c & I & H). apply in_map_iff in I. destruct I as (c' & <- & I). exists c'. split; [exact I|].
    destruct (dget "id" c') as [[| | | |i'| |]|]; cbn in H; intuition congruence.
  - intros (c & I & H). exists (JObj c). split; [apply in_map; exact I|]. rewrite H. now left.
Qed.
Theorem updated_shows : forall k info d time u b,
  full_answer info d -> plain d -> updated_legacy k info time = Ok u ->
  (k = KStrip -> proper_sockets d) ->
  (k = KBulb -> exists ls dft, dget "light_state" d = Some (JObj ls) /\ dget "dft_on_state" ls = Some (JObj dft)) ->
  legacy_read k u PIsOn = Ok (JBool b) <-> says_on k d b.
Proof.
  intros k info d time u b F P Hu Hk Hb. unfold updated_legacy in Hu. rewrite (extract_plain _ _ F P) in Hu. cbn [bind] in Hu. injection Hu as <-.
  assert (G : forall so n, guard (mkLegacy info (Some d) (Some time) so) n = Ok tt).
  { intros so n. unfold guard, requires_update. cbn [l_last l_sys]. destruct F as (i & s & -> & H1 & _ & _). destruct i; [discriminate H1|]. reflexivity. }
  destruct k; cbn [legacy_read says_on]; rewrite ?G; cbn [bind sys_of l_sys l_sockets].
  - unfold dindex. destruct (dget "relay_state" d) as [v|]; cbn [bind]; split.
    + intros E. injection E as <-. eauto.
    + intros (v' & E & <-). injection E as ->. reflexivity.
    + discriminate.
    + intros (v' & E & _). discriminate.
  - destruct (Hb eq_refl) as (ls & dft & E1 & E2). unfold bulb_on, dindex. rewrite E1. cbn [bind jitem]. unfold dindex. rewrite E2.
    destruct (dget "on_off" ls) as [v|] eqn:E3; cbn [bind].
    + destruct (truthy v) eqn:T; cbn [bind]; split.
      * intros E. injection E as <-. eauto.
      * intros (ls' & v' & Q1 & Q2 & <-). congruence.
      * intros E. injection E as <-. eauto.
      * intros (ls' & v' & Q1 & Q2 & <-). congruence.
    + split; [discriminate|]. intros (ls' & v' & Q1 & Q2 & _). congruence.
  - destruct (Hk eq_refl) as (l & Hc & N & Hs).
    assert (SI := socket_ids_In d l Hc).
    assert (A : any_on d (socket_ids d) = Ok true /\ (exists id, socket_on d id) \/ any_on d (socket_ids d) = Ok false /\ (forall id, ~ socket_on d id)).
    { destruct (any_on_spec d l Hc N Hs (socket_ids d) (fun i H => proj1 (SI i) H)) as [[E (i & _ & Hi)]|[E Hn]]; [left; eauto|right].
      split; [exact E|]. intros i So. apply (Hn i); [|exact So]. apply SI. destruct So as (l' & c & v & H1 & H2 & H3 & _).
      rewrite Hc in H1. injection H1 as <-. apply in_map_iff in H2. destruct H2 as (c' & E2 & I2). injection E2 as ->. eauto. }
    match goal with |- ?x = _ <-> _ => replace x
      with (let! b0 := any_on d (socket_ids d) in Ok (JBool b0)) by (destruct (socket_ids d); reflexivity) end.
    destruct A as [[A S]|[A S]]; rewrite ?A; cbn [bind]; destruct b; split; intros H; try reflexivity; try discriminate; try assumption.
    + destruct S as (i & S). destruct (H i S).
    + destruct H as (i & H). destruct (S i H).
  - split; [intros E; injection E as <-; reflexivity|intros ->; reflexivity].
Qed.
Print Assumptions updated_shows.
Definition hs300_info : dict json :=
  [("model", JStr "HS300(US)"); ("children", JArr [JObj [("id", JStr "00"); ("state", JInt 0)]; JObj [("id", JStr "01"); ("state", JInt 1)]])].
Example updated_strip_case : full_answer (JObj [("system", JObj [("get_sysinfo", JObj hs300_info)])]) hs300_info /\ plain hs300_info /\ proper_sockets hs300_info /\
  says_on KStrip hs300_info true /\ says_on KPlug [("relay_state", JInt 0)] false.
Proof.
  split; [|split; [reflexivity|split; [|split]]].
  - eexists _, _. repeat split. discriminate.
  - exists [[("id", JStr "00"); ("state", JInt 0)]; [("id", JStr "01"); ("state", JInt 1)]]. split; [reflexivity|]. split.
    + repeat constructor; cbn; intuition discriminate.
    + intros c [<-|[<-|[]]]; eexists _, _; split; reflexivity.
  - exists "01", [JObj [("id", JStr "00"); ("state", JInt 0)]; JObj [("id", JStr "01"); ("state", JInt 1)]], [("id", JStr "01"); ("state", JInt 1)], (JInt 1).
    split; [reflexivity|]. split; [right; left; reflexivity|]. repeat split.
  - exists (JInt 0). split; reflexivity.
Qed.
(** What those values are, for a plug *)
Definition hs110 : json := JObj [("system", JObj [("get_sysinfo", JObj
  [("sw_ver", JStr "1.5.4 Build 180815 Rel.121440"); ("hw_ver", JStr "2.0"); ("type", JStr "IOT.SMARTPLUGSWITCH"); ("model", JStr "HS110(EU)");
   ("mac", JStr "50-C7-BF-00-00-00"); ("alias", JStr "Bedroom Lamp Plug"); ("relay_state", JInt 1); ("rssi", JInt (-71))])])].
Example full_discovery_case :
  exists o, discovered_legacy hs110 = Ok o /\
  legacy_read KPlug o PModel = Ok (JStr "HS110") /\ legacy_read KPlug o PMac = Ok (JStr "50:C7:BF:00:00:00") /\
  legacy_read KPlug o PAlias = Ok (JStr "Bedroom Lamp Plug") /\ legacy_read KPlug o PIsOn = Ok (JBool true) /\ legacy_read KPlug o PRssi = Ok (JInt (-71)).
Proof. eexists. split; [reflexivity|]. vm_compute. repeat split. Qed.

(** An object found by the short answer shows its model, its address and its id, and asks
    for an update for all else. *)
Theorem short_discovery_shows : forall k d m a c,
  short_answer d -> dget "device_model" d = Some (JStr m) -> dget "mac" d = Some (JStr a) -> dget "device_id" d = Some c ->
  exists o, discovered_legacy (JObj d) = Ok o /\
    legacy_read k o PModel = Ok (JStr (fst (partition "(" m))) /\
    legacy_read k o PMac = (let! x := mac [("mac", JStr a)] in Ok (JStr x)) /\
    legacy_read k o PDeviceId = legacy_read k o PMac /\
    forall p, In p [PRssi; PHwInfo; PSysInfo; PTime; PIsOn] -> ~ (k = KCamera /\ p = PIsOn) -> legacy_read k o p = Err KKasa.
Proof.
  intros k d m a c [S N] Hm Ha Hc. unfold discovered_legacy. cbn [jcontains]. unfold dmem. rewrite S. cbn [bind truthy].
  cbn [jitem]. unfold dindex. rewrite Hm. cbn [bind]. eexists. split; [reflexivity|].
  assert (G : forall x, x <> "model" -> dget x (dset "model" (JStr (fst (partition "(" m))) d) = dget x d) by (intros x Hx; now apply dget_dset_other).
  split; [|split; [|split]].
  - unfold legacy_read, guard, requires_update. cbn [l_last l_sys truthy negb andb]. unfold dmem. rewrite dget_dset_same. cbn [negb bind sys_of l_sys].
    unfold dindex. now rewrite dget_dset_same.
  - unfold legacy_read, guard, requires_update. cbn [l_last l_sys truthy negb andb]. unfold dmem. rewrite G by discriminate. rewrite Ha. cbn [negb bind sys_of l_sys].
    unfold mac. rewrite G by discriminate. rewrite Ha. reflexivity.
  - unfold legacy_read, guard, requires_update. cbn [l_last l_sys truthy negb andb]. unfold dmem. rewrite !G by discriminate. rewrite Ha, Hc. reflexivity.
  - intros p Hp Hk. assert (X : forall x, In x ["is_on"; "rssi"; "hw_info"; "time"; "sys_info"; "modules"; "light_state"] -> x <> "model" ->
      dmem x (dset "model" (JStr (fst (partition "(" m))) d) = false).
    { intros x Hx Hn. unfold dmem. rewrite G by exact Hn. now rewrite (N x Hx). }
    destruct Hp as [<-|[<-|[<-|[<-|[<-|[]]]]]]; unfold legacy_read, guard, iot_rssi, iot_hw_info, requires_update; cbn [l_last l_sys truthy negb andb];
      [rewrite X by (cbn; auto 10; discriminate); reflexivity|rewrite X by (cbn; auto 10; discriminate); reflexivity|rewrite X by (cbn; auto 10; discriminate); reflexivity| |];
      destruct k; try (exfalso; apply Hk; split; reflexivity); rewrite X by (cbn; auto 10; discriminate); reflexivity.
Qed.
Print Assumptions short_discovery_shows.
Definition klap_plug : dict json :=
  [("device_type", JStr "IOT.SMARTPLUGSWITCH"); ("device_model", JStr "HS100(UK)"); ("device_id", JStr "f1a2"); ("ip", JStr "127.0.0.1"); ("mac", JStr "AA-BB-CC-00-11-22");
   ("model", JStr "HS100")].
Example short_discovery_case : short_answer klap_plug /\
  exists o, discovered_legacy (JObj klap_plug) = Ok o /\ legacy_read KPlug o PModel = Ok (JStr "HS100") /\ legacy_read KPlug o PDeviceId = Ok (JStr "AA:BB:CC:00:11:22").
Proof.
  split; [split; [reflexivity|]|]. { intros k H. repeat (destruct H as [<-|H]; [reflexivity|]). destruct H. }
  eexists. split; [reflexivity|]. vm_compute. auto.
Qed.

(** ** Where it fails *)
(** A discovered strip counts as updated but has no sockets: it is shown off, whatever its
    sockets are, and turning it on or off sends nothing and fails nothing. *)
Theorem discovered_strip_refuted : forall info d o, full_answer info d -> discovered_legacy info = Ok o ->
  legacy_read KStrip o PIsOn = Ok (JBool false) /\ forall on, strip_switch o on = Ok [].
Proof.
  intros info d o F H. rewrite (discovered_full _ _ F) in H. injection H as <-. split; [|reflexivity].
  destruct F as (i & s & -> & H1 & _). unfold legacy_read, guard, requires_update. cbn [l_last truthy l_sys l_sockets].
  destruct i; [discriminate|reflexivity].
Qed.
Print Assumptions discovered_strip_refuted.
Definition hs300 : json := JObj [("system", JObj [("get_sysinfo", JObj
  [("model", JStr "HS300(US)"); ("children", JArr [JObj [("id", JStr "00"); ("state", JInt 1)]; JObj [("id", JStr "01"); ("state", JInt 0)]])])])].
Example discovered_strip_case :
  (exists d, full_answer hs300 d /\ socket_on d "00") /\
  exists u, updated_legacy KStrip hs300 JNull = Ok u /\ legacy_read KStrip u PIsOn = Ok (JBool true) /\
    strip_switch u false = Ok [socket_relay "00" false] /\ strip_switch u true = Ok [socket_relay "01" true].
Proof.
  split.
  - eexists. split; [eexists _, _; split; [reflexivity|split; [reflexivity|split; [reflexivity|discriminate]]]|].
    eexists _, _, _. split; [reflexivity|]. split; [left; reflexivity|]. split; [reflexivity|]. split; reflexivity.
  - eexists. split; [reflexivity|]. vm_compute. auto.
Qed.
(** Asked for the time, a discovered device fails with a TypeError instead of asking for
    an update. *)
Theorem discovered_time_refuted : forall k info d o, k <> KCamera -> full_answer info d -> discovered_legacy info = Ok o ->
  legacy_read k o PTime = Err PyTypeError.
Proof.
  intros k info d o Hk F H. rewrite (discovered_full _ _ F) in H. injection H as <-.
  destruct F as (i & s & -> & H1 & _). unfold legacy_read, guard, requires_update. cbn [l_last truthy l_sys l_time].
  destruct i; [discriminate|]. destruct k; try reflexivity. congruence.
Qed.
Print Assumptions discovered_time_refuted.
(** The system information of a camera is inside another one; discovery does not look
    there: no name and no address are shown, which an update with the same answer shows. *)
Definition kc100 : json := JObj [("system", JObj [("get_sysinfo", JObj [("system", JObj
  [("alias", JStr "Porch"); ("mac", JStr "50:C7:BF:00:00:01"); ("type", JStr "IOT.IPCAMERA"); ("system_time", JInt 1600000000)]); ("err_code", JInt 0)])])].
Theorem discovered_camera_refuted :
  exists o u, discovered_legacy kc100 = Ok o /\ updated_legacy KCamera kc100 JNull = Ok u /\
    legacy_read KCamera o PAlias = Ok JNull /\ legacy_read KCamera u PAlias = Ok (JStr "Porch") /\
    legacy_read KCamera o PMac = Err KKasa /\ legacy_read KCamera u PMac = Ok (JStr "50:C7:BF:00:00:01") /\
    legacy_read KCamera o PTime = Err PyKeyError /\ legacy_read KCamera u PTime = Ok (JInt 1600000000).
Proof. eexists _, _. split; [reflexivity|]. split; [reflexivity|]. vm_compute. repeat split. Qed.
Print Assumptions discovered_camera_refuted.

(** A SMART object shows the model, address and id it was told; it shows the device as
    off and the time of the computer whatever the device does; and without discovery it
    shows the text None for what it does not know, and never asks for an update. *)
Theorem smart_fresh_partial : forall d m a i,
  dget "device_model" d = Some (JStr m) -> dget "mac" d = Some (JStr a) -> dget "device_id" d = Some (JStr i) ->
  smart_model d = fst (partition "(" m) /\ smart_mac d = dash_to_colon a /\ smart_device_id d = i.
Proof. intros d m a i Hm Ha Hi. unfold smart_model, smart_mac, smart_device_id. rewrite Hm, Ha, Hi. repeat split. Qed.
Print Assumptions smart_fresh_partial.
Theorem smart_fresh_refuted : forall d local, dget "device_on" d = None ->
  smart_on d = false /\ smart_time None None local = local /\ smart_model [] = "None" /\ smart_mac [] = "None" /\ smart_device_id [] = "None".
Proof. intros d local H. unfold smart_on. rewrite H. repeat split. Qed.
Print Assumptions smart_fresh_refuted.
Example smart_fresh_case : smart_mac klap_plug = "AA:BB:CC:00:11:22" /\ smart_model klap_plug = "HS100" /\ dget "device_on" klap_plug = None
  /\ smart_on [("device_on", JBool true)] = true /\ smart_time (Some 5) None 9 = 5.
Proof. repeat split. Qed.

(** Commands: the switch command of a plug, and of a SMART device, reaches the device
    without an update. *)
Theorem fresh_switch : forall info o on, discovered_legacy info = Ok o \/ o = new_legacy ->
  plug_switch o on = Ok [JObj [("system", JObj [("set_relay_state", JObj [("state", JInt (if on then 1 else 0))])])]] /\
  smart_switch on = [("set_device_info", JObj [("device_on", JBool on)])].
Proof. repeat split. Qed.
Print Assumptions fresh_switch.
(** A camera that was not updated is shown on and its switch command sends nothing and
    fails nothing; updated, it shows its mask and sends the command. *)
Theorem fresh_camera_refuted : forall l on, ln_disabled l = false ->
  camera_on None = true /\ camera_switch None on = [] /\ camera_on (Some l) = ln_on l /\
  camera_switch (Some l) on = [("setLensMaskConfig", JObj [("lens_mask", JObj [("lens_mask_info", JObj [("enabled", JStr (if on then "off" else "on"))])])])].
Proof. intros l on H. unfold camera_on, camera_switch. rewrite H. repeat split. Qed.
Print Assumptions fresh_camera_refuted.
Example fresh_camera_case : camera_on (Some (mkLens false false)) = false /\ camera_on None = true.
Proof. split; reflexivity. Qed.

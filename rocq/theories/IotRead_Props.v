(** Property C162: every reading of a legacy module is what the device last replied. *)
From Verif Require Import Base Py Base_Lemmas Crypto_Model Sensor_Model Read_Model Read_Spec Read_Proofs Iot_Model Iot_Spec IotUpd_Model WholeIot_Model WholeIot_Spec WholeIot_Props IotRead_Model IotRead_Spec IotRead_Proofs.
Open Scope string_scope.
Open Scope list_scope.
Open Scope Z_scope.

(** A reading gives a value exactly if the device reported it, and then that one. *)
Theorem legacy_readings_show : forall bulb o r v,
  lread bulb o r = Ok v <-> lmeans bulb (shows o) (l_sys o) r = Some v.
Proof. intros bulb o r. apply agree_iff, lread_agrees. Qed.
Print Assumptions legacy_readings_show.

(** Only the replies to the commands of the reading matter. *)
Lemma lmeans_ext bulb w w' sys sys' r : (forall c, In c (commands r) -> w (key bulb r) c = w' (key bulb r) c) -> (r = LedLit -> sys = sys') ->
  lmeans bulb w sys r = lmeans bulb w' sys' r.
Proof.
  intros H S.
  assert (C : w "smartlife.iot.PIR" "get_config" = w' "smartlife.iot.PIR" "get_config" -> sensor_of w = sensor_of w').
  { intros E. unfold sensor_of, fld2. now rewrite E. }
  destruct r; cbn [commands key] in H; cbn [lmeans]; unfold of_sensor, cloud_of, fld2.
  1-9: try rewrite C by (apply H; cbn; auto).
  all: try rewrite (H "get_config") by (cbn; auto).
  all: try rewrite (H "get_adc_value") by (cbn; auto).
  all: try rewrite (H "get_current_brt") by (cbn; auto).
  all: try rewrite (H "get_dimmer_parameters") by (cbn; auto).
  all: try (destruct bulb; rewrite (H "get_daystat") by (cbn; auto)).
  all: try (destruct bulb; rewrite (H "get_monthstat") by (cbn; auto)).
  all: try (destruct bulb; rewrite (H "get_info") by (cbn; auto)).
  all: try reflexivity.
  now rewrite (S eq_refl).
Qed.

(** ** Over a protocol: after an update, the readings whose commands were asked for *)
Theorem legacy_readings_after_update : forall D dumps (dev_send : D -> bytes -> D * res json) treset facts init o d d' o' out s bulb r f,
  l_lu o <> [] -> l_mods o <> [] -> ordinary (l_mods o) ->
  tells (l_mods o) dumps dev_send facts -> informs (facts d) s ->
  iperform dumps dev_send treset (update_legacy init o IRet) d = (d', (o', out)) ->
  facts d (key bulb r) = Some f -> (forall c, In c (commands r) -> wants o (key bulb r) c) ->
  out = Ok tt /\
  forall v, lread bulb o' r = Ok v <-> lmeans bulb (fun k c => option_map (fun f => f c) (facts d k)) (Some (JObj s)) r = Some v.
Proof.
  intros D dumps dev_send treset facts init o d d' o' out s bulb r f L M O T I H F W.
  destruct (legacy_update_shows_device D dumps dev_send treset facts init o d d' o' out L M O T H) as (_ & (_ & _ & G) & S).
  destruct (S s I) as (-> & E). split; [reflexivity|]. intros v. rewrite legacy_readings_show.
  rewrite (lmeans_ext bulb (shows o') (fun k c => option_map (fun f => f c) (facts d k)) (l_sys o') (Some (JObj s))); [reflexivity| |intros _; exact E].
  intros c Hc. specialize (G (key bulb r)). rewrite F in *. exact (proj1 (G c) (W c Hc)).
Qed.
Print Assumptions legacy_readings_after_update.

(** A module that was never updated: an error of the library. *)
Theorem legacy_readings_before_update : forall bulb o r,
  (if commands r then l_sys o = None else dget (key bulb r) (l_lu o) = None) -> lread bulb o r = Err KKasa.
Proof.
  intros bulb o r H.
  destruct r; cbn [commands] in H; cbn [lread];
    unfold adc, pir, las, dimmer, cloud, entry_of, reply_of, ldata, sysinfo; cbn [key] in *; now rewrite H.
Qed.
Print Assumptions legacy_readings_before_update.

(** ** A command the device refused: the reading fails with an error that is not the library's, and the
    device's code is lost (a SMART device's is raised, C160). *)
Theorem legacy_refused_reading_refuted : forall bulb o r c v,
  In c (commands r) -> shows o (key bulb r) c = Some v -> refusal v ->
  (c = "get_adc_value" -> sensor_of (shows o) <> None) ->
  lread bulb o r = Err (match r with CloudInfo | CloudOnline => PyOther | _ => PyKeyError end).
Proof.
  intros bulb o r c v I V (code & msg & ->) S.
  assert (R : forall m, key bulb m = key bulb r -> reply_of bulb o m c = Ok (JObj [("err_code", JInt code); ("err_msg", JStr msg)])).
  { intros m E. unfold reply_of, ldata. rewrite E. unfold shows, field in V. destruct (dget (key bulb r) (l_lu o)) as [d|]; [|discriminate]. cbn. unfold dindex. now rewrite V. }
  assert (X : forall m k, key bulb m = key bulb r -> k <> "err_code" -> k <> "err_msg" -> entry_of bulb o m c k = Err PyKeyError).
  { intros m k E N1 N2. unfold entry_of. rewrite (R m E). cbn. unfold dindex. cbn. 
    destruct (String.eqb_spec k "err_code"); [congruence|]. destruct (String.eqb_spec k "err_msg"); [congruence|]. reflexivity. }
  assert (P : c = "get_config" -> key bulb MotionOn = key bulb r -> pir bulb o = Err PyKeyError).
  { intros -> E. unfold pir. now rewrite (R MotionOn E). }
  assert (A : c = "get_adc_value" -> key bulb MotionOn = key bulb r -> adc bulb o = Err PyKeyError).
  { intros -> E. unfold adc. rewrite (X MotionAdc "value" E) by discriminate. pose proof (agr_sensor bulb o) as G.
    destruct (pir bulb o) as [x|e]; [reflexivity|]. specialize (S eq_refl). destruct (sensor_of (shows o)); [contradiction G|congruence]. }
  destruct r; cbn [commands In] in I.
  1-7: destruct I as [<-|[]]; cbn [lread]; try (rewrite P by reflexivity; reflexivity); unfold plain; rewrite (X MotionTimeout) by (reflexivity || discriminate); reflexivity.
  1-2: destruct I as [<-|[<-|[]]]; cbn [lread]; [unfold adc; rewrite P by reflexivity; reflexivity|rewrite A by reflexivity; reflexivity].
  all: try (destruct I as [<-|[]]); try contradiction; cbn [lread].
  1-2: unfold las; rewrite (X AmbientOn) by (reflexivity || discriminate); reflexivity.
  1: rewrite (X AmbientBrightness) by (reflexivity || discriminate); reflexivity.
  1-6: unfold dimmer; rewrite (X DimThreshold) by (reflexivity || discriminate); reflexivity.
  1: rewrite (X UsageDays) by (reflexivity || discriminate); reflexivity.
  1: rewrite (X UsageMonths) by (reflexivity || discriminate); reflexivity.
  all: unfold cloud; rewrite (R CloudInfo) by reflexivity; reflexivity.
Qed.
Print Assumptions legacy_refused_reading_refuted.

(** ** The motion sensor read in between updates: what the call returns is what is shown from then on,
    and nothing else changes; a failing call changes nothing. *)
Theorem pir_state_is_shown : forall bulb o answer o' out,
  get_pir_state bulb o answer = (o', out) -> dget "smartlife.iot.PIR" (l_lu o) <> None ->
  (forall e, answer = Err e -> o' = o /\ out = Err e) /\
  (forall latest, answer = Ok latest ->
     (forall k c, shows o' k c = if (k =? "smartlife.iot.PIR")%string && (c =? "get_adc_value")%string then Some latest else shows o k c)
     /\ l_sys o' = l_sys o /\ l_mods o' = l_mods o /\ l_limit o' = l_limit o
     /\ forall v, out = Ok v <-> lread bulb o' MotionAdc = Ok (Plain v)).
Proof.
  intros bulb o answer o' out H L. unfold get_pir_state, ldata in H. cbn [key] in H. destruct (dget "smartlife.iot.PIR" (l_lu o)) as [d|] eqn:E; [clear L|congruence].
  destruct answer as [latest|e]; [|injection H as <- <-; split; [intros e0 X; injection X as <-; auto|discriminate]].
  split; [discriminate|]. intros l0 X. injection X as <-. injection H as <- Ho.
  set (o' := set_lu _ o).
  assert (Sh : forall k c, shows o' k c = if (k =? "smartlife.iot.PIR")%string && (c =? "get_adc_value")%string then Some latest else shows o k c).
  { intros k c. unfold shows, field, o', set_lu. cbn [l_lu]. rewrite dget_dset. destruct (String.eqb_spec k "smartlife.iot.PIR") as [->|N]; cbn [andb]; [|reflexivity].
    rewrite dget_dset, E. reflexivity. }
  split; [exact Sh|]. split; [reflexivity|]. split; [reflexivity|]. split; [reflexivity|].
  assert (P : pir bulb o' = pir bulb o).
  { unfold pir, reply_of, ldata, o', set_lu. cbn [l_lu key]. rewrite dget_dset_same, E. cbn [bind]. unfold dindex. rewrite dget_dset_other by discriminate. reflexivity. }
  assert (A : entry_of bulb o' MotionAdc "get_adc_value" "value" = jitem "value" latest).
  { unfold entry_of, reply_of, ldata, o', set_lu. cbn [l_lu key]. rewrite dget_dset_same. cbn [bind]. unfold dindex. now rewrite dget_dset_same. }
  intros v. subst out. cbn [lread]. unfold adc, plain. rewrite P, A. destruct (pir bulb o) as [x|e]; cbn [bind]; [|split; congruence].
  destruct (jitem "value" latest) as [y|e]; cbn [bind snd]; split; congruence.
Qed.
Print Assumptions pir_state_is_shown.

(** ** A dimmer with a motion sensor, and one that refuses to tell the sensor's value *)
Definition es20m (adc : json) : lobj := mkL
  [("system", [("get_sysinfo", JObj [("led_off", JInt 0)])]);
   ("smartlife.iot.PIR", [("get_config", JObj [("array", JArr [JInt 80; JInt 50; JInt 20; JInt 0]); ("cold_time", JInt 120000); ("enable", JInt 0);
                                              ("max_adc", JInt 4095); ("min_adc", JInt 0); ("trigger_index", JInt 1)]); ("get_adc_value", adc)]);
   ("smartlife.iot.LAS", [("get_config", JObj [("devs", JArr [JObj [("enable", JInt 1); ("level_array", JArr [JObj [("name", JStr "cloudy")]])]])]);
                         ("get_current_brt", JObj [("value", JInt 16)])]);
   ("smartlife.iot.dimmer", [("get_dimmer_parameters", JObj [("gentleOffTime", JInt 10000); ("minThreshold", JInt 5); ("rampRate", JInt 30)])]);
   ("schedule", [("get_daystat", JObj [("day_list", JArr [])])]);
   ("cnCloud", [("get_info", JObj [("binded", JInt 1); ("cld_connection", JInt 1); ("fwDlPage", JStr ""); ("fwNotifyType", JInt (-1)); ("illegalType", JInt 0);
                                  ("server", JStr "n-devs.tplinkcloud.com"); ("stopConnect", JInt 0); ("tcspInfo", JStr ""); ("tcspStatus", JInt 1);
                                  ("username", JStr "user@example.com")])])]
  (Some (JObj [("led_off", JInt 0)])) [] 16384.
Example es20m_reads :
  let o := es20m (JObj [("value", JInt 2107); ("err_code", JInt 0)]) in
  map (lread false o) [MotionOn; MotionMid; MotionRange; MotionThreshold; MotionTimeout; MotionAdc; MotionValue; AmbientOn; AmbientBrightness; DimGentleOff; DimThreshold; CloudOnline; UsageDays; LedLit]
  = [Ok (Plain (JBool false)); Ok (Plain (JInt 2047)); Ok (Plain (JStr "Mid")); Ok (Plain (JInt 50)); Ok (Plain (JInt 120000)); Ok (Plain (JInt 2107)); Ok (Plain (JInt (-60)));
     Ok (Plain (JBool true)); Ok (Plain (JInt 16)); Ok (Thousandths (JInt 10000)); Ok (Plain (JInt 5)); Ok (Plain (JBool true)); Ok (Plain (JArr [])); Ok (Plain (JBool true))].
Proof. vm_compute. reflexivity. Qed.
Example es20m_refuses :
  let o := es20m (JObj [("err_code", JInt (-2)); ("err_msg", JStr "member not support")]) in
  lread false o MotionAdc = Err PyKeyError /\ lread false o MotionRange = Ok (Plain (JStr "Mid")) /\ sensor_of (shows o) <> None.
Proof. vm_compute. repeat split; discriminate. Qed.
Example es20m_asked :
  let (o', out) := get_pir_state false (es20m (JObj [("value", JInt 2107)])) (Ok (JObj [("value", JInt 3000)])) in
  out = Ok (JInt 3000) /\ lread false o' MotionValue = Ok (Plain (JInt (-953))).
Proof. vm_compute. auto. Qed.
(** The dimmer as a device that reads requests spelled as in [WholeIot_Props], and its object before an update *)
Definition es_facts (_ : unit) : device := fun k =>
  match dget k (l_lu (es20m (JObj [("value", JInt 2107)]))) with
  | Some d => Some (fun c => match dget c d with Some v => v | None => JObj [("err_code", JInt (-2)); ("err_msg", JStr "member not support")] end)
  | None => None
  end.
Definition es_send (s : unit) (b : bytes) : unit * res json :=
  (s, Ok (JObj (reply_to (es_facts s) (JObj (map (fun m : string * list string => (fst m, JObj (map (fun c => (c, JNull)) (snd m)))) (snd (group (tokens b []))))))))%string.
Definition es_mods : list imodule := [mkM "smartlife.iot.PIR" 256 ["get_config"; "get_adc_value"] true; mkM "cnCloud" 256 ["get_info"] true].
Definition es_old : lobj := mkL [("system", [("get_sysinfo", JObj [])])] (Some (JObj [])) es_mods 16384.
Example es20m_updated :
  l_lu es_old <> [] /\ l_mods es_old <> [] /\ ordinary (l_mods es_old) /\ tells (l_mods es_old) px_dumps es_send es_facts /\
  informs (es_facts tt) [("led_off", JInt 0)] /\
  (forall c, In c (commands MotionValue) -> wants es_old "smartlife.iot.PIR" c) /\ es_facts tt "smartlife.iot.PIR" <> None /\
  exists o', iperform px_dumps es_send (fun d => d) (update_legacy (fun _ => []) es_old IRet) tt = (tt, (o', Ok tt)) /\
    lread false o' MotionValue = Ok (Plain (JInt (-60))) /\ lread false o' CloudOnline = Ok (Plain (JBool true)) /\ lread false o' LedLit = Ok (Plain (JBool true)).
Proof.
  split; [discriminate|]. split; [discriminate|]. split.
  { intros m [<-|[<-|[]]]; cbn; repeat split; try (intuition discriminate); repeat constructor; cbn; intuition discriminate. }
  split.
  { intros [] q (_ & (l & -> & S) & _) _. exists tt. split; [|reflexivity]. unfold es_send. rewrite (group_dumps l S). cbn [snd]. do 3 f_equal.
    unfold reply_to. rewrite !map_map. apply map_ext_in. intros [k v] Hi. cbn [fst snd]. f_equal. destruct (S k v Hi) as [cs ->].
    unfold answer_of. destruct (es_facts tt k); [|reflexivity]. rewrite !map_map. reflexivity. }
  split; [eexists; repeat split|]. split.
  { intros c Hc. right. exists (mkM "smartlife.iot.PIR" 256 ["get_config"; "get_adc_value"] true). cbn in *. auto 8. }
  split; [discriminate|]. eexists. split; [vm_compute; reflexivity|]. vm_compute. auto.
Qed.

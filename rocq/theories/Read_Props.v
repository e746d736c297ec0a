(** Property C160: every reading of a SMART module is the field in which the device keeps it. *)
From Verif Require Import Base Py Base_Lemmas Smod_Model Smart_Model Gadget_Model Small_Model Read_Model Read_Spec Read_Proofs.
From Verif Require Import Smod_Props Retry_Model Smart_Spec Stack_Spec Stack2_Spec Whole_Model Whole_Spec Whole_Props.
Open Scope string_scope.
Open Scope list_scope.
Open Scope Z_scope.

(** An updated device, none of the module's requests refused: a reading gives a value exactly
    if the device reports it, and then that one.  Two readings are excepted; see below. *)
Theorem readings_show_partial : forall f w own parent info r,
  proper w -> w "get_device_info" = RVal (JObj info) -> r <> FrostMinimum -> r <> LedNight ->
  updated w (query f (module_of r)) own parent ->
  answered w (query f (module_of r)) (optional f (module_of r)) ->
  forall v, read f own parent info r = Ok v <-> means f w r = Some v.
Proof. intros f w own parent info r P I N1 N2 U A. apply agree_iff. now apply read_agrees. Qed.
Print Assumptions readings_show_partial.

(** What comes with the device info is shown whatever happens to the module's own requests. *)
Theorem info_readings_show : forall f w own parent info r,
  proper w -> w "get_device_info" = RVal (JObj info) -> from_info r = true ->
  forall v, read f own parent info r = Ok v <-> means f w r = Some v.
Proof.
  intros f w own parent info r P I F.
  set (w' := fun k => if String.eqb k "get_device_info" then RVal (JObj info) else RVal (JObj [])).
  assert (P' : proper w').
  { constructor.
    - unfold w'. intros k v E. destruct (String.eqb k "get_device_info"); injection E as <-; eauto.
    - unfold fld, w'. intros k K. reflexivity.
    - pose proof (p_switch _ P) as S. unfold fld in *. rewrite I in S. exact S.
    - unfold fld, w'. discriminate. }
  set (l := map (fun k => (k, w' k)) (nodup string_dec (query f (module_of r)))).
  assert (R : read f own parent info r = read f l None info r).
  { destruct r; try discriminate F; cbn [read]; unfold top, dt; reflexivity. }
  assert (M : means f w r = means f w' r).
  { destruct r; try discriminate F; cbn [means]; unfold fld; rewrite I; reflexivity. }
  rewrite R, M. apply readings_show_partial; try (intros ->; discriminate F); auto.
  - left. split.
    + unfold dwf, dkeys, l. rewrite map_map, map_id. apply NoDup_nodup.
    + intros k K. apply In_dget.
      * unfold dwf, dkeys, l. rewrite map_map, map_id. apply NoDup_nodup.
      * unfold l. apply in_map_iff. exists k. split; [reflexivity|]. now apply nodup_In.
  - intros k K _. unfold w'. destruct (String.eqb k "get_device_info"); eauto.
Qed.
Print Assumptions info_readings_show.

(** A request the device refuses, that is not optional: the other readings of that module
    raise the code of a refused one; the cloud connection counts as missing. *)
Theorem readings_refused : forall f w own parent info r k c,
  from_info r = false -> query f (module_of r) <> [] -> updated w (query f (module_of r)) own parent ->
  In k (query f (module_of r)) -> ~ In k (optional f (module_of r)) -> w k = RErr c ->
  if match r with CloudConnected => true | _ => false end then read f own parent info r = Ok (Plain (JBool false))
  else exists k' c', In k' (query f (module_of r)) /\ w k' = RErr c' /\ read f own parent info r = Err (KDevice (Some c')).
Proof.
  intros f w own parent info r k c F N U K O E.
  destruct (data_refused w own parent (JObj info) (class f (module_of r)) k c N U K O E) as (k' & c' & K' & E' & D).
  destruct r; try discriminate F; cbn [module_of] in D, K'; cbn [read]; try (now (contradiction N));
    unfold at_, top, dt; rewrite D; cbn [bind plain connected is_device_error flag text]; try reflexivity; exists k', c'; repeat split; auto.
Qed.
Print Assumptions readings_refused.

(** ** The night mode of the indicator: devices keep it in a record of its own, and reading it
    fails for all of them. *)
Theorem night_mode_shown_refuted : forall f w own parent info d v,
  w "get_led_info" = RVal (JObj d) -> dget "start_time" d = None -> means f w LedNight = Some v ->
  updated w (query f MLed) own parent -> read f own parent info LedNight = Err PyKeyError.
Proof.
  intros f w own parent info d v W S _ U. cbn [read]. unfold top, dt.
  rewrite (data_one w own parent (JObj info) (class f MLed) "get_led_info" (JObj d)); auto.
  cbn [bind Read_Model.whole Read_Model.as_dict]. unfold dindex. rewrite S. reflexivity.
Qed.
Print Assumptions night_mode_shown_refuted.

(** ** The minimum temperature of the frost protection: it is never asked for. *)
Theorem frost_minimum_shown_refuted : forall f w own parent info v,
  means f w FrostMinimum = Some v -> dget "min_temp" info = None ->
  ~ In "get_frost_protection" (query f MFrost) /\ read f own parent info FrostMinimum = Err PyKeyError.
Proof.
  intros f w own parent info v _ H. split; [intros []|]. cbn [read]. unfold top, dt, data, class. cbn [query m_query bind Read_Model.whole Read_Model.as_dict].
  unfold frost_minimum, dindex. rewrite H. reflexivity.
Qed.
Print Assumptions frost_minimum_shown_refuted.

(** ** Over a protocol: after an update of an object whose device does not change its answers
    meanwhile, the readings of every module that was asked for. *)
Theorem readings_after_update_partial : forall D (dev_send : D -> Smart_Model.request -> D * res (dict json)) ans treset par val init now d w w' d' r out
    f i req x,
  honest dev_send ans -> live dev_send -> complete dev_send -> 2 <= wbatch w ->
  started d = true -> dwf (lu d) ->
  perform (smart_ask dev_send treset) (update_object par init now d Ret) w = (w', (d', r, out)) ->
  (forall req k, requested r = Some req -> In k req -> known ans k (par k) (val k)) ->
  out = Ok tt -> requested r = Some req ->
  let told k := shown req (val k) in
  proper told -> info d' = JObj i -> x <> FrostMinimum -> x <> LedNight ->
  (forall k, In k (query f (module_of x)) -> In k req) ->
  answered told (query f (module_of x)) (optional f (module_of x)) ->
  forall v, read f (lu d') None i x = Ok v <-> means f told x = Some v.
Proof.
  intros D dev_send ans treset par val init now d w w' d' r out f i req x Hh Hl Hc Hb Hs Hd H Hv -> Q told P I N1 N2 S A.
  destruct (update_shows_device D dev_send ans treset par val init now d w w' d' r (Ok tt) Hh Hl Hc Hb Hs Hd H Hv)
    as (req' & Q' & _ & W & _ & G & _ & J).
  assert (req' = req) by congruence. subst req'. destruct (J eq_refl) as (V & _).
  apply readings_show_partial; auto.
  - unfold told. rewrite V, I. reflexivity.
  - left. split; [exact W|]. intros k K. rewrite G. unfold then_shown.
    destruct (in_dec string_dec k req) as [_|X]; [reflexivity|]. exfalso. apply X. auto.
Qed.
Print Assumptions readings_after_update_partial.

(** ** A plug with an energy meter of version 2 that refuses the usage, and its indicator *)
Definition plug_info : dict json :=
  [("device_on", JBool true); ("auto_off_status", JStr "on"); ("fw_ver", JStr "1.3.0"); ("power_protection_status", JStr "normal")].
Definition plug : answers := fun k =>
  if String.eqb k "get_device_info" then RVal (JObj plug_info)
  else if String.eqb k "get_emeter_data" then RVal (JObj [("current_ma", JInt 37); ("power_mw", JInt 4400); ("voltage_mv", JInt 230000)])
  else if String.eqb k "get_energy_usage" then RErr (-1001)
  else if String.eqb k "get_led_info" then
    RVal (JObj [("led_rule", JStr "always");
                ("night_mode", JObj [("end_time", JInt 438); ("night_mode_type", JStr "sunrise_sunset"); ("start_time", JInt 1056);
                                     ("sunrise_offset", JInt 0); ("sunset_offset", JInt 0)])])
  else if String.eqb k "get_frost_protection" then RVal (JObj [("min_temp", JInt 5); ("temp_unit", JStr "celsius")])
  else if String.eqb k "get_trigger_logs" then
    RVal (JObj [("logs", JArr [JObj [("event", JStr "motion"); ("eventId", JStr "ab"); ("id", JInt 4); ("timestamp", JInt 1700)]])])
  else RVal (JObj []).
Definition plug_state : dict reply :=
  map (fun k => (k, plug k)) ["get_device_info"; "get_led_info"; "get_emeter_vgain_igain"; "get_emeter_data"; "get_current_power"; "get_energy_usage"; "get_trigger_logs"].
Definition plug_facts := mkFacts 2 1.
Example plug_proper : proper plug.
Proof.
  constructor.
  - intros k v. unfold plug.
    repeat match goal with |- context [String.eqb k ?x] => destruct (String.eqb k x) end;
      intros E; try discriminate; injection E as <-; eauto.
  - intros k _. reflexivity.
  - reflexivity.
  - intros v E. cbn in E. injection E as <-. eauto.
Qed.
Example plug_updated : forall m, In m [MEnergy; MLed; MTriggerLogs; MFirmware; MFan] ->
  updated plug (query plug_facts m) plug_state None
  /\ answered plug (query plug_facts m) (optional plug_facts m).
Proof.
  intros m Hm. split.
  - left. split; [repeat constructor; cbn; intuition discriminate|].
    intros k K. destruct Hm as [<-|[<-|[<-|[<-|[<-|[]]]]]]; cbn in K;
    repeat (destruct K as [<-|K]; [reflexivity|]); destruct K.
  - intros k K N. destruct Hm as [<-|[<-|[<-|[<-|[<-|[]]]]]]; cbn in K, N;
    repeat (destruct K as [<-|K]; [try (eexists; reflexivity); exfalso; apply N; auto|]); destruct K.
Qed.
Example plug_reads :
  read plug_facts plug_state None plug_info EnergyNow = Ok (Thousandths (JInt 4400))
  /\ read plug_facts plug_state None plug_info EnergyMonth = Ok (Plain JNull)
  /\ read plug_facts plug_state None plug_info EnergyVoltage = Ok (Thousandths (JInt 230000))
  /\ read plug_facts plug_state None plug_info LedOn = Ok (Plain (JBool true))
  /\ read plug_facts plug_state None plug_info Logs =
       Ok (Plain (JArr [JObj [("id", JInt 4); ("event_id", JStr "ab"); ("timestamp", JInt 1700); ("event", JStr "motion")]]))
  /\ read plug_facts plug_state None plug_info AutoOffActive = Ok (Plain (JBool true))
  /\ read plug_facts plug_state None plug_info Humidity = Err PyKeyError.
Proof. repeat split. Qed.
Example plug_night_mode :
  means plug_facts plug LedNight =
    Some (Plain (JObj [("start", JInt 1056); ("end", JInt 438); ("type", JStr "sunrise_sunset"); ("sunrise_offset", JInt 0); ("sunset_offset", JInt 0)]))
  /\ read plug_facts plug_state None plug_info LedNight = Err PyKeyError
  /\ means plug_facts plug FrostMinimum = Some (Plain (JInt 5))
  /\ read plug_facts plug_state None plug_info FrostMinimum = Err PyKeyError.
Proof. repeat split. Qed.
(** A child whose own state lacks the answers of its hub *)
Example child_reads :
  read plug_facts [] (Some plug_state) [] LedMode = Ok (Plain (JStr "always"))
  /\ updated plug (query plug_facts MLed) [] (Some plug_state).
Proof.
  split; [reflexivity|]. right. exists plug_state. split; [reflexivity|].
  split; [split; [repeat constructor; cbn; intuition discriminate|intros k [<-|[]]; reflexivity]|reflexivity].
Qed.
(** Refused: the alarm's settings without the list of its sounds; no word about the cloud *)
Definition hub : answers := fun k => if String.eqb k "get_alarm_configure" then RVal (JObj [("type", JStr "Doorbell Ring 1")]) else RErr (-1008).
Definition hub_state : dict reply :=
  map (fun k => (k, hub k)) ["get_alarm_configure"; "get_support_alarm_type_list"; "get_connect_cloud_state"].
Example hub_refused :
  updated hub (query plug_facts MAlarm) hub_state None /\ updated hub (query plug_facts MCloud) hub_state None
  /\ read plug_facts hub_state None [("in_alarm", JBool false)] AlarmSound = Err (KDevice (Some (-1008)))
  /\ read plug_facts hub_state None [("in_alarm", JBool false)] AlarmActive = Ok (Plain (JBool false))
  /\ read plug_facts hub_state None [("in_alarm", JBool false)] CloudConnected = Ok (Plain (JBool false)).
Proof.
  split; [|split; [|repeat split]]; left; (split; [repeat constructor; cbn; intuition discriminate|]); intros k K; cbn in K;
    repeat (destruct K as [<-|K]; [reflexivity|]); destruct K.
Qed.
(** The device of Whole_Props, whose answers have none of the fields: the threshold of the power protection *)
Definition protected_ : dev :=
  Smod_Model.mkDev [(dm, fresh); (mkMod "PowerProtection" (query plug_facts MPowerProtection) 0 [] false None, fresh)] [] JNull true false.
Example update_reads :
  let told k := shown ["get_device_info"; "get_protection_power"; "get_max_power"] (wx_val k) in
  proper told
  /\ exists w' d' r, perform (smart_ask (wx_device wx_script) (fun y => y)) (update_object (fun _ => JNull) wx_init (9 * SEC) protected_ Ret)
       (Smart_Model.mkW (5%nat, 0%nat) 5 []) = (w', (d', r, Ok tt))
     /\ requested r = Some ["get_device_info"; "get_protection_power"; "get_max_power"]
     /\ info d' = JObj [("name", JStr "get_device_info")]
     /\ answered told (query plug_facts MPowerProtection) []
     /\ read plug_facts (lu d') None [("name", JStr "get_device_info")] ProtectionThreshold = Ok (Plain (JInt 0))
     /\ read plug_facts (lu d') None [("name", JStr "get_device_info")] ProtectionOn = Err PyKeyError.
Proof.
  split.
  - constructor.
    + intros k v. unfold shown, wx_val. destruct (String.eqb k "get_bad"); [discriminate|]. intros E. injection E as <-. eauto.
    + intros k [<-|[<-|[<-|[]]]]; reflexivity.
    + reflexivity.
    + discriminate.
  - do 3 eexists. split; [vm_compute; reflexivity|]. split; [reflexivity|]. split; [reflexivity|].
    split; [|split; reflexivity]. intros k [<-|[<-|[]]] _; eexists; reflexivity.
Qed.

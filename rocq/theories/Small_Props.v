(** C91-C94: fans, small settings, vacuum accessories and sensors. *)
From Coq Require Import Lia.
From Verif Require Import Base Base_Lemmas Py Gadget_Model Gadget_Props Small_Model Feats_Model Feats_Spec Feats_Props.
Open Scope string_scope.
Open Scope list_scope.
Open Scope Z_scope.

(** [d'] is [d] with the fields of [params] replaced: what a device that keeps what it is sent
    reports next. *)
Definition kept (d : dict json) (params : list (string * json)) (d' : dict json) : Prop :=
  forall k, dget k d' = match dget k params with Some v => Some v | None => dget k d end.

(** [m] sends exactly the command [c] and gives its reply. *)
Definition does (reply : cmd -> res json) (m : M (list cmd) json) (c : cmd) : Prop :=
  forall log, m log = (log ++ [c], reply c).

(** A setter fits a reading: it sends one command with method [method]; on a device in state [d]
    that keeps what it is sent, [read] then gives [v], and every field not in [fields] is as before. *)
Definition fits {A} (reply : cmd -> res json) (m : M (list cmd) json) (method : string)
    (fields : list string) (d : dict json) (read : dict json -> res A) (v : A) : Prop :=
  exists params, does reply m (mkCmd method params)
    /\ forall d', kept d params d' ->
         read d' = Ok v /\ forall k, ~ In k fields -> dget k d' = dget k d.

Lemma kept_get d params d' k v : kept d params d' -> dget k params = Some v -> dget k d' = Some v.
Proof. intros H E. rewrite (H k), E. reflexivity. Qed.

Lemma dset_kept k v d d' : kept d (dset k v d) d' ->
  dget k d' = Some v /\ forall k', k' <> k -> dget k' d' = dget k' d.
Proof.
  intros H. split.
  - rewrite (H k), dget_dset_same. reflexivity.
  - intros k' Hk. rewrite (H k'), dget_dset_other by exact Hk. destruct (dget k' d); reflexivity.
Qed.

Ltac read_back := unfold dindex; repeat match goal with
  | H : kept _ _ _ |- context [dget ?k ?d'] => rewrite (H k)
  end; cbn [dget]; rewrite ?String.eqb_refl.

Ltac other_field := let k := fresh "k" in let Hk := fresh "Hk" in
  intros k Hk; match goal with H : kept _ _ _ |- _ => rewrite (H k) end; cbn [dget];
  repeat match goal with
  | |- context [String.eqb k ?s] => destruct (String.eqb_spec k s) as [->|]; [exfalso; apply Hk; cbn [In]; tauto|]
  end; reflexivity.

(** ** C91 *)
Theorem fan_speed reply level info :
  (0 <= level <= 4 ->
   fits reply (set_fan_speed_level reply level) "set_device_info" ["device_on"; "fan_speed_level"]
     info fan_speed_level (JInt level))
  /\ (~ 0 <= level <= 4 -> rejects (set_fan_speed_level reply level)).
Proof.
  unfold set_fan_speed_level. split; intros H.
  - replace ((level <? 0) || (4 <? level)) with false
      by (symmetry; apply orb_false_iff; rewrite !Z.ltb_ge; lia).
    destruct (Z.eqb_spec level 0) as [->|Hz]; eexists; (split; [intros log; reflexivity|]);
      intros d' Hd; (split; [unfold fan_speed_level; read_back; reflexivity|]).
    + other_field.
    + other_field.
  - intros log. replace ((level <? 0) || (4 <? level)) with true; [reflexivity|].
    symmetry. apply orb_true_iff. rewrite !Z.ltb_lt. lia.
Qed.
Print Assumptions fan_speed.

(** A fan that is off reads 0 whatever level it will start with. *)
Theorem fan_off info : dget "device_on" info = Some (JBool false) ->
  fan_speed_level info = Ok (JInt 0).
Proof. intros H. unfold fan_speed_level, dindex. rewrite H. reflexivity. Qed.
Print Assumptions fan_off.

(** Setting to 0 does not lose the level the fan had. *)
Theorem fan_level_remembered reply info params d' :
  does reply (set_fan_speed_level reply 0) (mkCmd "set_device_info" params) ->
  kept info params d' -> dget "fan_speed_level" d' = dget "fan_speed_level" info.
Proof.
  intros H Hk. specialize (H []). cbn in H. injection H as H _. subst params.
  rewrite (Hk _). reflexivity.
Qed.
Print Assumptions fan_level_remembered.

Theorem fan_sleep reply b info :
  fits reply (set_sleep_mode reply b) "set_device_info" ["fan_sleep_mode_on"] info sleep_mode (JBool b).
Proof.
  eexists. split; [intros log; reflexivity|]. intros d' Hd.
  split; [unfold sleep_mode; read_back; reflexivity|other_field].
Qed.
Print Assumptions fan_sleep.

Example fan_ex : exists d',
  kept [("device_on", JBool true); ("fan_speed_level", JInt 2)] [("device_on", JBool false)] d'
  /\ fan_speed_level d' = Ok (JInt 0).
Proof.
  exists [("device_on", JBool false); ("fan_speed_level", JInt 2)]. split; [|reflexivity].
  intros k. cbn. destruct (String.eqb k "device_on"); reflexivity.
Qed.

(** ** C92 *)
Lemma name_value e n z : NoDup (map snd e) -> dget n e = Some z -> name_of e z = Ok n.
Proof.
  induction e as [|[m y] e IH]; cbn; [easy|]. intros Hd. inversion Hd as [|? ? Hn Hd']; subst.
  destruct (String.eqb_spec n m) as [->|].
  - intros [= ->]. rewrite Z.eqb_refl. reflexivity.
  - intros E. destruct (Z.eqb_spec y z) as [->|]; [|auto].
    exfalso. apply Hn. apply dget_In in E. apply (in_map snd) in E. exact E.
Qed.

(** Settings that can be chosen by name *)
Definition water_names : list string := ["Disable"; "Low"; "Medium"; "High"].
Definition dust_names : list string := ["Smart"; "Light"; "Balanced"; "Max"; "Off"].

Lemma value_of_none e n : ~ In n (map fst e) -> value_of e n = None.
Proof. intros H. apply dget_None. exact H. Qed.

Lemma value_of_some e n : In n (map fst e) -> exists z, value_of e n = Some z.
Proof. apply dget_key_Some. Qed.

Theorem mop_level reply s mode :
  (In mode water_names ->
   fits reply (set_waterlevel reply s mode) "setCleanAttr" ["cistern"] s waterlevel mode)
  /\ (~ In mode water_names -> rejects (set_waterlevel reply s mode)).
Proof.
  unfold set_waterlevel. change water_names with (map fst water_levels). split; intros H.
  - destruct (value_of_some _ _ H) as (z & E). rewrite E.
    eexists. split; [intros log; reflexivity|]. intros d' Hd.
    apply dset_kept in Hd. destruct Hd as (Hc & Ho). split.
    + unfold waterlevel, dindex. rewrite Hc. cbn [bind py_int].
      apply name_value; [|exact E]. cbn. repeat constructor; cbn; intuition discriminate.
    + intros k Hk. apply Ho. intros ->. apply Hk. left. reflexivity.
  - intros log. rewrite value_of_none by exact H. reflexivity.
Qed.
Print Assumptions mop_level.

(** Each name is a distinct level of the device. *)
Theorem mop_levels : forall z n, waterlevel [("cistern", JInt z)] = Ok n <->
  (z = 0 /\ n = "Disable") \/ (z = 1 /\ n = "Low") \/ (z = 2 /\ n = "Medium") \/ (z = 3 /\ n = "High").
Proof.
  intros z n. unfold waterlevel, dindex. cbn [dget String.eqb Ascii.eqb Bool.eqb bind py_int name_of water_levels].
  destruct (Z.eqb_spec 0 z), (Z.eqb_spec 1 z), (Z.eqb_spec 2 z), (Z.eqb_spec 3 z); try lia;
    (split; [intros [= <-]; intuition|]; intros H; decompose [or and] H; subst; first [reflexivity|lia]).
Qed.
Print Assumptions mop_levels.

Theorem dustbin_mode reply s mode :
  (In mode dust_names ->
   fits reply (set_dust_mode reply s mode) "setDustCollectionInfo"
     (if String.eqb mode "Off" then ["auto_dust_collection"]
      else ["auto_dust_collection"; "dust_collection_mode"]) s dust_mode mode)
  /\ (~ In mode dust_names -> rejects (set_dust_mode reply s mode)).
Proof.
  unfold set_dust_mode. change dust_names with (map fst dust_modes). split; intros H.
  - destruct (value_of_some _ _ H) as (z & E). rewrite E.
    destruct (String.eqb_spec mode "Off") as [->|Hoff].
    + eexists. split; [intros log; reflexivity|]. intros d' Hd. apply dset_kept in Hd.
      destruct Hd as (Hc & Ho). split.
      * unfold dust_mode, auto_collection, dindex. rewrite Hc. reflexivity.
      * intros k Hk. apply Ho. intros ->. apply Hk. left. reflexivity.
    + eexists. split; [intros log; reflexivity|]. intros d' Hd.
      assert (Hm : dget "dust_collection_mode" d' = Some (JInt z)).
      { rewrite (Hd _), dget_dset_same. reflexivity. }
      assert (Ha : dget "auto_dust_collection" d' = Some (JBool true)).
      { rewrite (Hd _), dget_dset_other, dget_dset_same by discriminate. reflexivity. }
      split.
      * unfold dust_mode, auto_collection, dindex. rewrite Ha. cbn [bind is_false negb].
        rewrite Hm. cbn [bind enum_name as_int]. unfold enum_name. cbn [as_int].
        apply name_value; [|exact E]. cbn. repeat constructor; cbn; intuition discriminate.
      * intros k Hk. rewrite (Hd k), !dget_dset.
        destruct (String.eqb_spec k "dust_collection_mode") as [->|]; [exfalso; apply Hk; cbn; tauto|].
        destruct (String.eqb_spec k "auto_dust_collection") as [->|]; [exfalso; apply Hk; cbn; tauto|].
        destruct (dget k s); reflexivity.
  - intros log. rewrite value_of_none by exact H. reflexivity.
Qed.
Print Assumptions dustbin_mode.

Theorem dustbin_automatic reply s b :
  fits reply (set_auto_collection reply s b) "setDustCollectionInfo" ["auto_dust_collection"]
    s auto_collection (JBool b).
Proof.
  eexists. split; [intros log; reflexivity|]. intros d' Hd. apply dset_kept in Hd.
  destruct Hd as (Hc & Ho). split.
  - unfold auto_collection, dindex. rewrite Hc. reflexivity.
  - intros k Hk. apply Ho. intros ->. apply Hk. left. reflexivity.
Qed.
Print Assumptions dustbin_automatic.

Theorem speaker_volume_set reply v d :
  (0 <= v <= 100 -> fits reply (set_speaker_volume reply v) "setVolume" ["volume"] d speaker_volume (JInt v))
  /\ (~ 0 <= v <= 100 -> rejects (set_speaker_volume reply v)).
Proof.
  unfold set_speaker_volume. split; intros H.
  - replace ((v <? 0) || (100 <? v)) with false
      by (symmetry; apply orb_false_iff; rewrite !Z.ltb_ge; lia).
    eexists. split; [intros log; reflexivity|]. intros d' Hd.
    split; [unfold speaker_volume; read_back; reflexivity|other_field].
  - intros log. replace ((v <? 0) || (100 <? v)) with true; [reflexivity|].
    symmetry. apply orb_true_iff. rewrite !Z.ltb_lt. lia.
Qed.
Print Assumptions speaker_volume_set.

Theorem vacuum_actions reply :
  does reply (start_emptying reply) (mkCmd "setSwitchDustCollection" [("switch_dust_collection", JBool true)])
  /\ does reply (speaker_locate reply) (mkCmd "playSelectAudio" [("audio_type", JStr "seek_me")]).
Proof. split; intros log; reflexivity. Qed.
Print Assumptions vacuum_actions.

Example accessories_ex :
  dust_mode [("auto_dust_collection", JBool true); ("dust_collection_mode", JInt 2)] = Ok "Balanced"
  /\ dust_mode [("auto_dust_collection", JBool false); ("dust_collection_mode", JInt 2)] = Ok "Off"
  /\ waterlevel [("cistern", JStr "3")] = Ok "High".
Proof. repeat split. Qed.

(** ** C93 *)
Theorem auto_off_switch reply d b delay : dget "delay_min" d = Some delay ->
  fits reply (set_auto_off_enabled reply d b) "set_auto_off_config" ["enable"] d auto_off_enabled (JBool b).
Proof.
  intros H. unfold set_auto_off_enabled, mbind, mlift, dindex. rewrite H.
  eexists. split; [intros log; reflexivity|]. intros d' Hd. split.
  - unfold auto_off_enabled. read_back. reflexivity.
  - intros k Hk. rewrite (Hd k). cbn [dget].
    destruct (String.eqb_spec k "enable") as [->|]; [exfalso; apply Hk; left; reflexivity|].
    destruct (String.eqb_spec k "delay_min") as [->|]; [symmetry; exact H|reflexivity].
Qed.
Print Assumptions auto_off_switch.

Theorem auto_off_minutes reply d n enable : dget "enable" d = Some enable ->
  fits reply (set_auto_off_delay reply d n) "set_auto_off_config" ["delay_min"] d auto_off_delay (JInt n).
Proof.
  intros H. unfold set_auto_off_delay, mbind, mlift, dindex. rewrite H.
  eexists. split; [intros log; reflexivity|]. intros d' Hd. split.
  - unfold auto_off_delay. read_back. reflexivity.
  - intros k Hk. rewrite (Hd k). cbn [dget].
    destruct (String.eqb_spec k "delay_min") as [->|]; [exfalso; apply Hk; left; reflexivity|].
    destruct (String.eqb_spec k "enable") as [->|]; [symmetry; exact H|reflexivity].
Qed.
Print Assumptions auto_off_minutes.

(** The moment a device will switch off is reported exactly while its timer runs. *)
Lemma is_str_iff k v : is_str k v = true <-> v = JStr k.
Proof.
  destruct v; cbn; try (split; discriminate). rewrite String.eqb_eq. split; [intros ->; reflexivity|]. intro H. now injection H.
Qed.
Lemma is_str_not k v : v <> JStr k -> is_str k v = false.
Proof. intro H. destruct (is_str k v) eqn:E; [apply is_str_iff in E; contradiction|reflexivity]. Qed.
Lemma is_str_same k : is_str k (JStr k) = true.
Proof. now apply is_str_iff. Qed.
Theorem auto_off_moment info now status :
  dget "auto_off_status" info = Some status ->
  (status <> JStr "on" -> auto_off_at info now = Ok None)
  /\ (status = JStr "on" -> forall s, dget "auto_off_remain_time" info = Some (JInt s) ->
      auto_off_at info now = Ok (Some (now + s))).
Proof.
  intros H. unfold auto_off_at, is_timer_active, dindex. rewrite H. cbn [bind]. split.
  - intros Hs. now rewrite (is_str_not _ _ Hs).
  - intros -> s Hr. rewrite is_str_same, Hr. reflexivity.
Qed.
Print Assumptions auto_off_moment.

Theorem led_switch reply d b :
  fits reply (set_led reply d b) "set_led_info" ["led_rule"] d led_on b.
Proof.
  eexists. split; [intros log; reflexivity|]. intros d' Hd. apply dset_kept in Hd.
  destruct Hd as (Hc & Ho). split.
  - unfold led_on, dindex. rewrite Hc. destruct b; reflexivity.
  - intros k Hk. apply Ho. intros ->. apply Hk. left. reflexivity.
Qed.
Print Assumptions led_switch.
(** The light is on unless the rule is "never"; night mode counts as on. *)
Theorem led_reads d rule : dget "led_rule" d = Some rule ->
  exists b, led_on d = Ok b /\ (b = true <-> rule <> JStr "never").
Proof.
  intros H. unfold led_on, dindex. rewrite H. eexists. split; [reflexivity|]. rewrite negb_true_iff, <- is_str_iff. destruct (is_str "never" rule); split; congruence.
Qed.
Print Assumptions led_reads.

Theorem lock_switch reply b d :
  fits reply (set_child_lock reply b) "setChildLockInfo" ["child_lock_status"] d child_lock (JBool b)
  /\ fits reply (set_frost reply b) "set_device_info" ["frost_protection_on"] d frost_enabled (JBool b)
  /\ does reply (set_child_protection reply b) (mkCmd "set_child_protection" [("enable", JBool b)]).
Proof.
  split; [|split].
  - eexists. split; [intros log; reflexivity|]. intros d' Hd.
    split; [unfold child_lock; read_back; reflexivity|other_field].
  - eexists. split; [intros log; reflexivity|]. intros d' Hd.
    split; [unfold frost_enabled; read_back; reflexivity|other_field].
  - intros log. reflexivity.
Qed.
Print Assumptions lock_switch.

(** The temperature frost protection keeps is looked up in the device info, which does not hold
    it: a thermostat reports its own limits there under other names. *)
Theorem frost_minimum_refuted : forall info,
  dget "frost_protection_on" info = Some (JBool true) ->
  dget "min_control_temp" info = Some (JInt 5) -> dget "min_temp" info = None ->
  frost_minimum info = Err PyKeyError.
Proof. intros info _ _ H. unfold frost_minimum, dindex. rewrite H. reflexivity. Qed.
Print Assumptions frost_minimum_refuted.

Example frost_minimum_ex :
  let info := [("frost_protection_on", JBool true); ("min_control_temp", JInt 5);
               ("max_control_temp", JInt 30); ("temp_unit", JStr "celsius")] in
  dget "frost_protection_on" info = Some (JBool true)
  /\ dget "min_control_temp" info = Some (JInt 5) /\ dget "min_temp" info = None.
Proof. repeat split. Qed.

(** ** C94 *)
Theorem overheat_report info :
  (forall v, dget "overheat_status" info = Some v -> v <> JNull ->
     exists b, overheated info = Ok (JBool b) /\ (b = false <-> v = JStr "normal"))
  /\ (dget "overheat_status" info = None \/ dget "overheat_status" info = Some JNull ->
      forall b, dget "overheated" info = Some (JBool b) -> overheated info = Ok (JBool b)).
Proof.
  unfold overheated, dindex. split.
  - intros v -> N. exists (negb (is_str "normal" v)). split; [destruct v; [contradiction|reflexivity..]|]. rewrite negb_false_iff. apply is_str_iff.
  - intros [-> | ->] b ->; reflexivity.
Qed.
Print Assumptions overheat_report.

(** By C88 the module is there only if one of the two is reported, so reading it never fails. *)
Theorem overheat_readable e r ms : range_is (e_info e) r ->
  init_modules e [] = (ms, Ok tt) -> In "OverheatProtection" ms ->
  exists v, overheated (e_info e) = Ok v /\ v <> JNull.
Proof.
  intros Hr E Hin. destruct (smart_modules e r Hr) as (ms' & E' & _ & Hiff & _).
  rewrite E in E'. injection E' as <-. apply Hiff in Hin. unfold offers in Hin.
  destruct Hin as [Ho|[[H _]|[H _]]]; [|discriminate|discriminate].
  destruct Ho as (Ho & _).
  destruct Ho as [(c & Hc & _)|(k & v & Hk & Hv & Hn)].
  - exfalso. unfold component_for in Hc. cbn [In] in Hc.
    repeat (destruct Hc as [Hc|Hc]; [discriminate|]). exact Hc.
  - unfold field_for in Hk. cbn [In] in Hk.
    destruct Hk as [H|[H|[H|[]]]]; [discriminate| |]; injection H as <-.
    + unfold overheated, dindex. rewrite Hv.
      destruct (dget "overheat_status" (e_info e)) as [[]|]; eexists; split; try reflexivity;
        try exact Hn; discriminate.
    + unfold overheated. rewrite Hv. destruct v; try easy; eexists; split; try reflexivity; discriminate.
Qed.
Print Assumptions overheat_readable.

Theorem battery_report info :
  (forall b, dget "at_low_battery" info = Some (JBool b) -> battery_low info = Ok (JBool b))
  /\ (dget "at_low_battery" info = None ->
      (forall b, dget "is_low" info = Some (JBool b) -> battery_low info = Ok (JBool b))
      /\ (dget "is_low" info = None -> battery_low info = Err KKasa)).
Proof.
  unfold battery_low. split; [intros b ->; reflexivity|]. intros ->. split; [intros b ->|intros ->]; reflexivity.
Qed.
Print Assumptions battery_report.

Theorem warnings info z :
  (dget "current_humidity_exception" info = Some (JInt z) ->
     exists b, humidity_warning info = Ok b /\ (b = true <-> z <> 0))
  /\ (dget "current_temp_exception" info = Some (JInt z) -> (temperature_warning info = true <-> z <> 0))
  /\ (dget "current_temp_exception" info = None -> temperature_warning info = false).
Proof.
  unfold humidity_warning, temperature_warning, dindex. split; [|split].
  - intros ->. eexists. split; [reflexivity|]. cbn [is_zero]. rewrite negb_true_iff, Z.eqb_neq. reflexivity.
  - intros ->. cbn [is_zero]. rewrite negb_true_iff, Z.eqb_neq. reflexivity.
  - intros ->. reflexivity.
Qed.
Print Assumptions warnings.

Theorem leak_report info v : dget "water_leak_status" info = Some v ->
  (leak_status info = Ok LNormal <-> v = JStr "normal")
  /\ (leak_status info = Ok LLeak <-> v = JStr "water_leak")
  /\ (leak_status info = Ok LDrying <-> v = JStr "water_dry")
  /\ (leak_status info = Err PyValueError <-> ~ In v [JStr "normal"; JStr "water_leak"; JStr "water_dry"]).
Proof.
  intros H. unfold leak_status, dindex. rewrite H. cbn [bind].
  destruct (is_str "normal" v) eqn:E1; [apply is_str_iff in E1; subst v; cbn; intuition (try discriminate; try congruence)|].
  destruct (is_str "water_leak" v) eqn:E2; [apply is_str_iff in E2; subst v; cbn; intuition (try discriminate; try congruence)|].
  destruct (is_str "water_dry" v) eqn:E3; [apply is_str_iff in E3; subst v; cbn; intuition (try discriminate; try congruence)|].
  assert (N : v <> JStr "normal" /\ v <> JStr "water_leak" /\ v <> JStr "water_dry").
  { repeat split; intros ->; discriminate. }
  cbn; intuition (try discriminate; try congruence).
Qed.
Print Assumptions leak_report.

(** The time of the last alert is available for a device that has its own clock ... *)
Theorem leak_time_partial info modules ts :
  (dget "trigger_timestamp" info = None -> alert_timestamp info modules = Ok None)
  /\ (dget "trigger_timestamp" info = Some ts -> In "Time" modules ->
      alert_timestamp info modules = Ok (Some ts)).
Proof.
  unfold alert_timestamp. split; [intros ->; reflexivity|]. intros -> H.
  apply smem_In in H. rewrite H. reflexivity.
Qed.
Print Assumptions leak_time_partial.

(** ... but never for the child of a hub, which is what water leak sensors are. *)
Theorem leak_time_refuted e r ms ts : range_is (e_info e) r ->
  e_parent e = Some true -> init_modules e [] = (ms, Ok tt) ->
  dget "trigger_timestamp" (e_info e) = Some ts ->
  alert_timestamp (e_info e) ms = Err PyKeyError.
Proof.
  intros Hr Hp E Ht. destruct (smart_modules e r Hr) as (ms' & E' & _ & Hiff & _).
  rewrite E in E'. injection E' as <-. unfold alert_timestamp. rewrite Ht.
  destruct (smem "Time" ms) eqn:Hs; [|reflexivity]. apply smem_In, Hiff in Hs.
  destruct Hs as [(_ & _ & _ & H & _)|[[H _]|[H _]]]; [|discriminate|discriminate].
  rewrite (H eq_refl) in Hp. discriminate.
Qed.
Print Assumptions leak_time_refuted.

(** A T300 as its hub describes it *)
Definition t300 : env :=
  mkEnv ["device"; "trigger_log"; "time"; "cloud_connect"; "firmware"; "battery_detect"; "sensor_alarm"]
    [("at_low_battery", JBool false); ("in_alarm", JBool false);
     ("trigger_timestamp", JInt 1728480717); ("water_leak_status", JStr "water_dry")] (Some true).
Example leak_ex : range_is (e_info t300) None
  /\ init_modules t300 [] = (["BatterySensor"; "Cloud"; "DeviceModule"; "Firmware"; "TriggerLogs"; "WaterleakSensor"], Ok tt)
  /\ leak_status (e_info t300) = Ok LDrying.
Proof. split; [left; reflexivity|]. split; reflexivity. Qed.

(** The cloud connection *)
Theorem cloud_report d z : dget "status" d = Some (JInt z) ->
  exists b, cloud_connected (Ok d) = Ok b /\ (b = true <-> z = 0).
Proof.
  intros H. destruct d as [|x d]; [discriminate|]. unfold cloud_connected, dindex. rewrite H.
  eexists. split; [reflexivity|]. cbn [is_zero]. apply Z.eqb_eq.
Qed.
Print Assumptions cloud_report.

Theorem cloud_failure e : is_device_error e = true -> cloud_connected (Err e) = Ok false.
Proof. intros H. cbn. rewrite H. reflexivity. Qed.
Print Assumptions cloud_failure.

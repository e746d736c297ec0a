(** Thermostats, energy monitoring, power protection, alarms and firmware updates
    (C50, C51, C52, C56, C57, C74). *)
From Coq Require Import QArith Lia.
From Verif Require Import Base Base_Lemmas Py IotLight_Model IotLight_Props SmartLight_Model SmartLight_Props Gadget_Model.
Open Scope string_scope.
Open Scope list_scope.
Open Scope Z_scope.

(** ** C50 *)
(** The names of the operating states, the strongest first. *)
Definition operating : list (string * tstate) :=
  [("heating", Heating); ("progress_calibration", Calibrating); ("idle", Idle); ("off", Off); ("unknown", Unknown)].
(** [s] is the first operating state among [l]. *)
Definition reports (l : list string) (s : tstate) : Prop :=
  exists before n after, operating = before ++ (n, s) :: after /\ In n l /\ forall m, In m (map fst before) -> ~ In m l.
Definition no_operating (l : list string) : Prop := forall n, In n (map fst operating) -> ~ In n l.
Lemma smem_in : forall x l, smem x l = true <-> In x l.
Proof.
  intros x l. unfold smem. rewrite existsb_exists. split.
  - intros (y & H & E). apply String.eqb_eq in E. subst. exact H.
  - intro H. exists x. split; [exact H|apply String.eqb_refl].
Qed.
Lemma in_discard : forall x y l, In y (discard x l) <-> In y l /\ x <> y.
Proof.
  intros x y l. unfold discard. rewrite filter_In, negb_true_iff, String.eqb_neq. reflexivity.
Qed.
Lemma smem_discard : forall n l, In n (map fst operating) -> smem n (discard "low_battery" l) = smem n l.
Proof.
  intros n l H. apply Bool.eq_iff_eq_true. rewrite !smem_in, in_discard. split; [tauto|]. intro Hl. split; [exact Hl|].
  intro E. subst n. cbn in H. decompose [or] H; try discriminate; assumption.
Qed.
Lemma smem_no : forall n l, smem n l = false -> ~ In n l.
Proof. intros n l H C. apply smem_in in C. congruence. Qed.
Theorem thermostat_partial : forall frost l,
  (frost = Some true -> thermostat_mode frost l = Off) /\
  (frost <> Some true ->
   (l = [] -> thermostat_mode frost l = Idle) /\
   (forall s, reports l s -> thermostat_mode frost l = s) /\
   (l <> [] -> no_operating l -> thermostat_mode frost l = Unknown)).
Proof.
  intros frost l. split; [intros ->; reflexivity|]. intro F.
  assert (E : thermostat_mode frost l = match l with [] => Idle | _ => first_known (discard "low_battery" l) end).
  { destruct frost as [[]|]; [congruence| |]; reflexivity. }
  rewrite E. clear E F. split; [intros ->; reflexivity|].
  assert (K : first_known (discard "low_battery" l) =
     if smem "heating" l then Heating else if smem "progress_calibration" l then Calibrating else if smem "idle" l then Idle
     else if smem "off" l then Off else Unknown).
  { unfold first_known, tstates. cbn [find snd]. rewrite !smem_discard by (cbn; tauto).
    destruct (smem "heating" l), (smem "progress_calibration" l), (smem "idle" l), (smem "off" l), (smem "unknown" l); reflexivity. }
  split.
  - intros s (b & n & a & O & Hin & Hb).
    assert (L : l <> []) by (intros ->; exact Hin). destruct l as [|x l']; [congruence|]. set (L' := x :: l') in *. rewrite K. clear L.
    assert (No : forall m, In m (map fst b) -> smem m L' = false).
    { intros m Hm. destruct (smem m L') eqn:S; [|reflexivity]. apply smem_in in S. exfalso. exact (Hb m Hm S). }
    apply smem_in in Hin. unfold operating in O.
    destruct b as [|b1 [|b2 [|b3 [|b4 [|b5 [|b6 b]]]]]]; cbn [app] in O; injection O; intros; subst; cbn [map fst] in No;
      repeat match goal with
      | H : forall m, In m (?k :: ?t) -> _ |- _ => rewrite (H k (or_introl eq_refl)); assert (forall m, In m t -> smem m L' = false) by (intros; apply H; right; assumption); clear H
      end; try rewrite Hin; try reflexivity; try discriminate.
    all: destruct (smem "unknown" L'); reflexivity.
  - intros Hl No. destruct l as [|x l']; [congruence|]. set (L' := x :: l') in *. rewrite K.
    assert (No' : forall m, In m (map fst operating) -> smem m L' = false).
    { intros m Hm. destruct (smem m L') eqn:S; [|reflexivity]. apply smem_in in S. exfalso. exact (No m Hm S). }
    rewrite !No' by (cbn; tauto). reflexivity.
Qed.
Print Assumptions thermostat_partial.
Example thermostat_ex : reports ["low_battery"; "heating"] Heating /\ thermostat_mode (Some false) ["low_battery"; "heating"] = Heating.
Proof.
  split; [|reflexivity]. exists [], "heating", (tl operating). split; [reflexivity|]. split; [right; left; reflexivity|intros m []].
Qed.
(** A low battery alone is no operating state, yet the mode is not idle. *)
Theorem thermostat_refuted : no_operating ["low_battery"] /\ thermostat_mode None ["low_battery"] = Unknown.
Proof.
  split; [|reflexivity]. intros n H [E|[]]. subst n. cbn in H. decompose [or] H; try discriminate; assumption.
Qed.
Print Assumptions thermostat_refuted.

(** ** C74 *)
(** [a] lies between the two bounds. *)
Definition between (lo hi a : arg) : Prop := (arg_q lo <= arg_q a)%Q /\ (arg_q a <= arg_q hi)%Q.
Lemma between_spec : forall lo hi a, ltb_arg a lo || ltb_arg hi a = false <-> between lo hi a.
Proof.
  intros lo hi a. rewrite orb_false_iff. unfold between. pose proof (leb_spec lo a) as L1. pose proof (leb_spec a hi) as L2.
  unfold leb_arg in L1, L2. rewrite negb_true_iff in L1, L2. rewrite L1, L2. reflexivity.
Qed.
Theorem target_temperature : forall reply lo hi frost t,
  (between lo hi t -> calls reply (set_target_temperature reply lo hi frost t) "set_device_info"
     [("target_temp", Some (PNum t)); ("frost_protection_on", if frost then Some (PBool false) else None)]) /\
  (~ between lo hi t -> raises (set_target_temperature reply lo hi frost t)).
Proof.
  intros reply lo hi frost t. unfold set_target_temperature. pose proof (between_spec lo hi t) as S. split; intro H.
  - apply S in H. rewrite H. destruct frost; (eexists; split; [|intro log; reflexivity]); par.
  - destruct (_ || _); [|tauto]. exists PyValueError. split; [tauto|reflexivity].
Qed.
Print Assumptions target_temperature.
Example target_ex : between (AInt 5) (AInt 30) (ANum (41 # 2)) /\ ~ between (AInt 5) (AInt 30) (AInt 31).
Proof. split; [split; cbn; apply Qle_bool_iff; reflexivity|]. intros [_ H]. cbn in H. apply Qle_bool_iff in H. discriminate. Qed.
Theorem temperature_offset : forall reply t,
  (between (AInt (-10)) (AInt 10) t -> calls reply (set_temperature_offset reply t) "set_device_info" [("temp_offset", Some (PNum t))]) /\
  (~ between (AInt (-10)) (AInt 10) t -> raises (set_temperature_offset reply t)).
Proof.
  intros reply t. unfold set_temperature_offset. pose proof (between_spec (AInt (-10)) (AInt 10) t) as S. split; intro H.
  - apply S in H. rewrite H. eexists; split; [|intro log; reflexivity]; par.
  - destruct (_ || _); [|tauto]. exists PyValueError. split; [tauto|reflexivity].
Qed.
Print Assumptions temperature_offset.
(** Switching the thermostat and reading its state back from a device that keeps what it is
    sent agree. *)
Theorem thermostat_switch : forall reply on, exists f,
  calls reply (set_thermostat_state reply on) "set_device_info" [("frost_protection_on", Some (PBool f))] /\
  thermostat_state (Some f) = Ok on /\ forall l, on = false -> thermostat_mode (Some f) l = Off.
Proof.
  intros reply on. exists (negb on). split; [eexists; split; [|intro log; reflexivity]; par|].
  split; [cbn; rewrite negb_involutive; reflexivity|]. intros l ->. reflexivity.
Qed.
Print Assumptions thermostat_switch.

(** ** C51 *)
(** What the device answered: the reading of a given name in a given reply. *)
Definition answered (x : edata) (request name : string) : option Q :=
  match x with
  | Flat d => if String.eqb request "get_energy_usage" then match dget name d with Some v => v | None => None end else None
  | Nested d => match dget request d with Some r => match dget name r with Some v => v | None => None end | None => None end
  end.
(** The sources of the current consumption, in order, with the unit in watts. *)
Definition sources (x : edata) : list (option (Q * Q)) :=
  map (fun t : string * string * Q => match t with (r, n, u) => match answered x r n with Some p => Some (p, u) | None => None end end)
    [("get_energy_usage", "current_power", 1 # 1000); ("get_emeter_data", "power_mw", 1 # 1000); ("get_current_power", "current_power", 1 # 1)]%Q.
Fixpoint first_some {A} (l : list (option A)) : option A :=
  match l with [] => None | Some a :: _ => Some a | None :: l => first_some l end.
Definition same_q (a b : option Q) : Prop :=
  match a, b with Some x, Some y => (x == y)%Q | None, None => True | _, _ => False end.
Definition scaled (u : Q) (o : option Q) : option Q := match o with Some p => Some (p * u)%Q | None => None end.
Lemma usage_answered : forall x n, qget n (usage_of x) = answered x "get_energy_usage" n.
Proof.
  intros [d|d] n; [reflexivity|]. unfold usage_of, part, answered. destruct (dget "get_energy_usage" d); [|]; reflexivity.
Qed.
Lemma part_answered : forall x r n, r <> "get_energy_usage" -> qget n (part r x) = answered x r n.
Proof.
  intros [d|d] r n H; unfold part, answered.
  - apply String.eqb_neq in H. rewrite H. reflexivity.
  - destruct (dget r d); reflexivity.
Qed.
Lemma milli_scaled : forall o, same_q (milli o) (scaled (1 # 1000) o).
Proof. intros [x|]; cbn; [reflexivity|exact I]. Qed.
Theorem energy_source : forall x st,
  let (st', r) := energy_hook (Ok x) st in
  r = Ok tt /\
  same_q (current_consumption st') (match first_some (sources x) with Some (p, u) => Some (p * u)%Q | None => None end) /\
  same_q (consumption_today st') (scaled (1 # 1000) (answered x "get_energy_usage" "today_energy")) /\
  same_q (consumption_this_month st') (scaled (1 # 1000) (answered x "get_energy_usage" "month_energy")).
Proof.
  intros x st. unfold energy_hook. split; [reflexivity|]. split; [|split].
  - unfold current_consumption, sources. cbn [e_current map first_some].
    rewrite usage_answered, !part_answered by discriminate.
    destruct (answered x "get_energy_usage" "current_power") as [p|]; [cbn; reflexivity|].
    destruct (answered x "get_emeter_data" "power_mw") as [p|]; [cbn; reflexivity|].
    destruct (answered x "get_current_power" "current_power") as [p|]; [|exact I]. cbn. symmetry. apply Qmult_1_r.
  - unfold consumption_today. cbn [e_energy]. rewrite usage_answered. apply milli_scaled.
  - unfold consumption_this_month. cbn [e_energy]. rewrite usage_answered. apply milli_scaled.
Qed.
Print Assumptions energy_source.
Example energy_ex :
  current_consumption (fst (energy_hook (Ok (Nested [("get_current_power", [("current_power", Some (7 # 1)%Q)]); ("get_emeter_data", [("power_mw", Some (1500 # 1)%Q)])])) (mkEnergy [] None false)))
  = Some (1500 / 1000)%Q.
Proof. reflexivity. Qed.
(** Voltage and current come from the reply of the meter, in volts and amperes. *)
Theorem energy_voltage : forall x,
  same_q (voltage x) (scaled (1 # 1000) (answered x "get_emeter_data" "voltage_mv")) /\
  same_q (current x) (scaled (1 # 1000) (answered x "get_emeter_data" "current_ma")).
Proof. intro x. unfold voltage, current. rewrite !part_answered by discriminate. split; apply milli_scaled. Qed.
Print Assumptions energy_voltage.
(** An error of the device clears the readings and is raised; nothing stale is shown. *)
Theorem energy_error : forall e st, is_device_error e = true ->
  exists st', energy_hook (Err e) st = (st', Err e) /\
    current_consumption st' = None /\ consumption_today st' = None /\ consumption_this_month st' = None.
Proof. intros e st H. unfold energy_hook. rewrite H. eexists. split; [reflexivity|]. repeat split. Qed.
Print Assumptions energy_error.
(** Voltage and current count as supported exactly from the first reply that had a
    voltage on, whatever later updates bring. *)
Definition reports_voltage (x : res edata) : Prop :=
  exists d e v, x = Ok (Nested d) /\ dget "get_emeter_data" d = Some e /\ dget "voltage_mv" e = Some v.
Theorem energy_voltage_stays : forall xs st,
  e_volt (fold_left (fun st x => fst (energy_hook x st)) xs st) = true <-> e_volt st = true \/ Exists reports_voltage xs.
Proof.
  induction xs as [|x xs IH]; intro st; cbn [fold_left].
  - split; [auto|]. intros [H|H]; [exact H|inversion H].
  - rewrite IH.
    assert (G : e_volt (fst (energy_hook x st)) = true <-> e_volt st = true \/ reports_voltage x).
    { unfold energy_hook, reports_voltage. destruct x as [x|e].
      - cbn [fst e_volt]. rewrite orb_true_iff. destruct x as [d|d]; cbn [part].
        + split; [intros [H|H]; [auto|discriminate]|]. intros [H|(d0 & e0 & v & H & _)]; [auto|discriminate].
        + split.
          * intros [H|H]; [auto|]. right. destruct (dget "get_emeter_data" d) as [e0|] eqn:E; [|discriminate].
            unfold dmem in H. destruct (dget "voltage_mv" e0) as [v|] eqn:V; [|discriminate]. now exists d, e0, v.
          * intros [H|(d0 & e0 & v & H & E & V)]; [auto|]. injection H as <-. right. rewrite E. unfold dmem. now rewrite V.
      - destruct (is_device_error e); cbn [fst e_volt]; (split; [auto|]); intros [H|(d0 & e0 & v & H & _)]; auto; discriminate. }
    rewrite G. rewrite Exists_cons. tauto.
Qed.
Print Assumptions energy_voltage_stays.
Example energy_voltage_ex : Exists reports_voltage [Ok (Nested [("get_emeter_data", [("voltage_mv", Some (230000 # 1)%Q)])]); Err (KDevice None)].
Proof. constructor. eexists _, _, _. repeat split. Qed.

(** ** C52 *)
(** Exactly one command was sent, with the old settings except for the listed keys. *)
Definition changes (reply : cmd -> res json) (m : M (list cmd) json) (method : string) (old : dict json) (l : list (string * json)) : Prop :=
  exists d, (forall k, dget k d = match dget k l with Some v => Some v | None => dget k old end) /\
            forall log, m log = (log ++ [mkCmd method d], reply (mkCmd method d)).
Definition rejects (m : M (list cmd) json) : Prop := forall log, m log = (log, Err PyValueError).
Ltac chg := let k := fresh "k" in intro k; cbn [dget]; rewrite ?dget_dset;
  repeat match goal with |- context [String.eqb k ?s] => let E := fresh in destruct (String.eqb k s) eqn:E; [apply String.eqb_eq in E; subst k; reflexivity|] end;
  try reflexivity.
Theorem protection_setting : forall reply prot max t,
  let m := set_threshold_auto_enable reply prot max t in
  (t = 0 -> changes reply m "set_protection_power" prot [("enabled", JBool false)]) /\
  (0 < t <= max -> changes reply m "set_protection_power" prot [("enabled", JBool true); ("protection_power", JInt t)]) /\
  (t < 0 \/ max < t /\ t <> 0 -> rejects m).
Proof.
  intros reply prot max t m. unfold m, set_threshold_auto_enable. split; [|split].
  - intros ->. cbn. eexists. split; [|intro log; reflexivity]. chg.
  - intro H. replace (t =? 0) with false by (symmetry; apply Z.eqb_neq; lia). unfold set_protection_enabled.
    replace (t =? 0) with false by (symmetry; apply Z.eqb_neq; lia). replace (t <? 0) with false by (symmetry; apply Z.ltb_ge; lia).
    replace (max <? t) with false by (symmetry; apply Z.ltb_ge; lia). cbn [negb andb orb].
    eexists. split; [|intro log; reflexivity]. intro k. rewrite !dget_dset. cbn [dget].
    destruct (String.eqb k "protection_power") eqn:E1; [apply String.eqb_eq in E1; subst k; reflexivity|].
    destruct (String.eqb k "enabled") eqn:E2; reflexivity.
  - intros H log. replace (t =? 0) with false by (symmetry; apply Z.eqb_neq; lia). unfold set_protection_enabled.
    replace (t =? 0) with false by (symmetry; apply Z.eqb_neq; lia).
    replace ((t <? 0) || (max <? t)) with true; [reflexivity|]. symmetry. apply orb_true_iff. rewrite !Z.ltb_lt. lia.
Qed.
Print Assumptions protection_setting.
Theorem protection_threshold_set : forall reply prot max t,
  let m := set_protection_threshold reply prot max t in
  (0 <= t <= max -> changes reply m "set_protection_power" prot [("protection_power", JInt t)]) /\
  (~ 0 <= t <= max -> rejects m).
Proof.
  intros reply prot max t m. unfold m, set_protection_threshold. split; intro H.
  - replace (t <? 0) with false by (symmetry; apply Z.ltb_ge; lia). replace (max <? t) with false by (symmetry; apply Z.ltb_ge; lia).
    eexists. split; [|intro log; reflexivity]. chg.
  - intro log. replace ((t <? 0) || (max <? t)) with true; [reflexivity|]. symmetry. apply orb_true_iff. rewrite !Z.ltb_lt. lia.
Qed.
Print Assumptions protection_threshold_set.
(** Enabling without a threshold keeps the stored one, or, if none is stored, uses half the maximum. *)
Theorem protection_enable : forall reply prot max on z, (dget "protection_power" prot = Some (JInt z) \/ dget "protection_power" prot = None /\ z = 0) -> 0 <= max ->
  changes reply (set_protection_enabled reply prot max on None) "set_protection_power" prot
    (("enabled", JBool on) :: if on && (z =? 0) then [("protection_power", JInt (max / 2))] else []).
Proof.
  intros reply prot max on z Hz Hm. unfold set_protection_enabled.
  assert (E : is_zero (protection_threshold prot) = (z =? 0)).
  { unfold protection_threshold. destruct Hz as [->|[-> ->]]; reflexivity. }
  rewrite E. destruct (on && (z =? 0)).
  - rewrite Z.quot_div_nonneg by lia.
    assert (0 <= max / 2 <= max). { split; [apply Z.div_pos; lia|]. apply Z.div_le_upper_bound; lia. }
    replace (max / 2 <? 0) with false by (symmetry; apply Z.ltb_ge; lia). replace (max <? max / 2) with false by (symmetry; apply Z.ltb_ge; lia).
    cbn [orb]. rewrite andb_false_r. eexists. split; [|intro log; reflexivity]. intro k. rewrite !dget_dset. cbn [dget].
    destruct (String.eqb k "protection_power") eqn:E1; [apply String.eqb_eq in E1; subst k; reflexivity|].
    destruct (String.eqb k "enabled") eqn:E2; reflexivity.
  - eexists. split; [|intro log; reflexivity]. chg.
Qed.
Print Assumptions protection_enable.
(** What is set is what is read from a device that keeps what it is sent. *)
Theorem protection_round_trip : forall reply prot max t, 0 <= t <= max ->
  exists d, fst (set_threshold_auto_enable reply prot max t []) = [mkCmd "set_protection_power" d] /\ threshold_or_zero d = Ok (JInt t).
Proof.
  intros reply prot max t H. destruct (protection_setting reply prot max t) as (H0 & H1 & _).
  destruct (Z.eq_dec t 0) as [->|N].
  - destruct (H0 eq_refl) as (d & Hd & Hm). exists d. rewrite Hm. split; [reflexivity|].
    unfold threshold_or_zero, dindex. rewrite (Hd "enabled"). reflexivity.
  - destruct H1 as (d & Hd & Hm); [lia|]. exists d. rewrite Hm. split; [reflexivity|].
    unfold threshold_or_zero, dindex, protection_threshold. rewrite (Hd "enabled"), (Hd "protection_power"). reflexivity.
Qed.
Print Assumptions protection_round_trip.
Example protection_ex : fst (set_threshold_auto_enable (fun _ => Ok JNull) [("enabled", JBool false)] 3000 1500 []) =
  [mkCmd "set_protection_power" [("enabled", JBool true); ("protection_power", JInt 1500)]].
Proof. reflexivity. Qed.

(** ** C56 *)
(** The volume levels and what the device calls them. *)
Definition level (v : volume) (name : string) : Prop :=
  In (v, name) [(VInt 0, "mute"); (VInt 1, "low"); (VInt 2, "normal"); (VInt 3, "high");
                (VStr "mute", "mute"); (VStr "low", "low"); (VStr "normal", "normal"); (VStr "high", "high")].
Lemma level_spec : forall v n, convert_volume v = Ok n <-> level v n.
Proof.
  intros v n. split.
  - unfold convert_volume. destruct v as [z|s].
    + cbn [find volume_names fst].
      destruct (Z.eqb_spec 0 z); [subst; cbn; intros [= <-]; unfold level; cbn; tauto|].
      destruct (Z.eqb_spec 1 z); [subst; cbn; intros [= <-]; unfold level; cbn; tauto|].
      destruct (Z.eqb_spec 2 z); [subst; cbn; intros [= <-]; unfold level; cbn; tauto|].
      destruct (Z.eqb_spec 3 z); [subst; cbn; intros [= <-]; unfold level; cbn; tauto|]. discriminate.
    + destruct (smem s _) eqn:S; [|discriminate]. intros [= ->]. apply smem_in in S. cbn in S.
      decompose [or] S; subst; unfold level; cbn; try tauto; contradiction.
  - unfold level. cbn. intro H. repeat (destruct H as [[= <- <-]|H]; [reflexivity|]). destruct H.
Qed.
Lemma level_err : forall v, (forall n, ~ level v n) -> convert_volume v = Err PyValueError.
Proof.
  intros v H. destruct (convert_volume v) as [n|e] eqn:E; [apply level_spec in E; destruct (H n E)|].
  unfold convert_volume in E. destruct (smem _ _); [discriminate|]. injection E as <-. reflexivity.
Qed.
(** Volumes given by name, durations and sounds are stored as given, or rejected. *)
Theorem alarm_settings_partial : forall reply conf sounds,
  (forall s, (level (VStr s) s -> changes reply (set_alarm_volume reply conf (VStr s)) "set_alarm_configure" conf [("volume", JStr s)]) /\
             (~ level (VStr s) s -> rejects (set_alarm_volume reply conf (VStr s)))) /\
  (forall z, (forall n, ~ level (VInt z) n) -> rejects (set_alarm_volume reply conf (VInt z))) /\
  (forall d, (1 <= d <= 600 -> changes reply (set_alarm_duration reply conf d) "set_alarm_configure" conf [("duration", JInt d)]) /\
             (~ 1 <= d <= 600 -> rejects (set_alarm_duration reply conf d))) /\
  (forall s, (In s sounds -> changes reply (set_alarm_sound reply conf sounds s) "set_alarm_configure" conf [("type", JStr s)]) /\
             (~ In s sounds -> rejects (set_alarm_sound reply conf sounds s))).
Proof.
  intros reply conf sounds. unfold set_alarm_volume, set_alarm_duration, set_alarm_sound. split; [|split; [|split]].
  - intro s. split; intro H.
    + apply level_spec in H. eexists. split; [|intro log; unfold mbind, mlift; rewrite H; reflexivity]. chg.
    + intro log. unfold mbind, mlift. rewrite level_err; [reflexivity|]. intros n L. apply H. pose proof L as L'. apply level_spec in L'.
      unfold convert_volume in L'. destruct (smem s _); [|discriminate]. injection L' as <-. exact L.
  - intros z H log. unfold mbind, mlift. rewrite (level_err _ H). reflexivity.
  - intro d. unfold check_duration. split; intro H.
    + replace (d <? 1) with false by (symmetry; apply Z.ltb_ge; lia). replace (10 * 60 <? d) with false by (symmetry; apply Z.ltb_ge; lia).
      eexists. split; [|intro log; reflexivity]. chg.
    + intro log. replace ((d <? 1) || (10 * 60 <? d)) with true; [reflexivity|]. symmetry. apply orb_true_iff. rewrite !Z.ltb_lt. lia.
  - intro s. unfold check_sound. split; intro H.
    + apply smem_in in H. rewrite H. eexists. split; [|intro log; reflexivity]. chg.
    + intro log. destruct (smem s sounds) eqn:S; [apply smem_in in S; contradiction|reflexivity].
Qed.
Print Assumptions alarm_settings_partial.
(** A volume given as a number is sent as that number, and cannot be read back. *)
Theorem alarm_volume_refuted : forall reply conf z n, level (VInt z) n ->
  exists d, fst (set_alarm_volume reply conf (VInt z) []) = [mkCmd "set_alarm_configure" d] /\
            dget "volume" d = Some (JInt z) /\ alarm_volume d = Err PyKeyError.
Proof.
  intros reply conf z n H. apply level_spec in H. unfold set_alarm_volume, mbind, mlift. rewrite H. cbn [volume_json].
  eexists. split; [reflexivity|]. unfold alarm_volume, dindex. rewrite dget_dset. split; reflexivity.
Qed.
Print Assumptions alarm_volume_refuted.
Example alarm_volume_refuted_ex : level (VInt 2) "normal".
Proof. unfold level. cbn. tauto. Qed.
(** Playing the alarm sends exactly the given overrides, the volume by name, or is rejected. *)
Theorem alarm_play : forall reply sounds d v s,
  let ok_d := forall x, d = Some x -> 1 <= x <= 600 in
  let ok_s := forall x, s = Some x -> In x sounds in
  (forall n, ok_d -> ok_s -> (forall x, v = Some x -> level x n) ->
     changes reply (play_alarm reply sounds d v s) "play_alarm" []
       (match d with Some x => [("alarm_duration", JInt x)] | None => [] end ++
        match v with Some _ => [("alarm_volume", JStr n)] | None => [] end ++
        match s with Some x => [("alarm_type", JStr x)] | None => [] end)) /\
  (~ ok_d \/ ~ ok_s \/ (exists x, v = Some x /\ forall n, ~ level x n) -> rejects (play_alarm reply sounds d v s)).
Proof.
  intros reply sounds d v s ok_d ok_s. subst ok_d ok_s. unfold play_alarm. split.
  - intros n Hd Hs Hv.
    assert (Cd : forall x, d = Some x -> check_duration x = Ok tt).
    { intros x E. specialize (Hd x E). unfold check_duration. replace (x <? 1) with false by (symmetry; apply Z.ltb_ge; lia).
      replace (10 * 60 <? x) with false by (symmetry; apply Z.ltb_ge; lia). reflexivity. }
    assert (Cv : forall x, v = Some x -> convert_volume x = Ok n) by (intros x E; apply level_spec, Hv, E).
    assert (Cs : forall x, s = Some x -> check_sound sounds x = Ok tt).
    { intros x E. specialize (Hs x E). apply smem_in in Hs. unfold check_sound. rewrite Hs. reflexivity. }
    clear Hd Hs Hv. unfold changes, mbind, mlift.
    destruct d as [d|]; [rewrite (Cd d eq_refl)|]; (destruct v as [v|]; [rewrite (Cv v eq_refl)|]); (destruct s as [s|]; [rewrite (Cs s eq_refl)|]);
      cbn [bind dset String.eqb Ascii.eqb Bool.eqb app]; (eexists; split; [|intro log; reflexivity]); chg.
  - intros H log. unfold mbind, mlift.
    destruct d as [d|]; [unfold check_duration; destruct ((d <? 1) || (10 * 60 <? d)) eqn:Ed|]; [reflexivity| |];
      cbn [bind]; (destruct v as [v|]; [destruct (convert_volume v) as [n|e] eqn:Ev|]); cbn [bind];
      try (unfold convert_volume in Ev; destruct (smem _ _) in Ev; [discriminate|injection Ev as <-; reflexivity]);
      (destruct s as [s|]; [unfold check_sound; destruct (smem s sounds) eqn:Es|]); cbn [bind]; try reflexivity; exfalso;
      (destruct H as [H|[H|(x & Hx & H)]];
       [apply H; intros x Hx; try discriminate; injection Hx as <-; apply orb_false_iff in Ed as [E1 E2]; apply Z.ltb_ge in E1, E2; lia
       |apply H; intros x Hx; try discriminate; injection Hx as <-; apply smem_in; exact Es
       |try discriminate; injection Hx as <-; apply (H n), level_spec, Ev]).
Qed.
Print Assumptions alarm_play.
Example alarm_play_ex : fst (play_alarm (fun _ => Ok JNull) ["Doorbell"] (Some 5) (Some (VInt 3)) (Some "Doorbell") []) =
  [mkCmd "play_alarm" [("alarm_duration", JInt 5); ("alarm_volume", JStr "high"); ("alarm_type", JStr "Doorbell")]].
Proof. reflexivity. Qed.

(** ** C57 *)
(** The device is idle again, or reports an error. *)
Definition definite (s : dstate) : Prop := d_status s = 0 \/ d_status s < 0.
Definition settled (p : poll) : Prop := exists s, p_state p = Some s /\ definite s.
(** How long one round takes: the pause, the poll, and the time the device asks for while flashing. *)
Definition round_ms (p : poll) : Z :=
  500 + p_ms p + match p_state p with
                 | Some s => if d_status s =? 3 then Z.max 0 (1000 * d_upgrade_time s) else 0
                 | None => 0
                 end.
Definition total_ms (ps : list poll) : Z := fold_right (fun p t => round_ms p + t) 0 ps.
Definition five_minutes : Z := 300000.
Lemma round_unsettled : forall p left ps, ~ settled p -> 0 <= p_ms p ->
  poll_loop left (p :: ps) = if left - round_ms p <=? 0 then TimedOut else poll_loop (left - round_ms p) ps.
Proof.
  intros p left ps N H. unfold settled, definite in N. cbn [poll_loop]. unfold round_ms. destruct (p_state p) as [s|].
  - destruct (Z.eqb_spec (d_status s) 0); [exfalso; apply N; eauto|].
    destruct (Z.eqb_spec (d_status s) 2) as [E|_].
    { rewrite E. cbn [Z.eqb Pos.eqb]. replace (left - (500 + p_ms p + 0)) with (left - 500 - p_ms p) by lia. reflexivity. }
    destruct (Z.eqb_spec (d_status s) 3) as [E|_].
    { replace (left - (500 + p_ms p + Z.max 0 (1000 * d_upgrade_time s))) with (left - 500 - p_ms p - Z.max 0 (1000 * d_upgrade_time s)) by lia.
      destruct (Z.leb_spec (left - 500 - p_ms p) 0); [|reflexivity].
      destruct (Z.leb_spec (left - 500 - p_ms p - Z.max 0 (1000 * d_upgrade_time s)) 0); [reflexivity|lia]. }
    destruct (Z.ltb_spec (d_status s) 0); [exfalso; apply N; eauto|].
    replace (left - (500 + p_ms p + 0)) with (left - 500 - p_ms p) by lia. reflexivity.
  - replace (left - (500 + p_ms p + 0)) with (left - 500 - p_ms p) by lia. reflexivity.
Qed.
Lemma round_settled : forall p s left ps, p_state p = Some s -> definite s ->
  poll_loop left (p :: ps) = if left - 500 - p_ms p <=? 0 then TimedOut else Returned s.
Proof.
  intros p s left ps E D. cbn [poll_loop]. rewrite E. destruct (_ <=? 0); [reflexivity|].
  destruct D as [D|D]; [rewrite D; reflexivity|].
  destruct (Z.eqb_spec (d_status s) 0); [reflexivity|]. destruct (Z.eqb_spec (d_status s) 2); [lia|]. destruct (Z.eqb_spec (d_status s) 3); [lia|].
  destruct (Z.ltb_spec (d_status s) 0); [reflexivity|lia].
Qed.
Lemma settled_dec : forall p, settled p \/ ~ settled p.
Proof.
  intro p. unfold settled, definite. destruct (p_state p) as [s|]; [|right; intros (s & H & _); discriminate].
  destruct (Z.eq_dec (d_status s) 0); [left; eauto|]. destruct (Z_lt_dec (d_status s) 0); [left; eauto|].
  right. intros (s' & [= <-] & H). tauto.
Qed.
Lemma round_pos : forall p, 0 <= p_ms p -> 500 <= round_ms p.
Proof. intros p H. unfold round_ms. destruct (p_state p) as [s|]; [destruct (_ =? 3)|]; lia. Qed.
(** Polls that fail or report another state, any number of them, followed by a definite state
    within the limit: that state is the result. *)
Theorem firmware_returns : forall left waits p s rest,
  Forall (fun q => ~ settled q /\ 0 <= p_ms q) waits -> p_state p = Some s -> definite s ->
  total_ms waits + 500 + p_ms p < left -> 0 <= p_ms p ->
  poll_loop left (waits ++ p :: rest) = Returned s.
Proof.
  intros left waits p s rest H E D. revert left. induction H as [|q waits [N Hq] H IH]; intros left T P.
  - cbn [app total_ms fold_right] in *. rewrite (round_settled _ _ _ _ E D). destruct (Z.leb_spec (left - 500 - p_ms p) 0); [lia|reflexivity].
  - cbn [app total_ms fold_right] in *. fold (total_ms waits) in T. rewrite round_unsettled by assumption.
    assert (W : 0 <= total_ms waits).
    { clear - H. induction H as [|q w [_ Hq] H IH]; cbn; [lia|]. fold (total_ms w). pose proof (round_pos q Hq). lia. }
    destruct (Z.leb_spec (left - round_ms q) 0); [lia|]. apply IH; lia.
Qed.
Print Assumptions firmware_returns.
(** Conversely, whatever the polls, a result is the first definite state, seen within the
    limit; the update gives up only once the limit is reached, and otherwise goes on. *)
Theorem firmware_definite : forall left ps, Forall (fun q => 0 <= p_ms q) ps ->
  match poll_loop left ps with
  | Returned s => exists waits p rest, ps = waits ++ p :: rest /\ Forall (fun q => ~ settled q) waits /\
                    p_state p = Some s /\ definite s /\ total_ms waits + 500 + p_ms p < left
  | TimedOut => exists waits p rest, ps = waits ++ p :: rest /\ Forall (fun q => ~ settled q) waits /\ left <= total_ms waits + round_ms p
  | Running => Forall (fun q => ~ settled q) ps /\ (ps <> [] -> total_ms ps < left)
  end.
Proof.
  intros left ps H. revert left. induction H as [|q ps Hq H IH]; intro left; [cbn; split; [constructor|congruence]|].
  destruct (settled_dec q) as [(s & E & D)|N].
  - rewrite (round_settled _ _ _ _ E D). destruct (Z.leb_spec (left - 500 - p_ms q) 0).
    + exists [], q, ps. split; [reflexivity|]. split; [constructor|]. unfold round_ms. rewrite E. unfold total_ms; cbn [fold_right].
      destruct (d_status s =? 3); lia.
    + exists [], q, ps. split; [reflexivity|]. split; [constructor|]. split; [exact E|]. split; [exact D|]. unfold total_ms; cbn [fold_right]; lia.
  - rewrite (round_unsettled _ _ _ N Hq). destruct (Z.leb_spec (left - round_ms q) 0).
    + exists [], q, ps. split; [reflexivity|]. split; [constructor|]. unfold total_ms; cbn [fold_right]; lia.
    + specialize (IH (left - round_ms q)). destruct (poll_loop (left - round_ms q) ps).
      * destruct IH as (w & p & r & -> & Hw & E & D & T). exists (q :: w), p, r. split; [reflexivity|]. split; [constructor; assumption|].
        split; [exact E|]. split; [exact D|]. unfold total_ms in *; cbn [fold_right]; lia.
      * destruct IH as (w & p & r & -> & Hw & T). exists (q :: w), p, r. split; [reflexivity|]. split; [constructor; assumption|].
        unfold total_ms in *; cbn [fold_right]; lia.
      * destruct IH as [Hw T]. split; [constructor; assumption|]. intros _. unfold total_ms in *; cbn [fold_right]. destruct ps; [cbn [fold_right]; lia|].
        specialize (T ltac:(discriminate)). lia.
Qed.
Print Assumptions firmware_definite.
(** The download starts exactly when an update was found and the device is connected to the
    cloud; otherwise the call raises and nothing is sent.  The polls have five minutes. *)
Theorem firmware_started : forall reply info cloud ps log,
  let found := exists status, info = Some status /\ status <> 0 in
  (found /\ cloud = true -> firmware_update reply info cloud ps log =
     (log ++ [mkCmd "fw_download" []], match reply (mkCmd "fw_download" []) with Ok _ => Ok (poll_loop five_minutes ps) | Err e => Err e end)) /\
  (~ (found /\ cloud = true) -> firmware_update reply info cloud ps log = (log, Err KKasa)).
Proof.
  intros reply info cloud ps log found. subst found. split.
  - intros [(z & -> & Hz) ->]. unfold firmware_update. replace (z =? 0) with false by (symmetry; apply Z.eqb_neq; exact Hz).
    cbn [negb andb]. unfold mbind, send. destruct (reply _); reflexivity.
  - intro N. unfold firmware_update. destruct info as [z|]; [|reflexivity]. destruct cloud; [|reflexivity].
    destruct (Z.eqb_spec z 0); [reflexivity|]. exfalso. apply N. eauto.
Qed.
Print Assumptions firmware_started.
Example firmware_ex : firmware_update (fun _ => Ok JNull) (Some 2) true
  [mkPoll 20 (Some (mkD 2 50 5)); mkPoll 20 (Some (mkD 3 100 5)); mkPoll 5000 None; mkPoll 5000 None; mkPoll 30 (Some (mkD 0 0 5))] [] =
  ([mkCmd "fw_download" []], Ok (Returned (mkD 0 0 5))).
Proof. reflexivity. Qed.

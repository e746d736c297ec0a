(** Proofs about the readings of the SMART modules. *)
From Verif Require Import Base Py Base_Lemmas Smod_Model Gadget_Model Small_Model Read_Model Read_Spec.
Open Scope string_scope.
Open Scope list_scope.
Open Scope Z_scope.

Lemma dget_filter {A} (q : list string) k (d : dict A) :
  dget k (filter (fun kv : string * A => smem (fst kv) q) d) = if smem k q then dget k d else None.
Proof.
  induction d as [|[k0 v0] d IH]; cbn [filter dget].
  - destruct (smem k q); reflexivity.
  - cbn [fst]. destruct (smem k0 q) eqn:E0; cbn [dget].
    + destruct (String.eqb_spec k k0) as [->|N]; [rewrite E0; reflexivity|exact IH].
    + destruct (String.eqb_spec k k0) as [->|N]; [rewrite E0 in *; exact IH|exact IH].
Qed.
Lemma dwf_filter {A} (g : string * A -> bool) (d : dict A) : dwf d -> dwf (filter g d).
Proof.
  unfold dwf, dkeys. induction d as [|[k0 v0] d IH]; cbn; [auto|]. intros H. inversion H; subst.
  destruct (g (k0, v0)); cbn; auto. constructor; auto.
  intros I. apply H2. apply in_map_iff in I. destruct I as ([a b] & Ha & I). cbn in Ha. subst a.
  apply filter_In in I. apply in_map_iff. exists (k0, b). tauto.
Qed.
Lemma values_get k (d : dict reply) : dwf d ->
  dget k (values d) = match dget k d with Some (RVal v) => Some v | _ => None end.
Proof.
  unfold dwf, dkeys. induction d as [|[k0 v0] d IH]; cbn [values dget map fst]; intros W; [reflexivity|].
  inversion W as [|? ? N W']; subst. specialize (IH W'). destruct v0 as [v|c]; cbn [dget].
  - destruct (String.eqb_spec k k0); [reflexivity|exact IH].
  - destruct (String.eqb_spec k k0) as [->|]; [|exact IH].
    rewrite IH. destruct (dget k0 d) eqn:E; [|reflexivity]. exfalso. apply N.
    apply dget_Some_key in E. exact E.
Qed.
Lemma removable_ok opt (d : dict reply) : (forall k c, In (k, RErr c) d -> In k opt) ->
  exists rm, removable opt d = Ok rm /\ (rm = [] -> map fst (values d) = map fst d).
Proof.
  induction d as [|[k v] d IH]; cbn [removable values]; intros H; [exists []; auto|].
  destruct IH as (rm & E & R); [intros; apply (H k0 c); right; assumption|].
  destruct v as [v|c].
  - exists rm. split; [exact E|]. intros Z. cbn. f_equal. auto.
  - assert (S : smem k opt = true) by (apply smem_In, (H k c); left; reflexivity).
    rewrite S, E. cbn [bind]. exists (k :: rm). split; [reflexivity|discriminate].
Qed.

Section Data.
Variables (w : answers) (own : dict reply) (parent : option (dict reply)) (info : json).

Lemma data_src m : m_query m <> [] -> updated w (m_query m) own parent ->
  exists src, holds w (m_query m) src
    /\ data m own parent info =
       (let filtered := filter (fun kv : string * reply => smem (fst kv) (m_query m)) src in
        let! removed := removable (m_optional m) filtered in
        Ok (match values filtered, removed with [(_, v)], [] => One v | d, _ => Many d end)).
Proof.
  intros N [H|(p & Ep & H & O)].
  - exists own. split; [exact H|]. unfold data. destruct (m_query m) as [|k0 q] eqn:Eq; [congruence|].
    assert (E : dmem k0 own = true).
    { unfold dmem. rewrite (proj2 H k0); [reflexivity|left; reflexivity]. }
    rewrite E. reflexivity.
  - exists p. split; [exact H|]. unfold data. destruct (m_query m) as [|k0 q] eqn:Eq; [congruence|].
    unfold dmem. rewrite (O k0); [|left; reflexivity]. subst parent.
    rewrite (proj2 H k0); [reflexivity|left; reflexivity].
Qed.
Lemma data_one m k v : m_query m = [k] -> updated w [k] own parent -> w k = RVal v ->
  data m own parent info = Ok (One v).
Proof.
  intros Q U V. rewrite <- Q in U. assert (N : m_query m <> []) by congruence.
  destruct (data_src m N U) as (src & (W & H) & ->). cbv zeta. rewrite Q in *.
  assert (E : filter (fun kv : string * reply => smem (fst kv) [k]) src = [(k, RVal v)]).
  { specialize (H k (or_introl eq_refl)). rewrite V in H. clear - W H.
    induction src as [|[k0 v0] src IH]; [discriminate|].
    unfold dwf, dkeys in W. cbn in W. inversion W as [|? ? Nk W']; subst. cbn [filter fst smem existsb].
    rewrite orb_false_r. cbn [dget] in H. destruct (String.eqb_spec k k0) as [->|X].
    - rewrite seqb_refl. injection H as ->. f_equal.
      clear - Nk. induction src as [|[a b] src IH]; [reflexivity|]. cbn [filter fst smem existsb].
      rewrite orb_false_r. destruct (String.eqb_spec a k0) as [->|]; [exfalso; apply Nk; left; reflexivity|].
      apply IH. intros I. apply Nk. right. exact I.
    - rewrite String.eqb_sym. destruct (String.eqb_spec k k0); [congruence|]. apply IH; auto. }
  rewrite E. reflexivity.
Qed.
Lemma data_many m k1 k2 : In k1 (m_query m) -> In k2 (m_query m) -> k1 <> k2 ->
  updated w (m_query m) own parent -> answered w (m_query m) (m_optional m) ->
  exists d, data m own parent info = Ok (Many d)
    /\ forall k, dget k d = if smem k (m_query m) then match w k with RVal v => Some v | RErr _ => None end else None.
Proof.
  intros I1 I2 N12 U A. assert (N : m_query m <> []) by (intros E; rewrite E in I1; exact I1).
  destruct (data_src m N U) as (src & (W & H) & ->). cbv zeta.
  set (F := filter (fun kv : string * reply => smem (fst kv) (m_query m)) src).
  assert (WF : dwf F) by (apply dwf_filter; exact W).
  assert (G : forall k, dget k F = if smem k (m_query m) then Some (w k) else None).
  { intros k. unfold F. rewrite dget_filter. destruct (smem k (m_query m)) eqn:E; [|reflexivity].
    apply H. apply smem_In. exact E. }
  destruct (removable_ok (m_optional m) F) as (rm & -> & R).
  { intros k c I. pose proof (In_dget _ _ _ WF I) as D. rewrite G in D.
    destruct (smem k (m_query m)) eqn:E; [|discriminate].
    destruct (smem k (m_optional m)) eqn:O; [apply smem_In; exact O|exfalso].
    destruct (A k) as (v & V); [apply smem_In; exact E| |congruence].
    intros J. apply smem_In in J. congruence. }
  cbn [bind].
  assert (B : forall k, In k (m_query m) -> In k (map fst F)).
  { intros k I. pose proof (G k) as D. apply smem_In in I. rewrite I in D. apply dget_Some_key in D. exact D. }
  exists (values F). split.
  - destruct (values F) as [|[a v] [|x l]] eqn:E; try reflexivity. destruct rm; [|reflexivity].
    exfalso. specialize (R eq_refl). cbn in R.
    pose proof (B _ I1) as B1. pose proof (B _ I2) as B2. rewrite <- R in B1, B2.
    cbn in B1, B2. intuition congruence.
  - intros k. rewrite (values_get _ _ WF), G. destruct (smem k (m_query m)); reflexivity.
Qed.
(** A refused request that has to be answered *)
Lemma data_refused m k c : m_query m <> [] -> updated w (m_query m) own parent ->
  In k (m_query m) -> ~ In k (m_optional m) -> w k = RErr c ->
  exists k' c', In k' (m_query m) /\ w k' = RErr c' /\ data m own parent info = Err (KDevice (Some c')).
Proof.
  intros N U I O E. destruct (data_src m N U) as (src & (W & H) & ->). cbv zeta.
  set (F := filter (fun kv : string * reply => smem (fst kv) (m_query m)) src).
  assert (X : exists k' c', In (k', RErr c') F /\ removable (m_optional m) F = Err (KDevice (Some c'))).
  { assert (J : In (k, RErr c) F).
    { unfold F. apply filter_In. split; [|apply smem_In; exact I].
      apply dget_In. rewrite (H k I), E. reflexivity. }
    clear - J O. induction F as [|[a v] F IH]; [destruct J|]. cbn [removable].
    destruct J as [J|J].
    - injection J as -> ->. destruct (smem k (m_optional m)) eqn:S; [apply smem_In in S; tauto|].
      exists k, c. split; [left; reflexivity|reflexivity].
    - destruct (IH J) as (k' & c' & I' & ->). destruct v as [v|c0].
      + exists k', c'. split; [right; exact I'|reflexivity].
      + destruct (smem a (m_optional m)); [exists k', c'; split; [right; exact I'|reflexivity]|].
        exists a, c0. split; [left; reflexivity|reflexivity]. }
  destruct X as (k' & c' & I' & ->). exists k', c'. apply filter_In in I'. destruct I' as (I1 & I2).
  cbn [fst] in I2. apply smem_In in I2. split; [exact I2|]. split; [|reflexivity].
  pose proof (In_dget _ _ _ W I1) as D. rewrite (H k' I2) in D. congruence.
Qed.
End Data.

Definition agree (r : res value) (o : option value) : Prop :=
  match r, o with Ok a, Some b => a = b | Err _, None => True | _, _ => False end.
Lemma agree_iff r o : agree r o -> forall v, r = Ok v <-> o = Some v.
Proof. destruct r as [a|e], o as [b|]; cbn; intros A v; subst; split; intros H; try congruence; try contradiction. Qed.

Lemma enum_agree (e : list (string * Z)) (t : Z -> option string) v :
  (forall z, name_of e z = match t z with Some s => Ok s | None => Err PyValueError end) ->
  agree (text (enum_name e v)) (named t (whole_number v)).
Proof.
  intros H. unfold enum_name, text, named, whole_number, as_int.
  destruct v as [|[]|z| | | |]; cbn; auto; rewrite H; destruct (t _); cbn; auto.
Qed.
Ltac table := intros z; cbn [name_of];
  repeat match goal with |- context [?a =? z] => destruct (Z.eqb_spec a z) as [<-|]; [reflexivity|] end;
  destruct z as [|p|p]; try (exfalso; lia); cbn; try reflexivity;
  repeat (destruct p as [p|p|]; try (exfalso; lia); try reflexivity).
Lemma speeds_ok z : name_of clean_speeds z = match speed_name z with Some s => Ok s | None => Err PyValueError end.
Proof. revert z. unfold clean_speeds, speed_name. table. Qed.
Lemma units_ok z : name_of area_units z = match unit_name z with Some s => Ok s | None => Err PyValueError end.
Proof. revert z. unfold area_units, unit_name. table. Qed.
Lemma water_ok z : name_of water_levels z = match water_name z with Some s => Ok s | None => Err PyValueError end.
Proof. revert z. unfold water_levels, water_name. table. Qed.
Lemma dust_ok z : name_of dust_modes z = match dust_name z with Some s => Ok s | None => Err PyValueError end.
Proof. revert z. unfold dust_modes, dust_name. table. Qed.

Lemma is_0_zero v : is_0 v = Small_Model.is_zero v.
Proof.
  destruct v as [| | |s| | |]; cbn; try reflexivity.
  destruct (String.eqb s "0.0"), (String.eqb s "-0.0"); reflexivity.
Qed.
Lemma entry_agree v : match log_entry v, entry v with Ok a, Some b => a = b | Err _, None => True | _, _ => False end.
Proof.
  unfold log_entry, entry. destruct v as [| | | | | |l0]; try exact I.
  cbn [follow]. destruct (dget "id" l0); [|exact I]. destruct (dget "eventId" l0); [|exact I].
  destruct (dget "timestamp" l0); [|exact I]. destruct (dget "event" l0); [|exact I]. reflexivity.
Qed.
Lemma entries_agree l : match log_entries l, every entry l with Ok a, Some b => a = b | Err _, None => True | _, _ => False end.
Proof.
  induction l as [|v l IH]; cbn [log_entries every]; [reflexivity|].
  pose proof (entry_agree v) as E. destruct (log_entry v), (entry v); try contradiction; cbn [bind]; [|exact I].
  subst. destruct (log_entries l), (every entry l); try contradiction; cbn [bind]; [|exact I]. subst. reflexivity.
Qed.

Section Reads.
Variables (f : facts) (w : answers) (own : dict reply) (parent : option (dict reply)) (info : dict json).
Hypothesis P : proper w.
Hypothesis Info : w "get_device_info" = RVal (JObj info).

Lemma dt_info m : query f m = [] -> dt f own parent info m = Ok (JObj info).
Proof. intros Q. unfold dt, data, class. cbn [m_query]. rewrite Q. reflexivity. Qed.
Lemma top_info m : query f m = [] -> top f own parent info m = Ok info.
Proof. intros Q. unfold top. rewrite (dt_info m Q). reflexivity. Qed.
Lemma dt_one m k : query f m = [k] -> updated w (query f m) own parent -> answered w (query f m) (optional f m) ->
  optional f m = [] -> exists d, w k = RVal (JObj d) /\ dt f own parent info m = Ok (JObj d) /\ top f own parent info m = Ok d.
Proof.
  intros Q U A O. destruct (A k) as (v & V); [rewrite Q; left; reflexivity|rewrite O; intros []|].
  destruct (p_objects _ P _ _ V) as (d & ->). exists d. split; [exact V|].
  assert (E : dt f own parent info m = Ok (JObj d)).
  { unfold dt. rewrite Q in U. rewrite (data_one w own parent (JObj info) (class f m) k (JObj d)); auto. }
  split; [exact E|]. unfold top. rewrite E. reflexivity.
Qed.
Lemma dt_many m k1 k2 : In k1 (query f m) -> In k2 (query f m) -> k1 <> k2 ->
  updated w (query f m) own parent -> answered w (query f m) (optional f m) ->
  exists d, dt f own parent info m = Ok (JObj d)
    /\ forall k, dget k d = if smem k (query f m) then match w k with RVal v => Some v | RErr _ => None end else None.
Proof.
  intros I1 I2 N U A.
  destruct (data_many w own parent (JObj info) (class f m) k1 k2 I1 I2 N U A) as (d & E & G).
  exists d. split; [unfold dt; rewrite E; reflexivity|exact G].
Qed.
Lemma at_many m k1 k2 k : In k1 (query f m) -> In k2 (query f m) -> k1 <> k2 ->
  updated w (query f m) own parent -> answered w (query f m) (optional f m) ->
  In k (query f m) -> ~ In k (optional f m) ->
  exists d, w k = RVal (JObj d) /\ at_ f own parent info m k = Ok d.
Proof.
  intros I1 I2 N U A Ik Nk. destruct (dt_many m k1 k2 I1 I2 N U A) as (d & E & G).
  destruct (A k Ik Nk) as (v & V). destruct (p_objects _ P _ _ V) as (x & ->). exists x. split; [exact V|].
  unfold at_. rewrite E. cbn [bind jitem]. unfold dindex. rewrite G.
  apply smem_In in Ik. rewrite Ik, V. reflexivity.
Qed.

Lemma agree_plain (d : dict json) k : agree (plain (dindex k d)) (as_is (follow [k] (JObj d))).
Proof. unfold plain, dindex. cbn [follow]. destruct (dget k d); cbn; auto. Qed.
Lemma energy_v1 : (1 <? v_energy f) = false ->
  updated w (query f MEnergy) own parent -> answered w (query f MEnergy) (optional f MEnergy) ->
  exists d, w "get_energy_usage" = RVal (JObj d) /\ dt f own parent info MEnergy = Ok (JObj d)
    /\ dget "get_energy_usage" d = None /\ dget "get_emeter_data" d = None /\ dget "get_current_power" d = None.
Proof.
  intros V U A. destruct (dt_one MEnergy "get_energy_usage") as (d & W & E & _); auto.
  { cbn [query]. rewrite V. reflexivity. }
  { cbn [optional]. rewrite V. reflexivity. }
  exists d. split; [exact W|]. split; [exact E|].
  assert (X : forall k, In k ["get_energy_usage"; "get_emeter_data"; "get_current_power"] -> dget k d = None).
  { intros k I. pose proof (p_usage _ P k I) as H. unfold fld in H. rewrite W in H. cbn [follow] in H.
    destruct (dget k d); [discriminate|reflexivity]. }
  repeat split; apply X; cbn; auto.
Qed.
Lemma energy_v2 : (1 <? v_energy f) = true ->
  updated w (query f MEnergy) own parent -> answered w (query f MEnergy) (optional f MEnergy) ->
  exists d now emeter, dt f own parent info MEnergy = Ok (JObj d)
    /\ w "get_current_power" = RVal (JObj now) /\ w "get_emeter_data" = RVal (JObj emeter)
    /\ dget "get_current_power" d = Some (JObj now) /\ dget "get_emeter_data" d = Some (JObj emeter)
    /\ ((exists u, w "get_energy_usage" = RVal (JObj u) /\ dget "get_energy_usage" d = Some (JObj u))
        \/ (exists c, w "get_energy_usage" = RErr c /\ dget "get_energy_usage" d = None
            /\ dget "current_power" d = None /\ dget "month_energy" d = None /\ dget "today_energy" d = None)).
Proof.
  intros V U A.
  assert (Q : query f MEnergy = ["get_energy_usage"; "get_current_power"; "get_emeter_data"; "get_emeter_vgain_igain"])
    by (cbn [query]; rewrite V; reflexivity).
  assert (O : optional f MEnergy = ["get_energy_usage"]) by (cbn [optional]; rewrite V; reflexivity).
  destruct (dt_many MEnergy "get_current_power" "get_emeter_data") as (d & E & G); auto;
    try (rewrite Q; cbn; auto; fail); [discriminate|].
  rewrite Q in *. rewrite O in *.
  destruct (A "get_current_power") as (a & Ha); [cbn; auto|intros [X|[]]; discriminate|].
  destruct (p_objects _ P _ _ Ha) as (now & ->).
  destruct (A "get_emeter_data") as (b & Hb); [cbn; auto|intros [X|[]]; discriminate|].
  destruct (p_objects _ P _ _ Hb) as (em & ->).
  exists d, now, em. split; [exact E|]. split; [exact Ha|]. split; [exact Hb|].
  split; [rewrite G, Ha; reflexivity|]. split; [rewrite G, Hb; reflexivity|].
  destruct (w "get_energy_usage") as [u|c] eqn:Hu.
  - left. destruct (p_objects _ P _ _ Hu) as (u' & ->). exists u'. split; [reflexivity|].
    rewrite G, Hu. reflexivity.
  - right. exists c. split; [reflexivity|]. rewrite !G, Hu. repeat split; reflexivity.
Qed.
Lemma over_1000_agree o : agree (over_1000 o) (milli_or_none o).
Proof. unfold over_1000, milli_or_none, given, milli_of, is_num, number. destruct o as [[]|]; cbn; auto. Qed.
Lemma follow1 k d : follow [k] (JObj d) = dget k d.
Proof. cbn [follow]. destruct (dget k d); reflexivity. Qed.

Ltac cases := repeat match goal with
  | |- context [match dget ?k ?d with _ => _ end] => destruct (dget k d) eqn:?
  end; cbn; auto.

Theorem read_agrees r : r <> FrostMinimum -> r <> LedNight ->
  updated w (query f (module_of r)) own parent ->
  answered w (query f (module_of r)) (optional f (module_of r)) ->
  agree (read f own parent info r) (means f w r).
Proof.
  intros N1 N2 U A.
  destruct r; try congruence; cbn [module_of] in U, A; cbn [read means]; unfold sys, fld; rewrite ?Info, ?follow1.
  all: try (rewrite top_info by reflexivity; cbn [bind]).
  all: try match goal with
  | |- context [at_ f own parent info MAlarm ?k] =>
      destruct (at_many MAlarm "get_alarm_configure" "get_support_alarm_type_list" k) as (d & W & E);
      try assumption; try (cbn; tauto); try discriminate; rewrite E, W, ?follow1; cbn [bind]
  | |- context [at_ f own parent info MClean ?k] =>
      destruct (at_many MClean "getVacStatus" "getCleanInfo" k) as (d & W & E);
      try assumption; try (cbn; tauto); try discriminate; rewrite E, W, ?follow1; cbn [bind]
  | |- context [at_ f own parent info MDustbin ?k] =>
      destruct (at_many MDustbin "getAutoDustCollection" "getDustCollectionInfo" k) as (d & W & E);
      try assumption; try (cbn; tauto); try discriminate; rewrite E, W, ?follow1; cbn [bind]
  | |- context [at_ f own parent info MMop ?k] =>
      destruct (at_many MMop "getMopState" "getCleanAttr" k) as (d & W & E);
      try assumption; try (cbn; tauto); try discriminate; rewrite E, W, ?follow1; cbn [bind]
  | |- context [at_ f own parent info MPowerProtection ?k] =>
      destruct (at_many MPowerProtection "get_protection_power" "get_max_power" k) as (d & W & E);
      try assumption; try (cbn; tauto); try discriminate; rewrite E, W, ?follow1; cbn [bind]
  | |- context [top f own parent info ?m] =>
      edestruct (dt_one m) as (d & W & E & Et); [reflexivity|exact U|exact A|reflexivity|]; rewrite Et, W, ?follow1; cbn [bind]
  end.
  all: try (rewrite <- follow1; apply agree_plain).
  - (* AlarmVolume *) unfold dindex, mapped, loudness, says, value_of, volumes. destruct (dget "volume" d) as [v|]; cbn [bind]; [|exact I].
    destruct v as [| | | |s| |]; try exact I. cbn [dget]. 
    destruct (String.eqb s "mute"); [reflexivity|]. destruct (String.eqb s "low"); [reflexivity|].
    destruct (String.eqb s "normal"); [reflexivity|]. destruct (String.eqb s "high"); [reflexivity|exact I].
  - (* AlarmSource *) unfold dindex, mapped. destruct (dget _ info); cbn; auto.
  - (* AutoOffActive *) unfold is_timer_active, flag, dindex, yes_if. destruct (dget _ info); cbn; auto.
  - (* BatteryLow *) unfold battery_low, plain, given, as_is.
    destruct (dget "at_low_battery" info) as [[]|]; cbn; auto. destruct (dget "is_low" info) as [[]|]; cbn; auto.
  - (* CleanSpeed *) unfold dindex. destruct (dget "suction" d); cbn [bind opt_bind]; [|exact I].
    apply enum_agree. exact speeds_ok.
  - (* CleanBoost *) unfold flag, dindex, yes_if. destruct (dget _ d); cbn; auto.
  - (* CleanUnit *) unfold dindex. destruct (dget "area_unit" d); cbn [bind opt_bind]; [|exact I].
    apply enum_agree. exact units_ok.
  - (* CleanTime *) unfold dindex, mapped. destruct (dget "clean_time" d) as [[]|]; cbn; auto.
  - (* CloudConnected *) edestruct (dt_one MCloud) as (d & W & E & _); [reflexivity|exact U|exact A|reflexivity|].
    rewrite E, W, follow1. unfold connected, yes_if, jitem, dindex.
    destruct d as [|x d]; [exact I|]. cbn [truthy]. destruct (dget "status" (x :: d)) as [v|]; cbn [bind]; [|exact I].
    cbn. rewrite is_0_zero. reflexivity.
  - (* DustMode *) unfold dust_mode, auto_collection, dindex. destruct (dget "auto_dust_collection" d) as [v|]; cbn [bind]; [|exact I].
    change (is_false v) with (no v). destruct (no v); [reflexivity|].
    destruct (dget "dust_collection_mode" d); cbn [bind opt_bind]; [|exact I]. apply enum_agree. exact dust_ok.
  - (* EnergyNow *) destruct (1 <? v_energy f) eqn:V.
    + destruct (energy_v2 V U A) as (d & now & em & E & Wn & We & Dn & De & X). rewrite E, Wn, We, !follow1. cbn [bind].
      unfold energy_now, usage, sub. rewrite Dn, De.
      destruct X as [(u & Wu & Du)|(c & Wu & Du & D1 & D2 & D3)]; rewrite Wu, ?Du, ?follow1; cbn [bind jcontains field].
      * unfold given, milli_of, or_else, is_num, number. destruct (dget "current_power" u) as [[]|]; cbn; auto;
        destruct (dget "power_mw" em) as [[]|]; cbn; auto; destruct (dget "current_power" now) as [[]|]; cbn; auto.
      * rewrite D1. unfold given, milli_of, or_else, is_num, number. cbn [bind].
        destruct (dget "power_mw" em) as [[]|]; cbn; auto; destruct (dget "current_power" now) as [[]|]; cbn; auto.
    + destruct (energy_v1 V U A) as (d & W & E & D1 & D2 & D3). rewrite E, W, !follow1. cbn [bind].
      unfold energy_now, usage, sub. rewrite D1, D2, D3. cbn [bind jcontains field].
      unfold given, milli_of, or_else, is_num, number. destruct (dget "current_power" d) as [[]|]; cbn; auto.
  - (* EnergyMonth *) destruct (1 <? v_energy f) eqn:V.
    + destruct (energy_v2 V U A) as (d & now & em & E & Wn & We & Dn & De & X). rewrite E. cbn [bind].
      destruct X as [(u & Wu & Du)|(c & Wu & Du & D1 & D2 & D3)]; rewrite Wu, ?follow1; unfold usage; rewrite Du; cbn [bind field].
      * apply over_1000_agree.
      * rewrite D2. reflexivity.
    + destruct (energy_v1 V U A) as (d & W & E & D1 & D2 & D3). rewrite E, W, follow1. cbn [bind].
      unfold usage. rewrite D1. cbn [bind field]. apply over_1000_agree.
  - (* EnergyToday *) destruct (1 <? v_energy f) eqn:V.
    + destruct (energy_v2 V U A) as (d & now & em & E & Wn & We & Dn & De & X). rewrite E. cbn [bind].
      destruct X as [(u & Wu & Du)|(c & Wu & Du & D1 & D2 & D3)]; rewrite Wu, ?follow1; unfold usage; rewrite Du; cbn [bind field].
      * apply over_1000_agree.
      * rewrite D3. reflexivity.
    + destruct (energy_v1 V U A) as (d & W & E & D1 & D2 & D3). rewrite E, W, follow1. cbn [bind].
      unfold usage. rewrite D1. cbn [bind field]. apply over_1000_agree.
  - (* EnergyCurrent *) destruct (1 <? v_energy f) eqn:V.
    + destruct (energy_v2 V U A) as (d & now & em & E & Wn & We & Dn & De & X). rewrite E, We, follow1. cbn [bind].
      unfold sub. rewrite De. cbn [bind field]. apply over_1000_agree.
    + destruct (energy_v1 V U A) as (d & W & E & D1 & D2 & D3). rewrite E. cbn [bind].
      unfold sub. rewrite D2. reflexivity.
  - (* EnergyVoltage *) destruct (1 <? v_energy f) eqn:V.
    + destruct (energy_v2 V U A) as (d & now & em & E & Wn & We & Dn & De & X). rewrite E, We, follow1. cbn [bind].
      unfold sub. rewrite De. cbn [bind field]. apply over_1000_agree.
    + destruct (energy_v1 V U A) as (d & W & E & D1 & D2 & D3). rewrite E. cbn [bind].
      unfold sub. rewrite D2. reflexivity.
  - (* FanSpeed *) unfold fan_speed_level, plain, dindex. destruct (dget "device_on" info) as [v|]; cbn [bind]; [|exact I].
    change (is_false v) with (no v). destruct (no v); [reflexivity|]. destruct (dget "fan_speed_level" info); cbn; auto.
  - (* FirmwareVersion *) reflexivity.
  - (* AutoUpdate *) destruct (1 <? v_firmware f) eqn:V.
    + assert (Q : query f MFirmware = ["get_auto_update_info"]) by (cbn [query]; rewrite V; reflexivity).
      destruct (dt_one MFirmware _ Q U A eq_refl) as (d & W & E & _). rewrite E, W, follow1. cbn [bind jcontains].
      unfold dmem, plain, jitem, dindex, or_else. destruct (dget "enable" d); cbn; auto.
    + assert (Q : query f MFirmware = []) by (cbn [query]; rewrite V; reflexivity).
      rewrite (dt_info _ Q). cbn [bind jcontains]. pose proof (p_switch _ P) as S. unfold fld in S. rewrite Info, follow1 in S.
      unfold dmem. rewrite S. reflexivity.
  - (* HumidityWarning *) unfold humidity_warning, flag, dindex, yes_if. destruct (dget _ info); cbn; rewrite ?is_0_zero; auto.
  - (* LedOn *) unfold led_on, flag, dindex, yes_if. destruct (dget "led_rule" d); cbn; auto.
  - (* MopLevel *) unfold waterlevel, dindex. destruct (dget "cistern" d) as [v|]; cbn [bind opt_bind]; [|exact I].
    unfold py_int, spelled_number, whole_number, named, option_map, text.
    destruct v as [|b|z|?|s|?|?]; cbn [bind]; try exact I; [rewrite water_ok; destruct (water_name _); cbn; auto..|].
    destruct (DecimalString.NilZero.int_of_string s); cbn [bind]; [|exact I]. rewrite water_ok. destruct (water_name _); cbn; auto.
  - (* Overheated *) unfold overheated, plain, dindex, given, says, is_str.
    destruct (dget "overheat_status" info) as [[]|]; cbn; auto; destruct (dget "overheated" info); cbn; auto.
  - (* Overloaded *) unfold dindex, yes_if. destruct (dget _ info); cbn; auto.
  - (* ProtectionThreshold *) reflexivity.
  - (* ProtectionShown *) unfold threshold_or_zero, plain, dindex, protection_threshold, or_else.
    destruct (dget "enabled" d) as [v|]; cbn [bind]; [|exact I]. destruct (truthy v); reflexivity.
  - (* ControlState *) unfold dindex, yes_if. destruct (dget _ info); cbn; auto.
  - (* TemperatureWarning *) unfold temperature_warning. destruct (dget _ info); cbn; rewrite ?is_0_zero; auto.
  - (* Logs *) pose proof (p_logs _ P) as L. unfold fld in L. rewrite W, follow1 in L.
    unfold dindex. destruct (dget "logs" d) as [v|]; cbn [bind]; [|exact I].
    destruct (L v eq_refl) as (l & ->). cbn [jiter bind]. pose proof (entries_agree l) as X.
    destruct (log_entries l), (every entry l); try contradiction; cbn; subst; auto.
  - (* LeakStatus *) unfold leak_status, text, dindex, mapped. destruct (dget _ info) as [v|]; cbn [bind]; [|exact I].
    unfold is_str, says. destruct v as [| | | |s| |]; try exact I.
    destruct (String.eqb_spec s "normal"); [subst; reflexivity|].
    destruct (String.eqb_spec s "water_leak"); [subst; reflexivity|].
    destruct (String.eqb_spec s "water_dry"); [subst; reflexivity|exact I].
Qed.
End Reads.

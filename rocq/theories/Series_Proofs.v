From Coq Require Import Lia.
From Verif Require Import Base Py Base_Lemmas IotLight_Model Gadget_Model Small_Model Vacuum_Model Series_Model Series_Spec.
From Verif Require SmartLight_Model.
Open Scope string_scope.
Open Scope list_scope.
Open Scope Z_scope.

Lemma group_eqb_eq a b : group_eqb a b = true <-> a = b.
Proof. split; [destruct a, b; intros H; (reflexivity || discriminate H)|intros ->; destruct b; reflexivity]. Qed.
Lemma group_dec (a b : group) : a = b \/ a <> b.
Proof. destruct (group_eqb a b) eqn:E; [left; now apply group_eqb_eq|right; intros ->; rewrite (proj2 (group_eqb_eq b b) eq_refl) in E; discriminate]. Qed.
Lemma group_eqb_neq (a b : group) : a <> b -> group_eqb a b = false.
Proof. intros H. destruct (group_eqb a b) eqn:E; [|reflexivity]. apply group_eqb_eq in E. contradiction. Qed.
Lemma existsb_group g l : existsb (group_eqb g) l = true <-> In g l.
Proof.
  rewrite existsb_exists. split.
  - intros (x & Hx & E). apply group_eqb_eq in E. now subst.
  - intros H. exists g. split; [exact H|]. now apply group_eqb_eq.
Qed.

Lemma put_same g d s k : dwf d -> dget k (put g d s g) = match dget k d with Some v => Some v | None => dget k (s g) end.
Proof. intros W. unfold put. rewrite (proj2 (group_eqb_eq g g) eq_refl). rewrite dget_dupdate_wf by exact W. reflexivity. Qed.
Lemma put_other g d s g' : g <> g' -> put g d s g' = s g'.
Proof. intros H. unfold put. now rewrite group_eqb_neq. Qed.
Lemma put_wf g d s g' : dwf (s g') -> dwf (put g d s g').
Proof. intros W. unfold put. destruct (group_eqb g g'); [now apply dwf_dupdate|exact W]. Qed.

Lemma ddel_wf k (d : dict json) : dwf d -> dwf (ddel k d).
Proof.
  unfold dwf. induction d as [|[k' v] d IH]; cbn [ddel]; [auto|]. intros W. inversion W as [|? ? N W']; subst.
  destruct (String.eqb_spec k k'); [apply IH; exact W'|]. cbn [dkeys map fst]. constructor; [|apply IH; exact W'].
  intros H. apply N. clear - H. induction d as [|[k2 v2] d IH]; [exact H|]. cbn [ddel] in H.
  destruct (String.eqb k k2); [right; apply IH; exact H|]. destruct H as [H|H]; [left; exact H|right; apply IH; exact H].
Qed.

(** Writes into one record *)
Definition tag (g : group) (kvs : dict json) : list (group * string * json) := map (fun kv => (g, fst kv, snd kv)) kvs.
Lemma writes_tag g kvs : forall v g' k,
  writes v (tag g kvs) g' k =
  if group_eqb g g' then match dget k (rev kvs) with Some x => Some x | None => v g' k end else v g' k.
Proof.
  unfold writes. induction kvs as [|[k0 x0] kvs IH]; intros v g' k; cbn [tag map fold_left rev fst snd].
  - cbn [dget]. destruct (group_eqb g g'); reflexivity.
  - unfold tag in IH. rewrite IH. rewrite dget_app. cbn [write dget]. destruct (group_eqb g g'); cbn [andb]; [|reflexivity].
    destruct (dget k (rev kvs)); [reflexivity|]. rewrite (String.eqb_sym k0 k). destruct (String.eqb k k0); reflexivity.
Qed.
Lemma put_agrees g d s v kvs : agrees s v ->
  (forall k, match dget k (rev d) with Some x => Some x | None => dget k (s g) end
           = match dget k (rev kvs) with Some x => Some x | None => dget k (s g) end) ->
  agrees (put g d s) (writes v (tag g kvs)).
Proof.
  intros A E g' k. rewrite writes_tag. unfold put. destruct (group_eqb g g') eqn:G; [|apply A].
  apply group_eqb_eq in G. subst g'. rewrite dget_dupdate, <- A. apply E.
Qed.
Lemma put_narrow g d s v : agrees s v -> agrees (put g d s) (writes v (tag g d)).
Proof. intros A. apply put_agrees; [exact A|reflexivity]. Qed.
Lemma put_back g base kvs s v : agrees s v -> dwf base -> (forall k, dget k base = dget k (s g)) ->
  agrees (put g (dupdate base kvs) s) (writes v (tag g kvs)).
Proof.
  intros A W B. apply put_agrees; [exact A|]. intros k. rewrite dget_rev by (apply dwf_dupdate; exact W).
  rewrite dget_dupdate. destruct (dget k (rev kvs)); [reflexivity|]. rewrite B. destruct (dget k (s g)); reflexivity.
Qed.

Lemma smem_volumes n : smem n (map snd volume_names) = smem n ["mute"; "low"; "normal"; "high"].
Proof. reflexivity. Qed.

Section Step.
Variables (f : facts) (sh s : store) (v : view).
Hypothesis (Hm : 0 <= f_max_power f) (Hsh : sound sh) (Hs : sound s) (Ha : agrees s v).

Definition after (c : call) : store := fold_left (fun s c => accept c s) (fst (setter f sh c [])) s.
Definition same (g : group) : Prop := forall k, dget k (sh g) = dget k (s g).

Lemma back g kvs : same g -> agrees (put g (dupdate (sh g) kvs) s) (writes v (tag g kvs)).
Proof. intros H. apply put_back; [exact Ha|apply (proj1 Hsh)|exact H]. Qed.

Lemma auto_off_step b n : same AutoOff ->
  agrees (after (AutoOffSwitch b)) (writes v [(AutoOff, "enable", JBool b)])
  /\ agrees (after (AutoOffDelay n)) (writes v [(AutoOff, "delay_min", JInt n)]).
Proof.
  intros H. destruct Hsh as (_ & E & D & _). unfold dmem in E, D.
  destruct (dget "enable" (sh AutoOff)) as [e|] eqn:Ee; [|discriminate E].
  destruct (dget "delay_min" (sh AutoOff)) as [d|] eqn:Ed; [|discriminate D].
  unfold after, setter, set_auto_off_enabled, set_auto_off_delay, mbind, mlift, dindex. rewrite Ee, Ed.
  rewrite H in Ee, Ed. split.
  - apply (put_agrees AutoOff _ s v [("enable", JBool b)]); [exact Ha|]. intros k. cbn [k_params rev List.app dget].
    destruct (String.eqb_spec k "delay_min") as [->|N1]; [rewrite Ed; reflexivity|].
    destruct (String.eqb k "enable"); reflexivity.
  - apply (put_agrees AutoOff _ s v [("delay_min", JInt n)]); [exact Ha|]. intros k. cbn [k_params rev List.app dget].
    destruct (String.eqb_spec k "enable") as [->|N1]; [rewrite Ee; reflexivity|].
    destruct (String.eqb k "delay_min"); reflexivity.
Qed.

Definition outcome_ok (c : call) : Prop := agrees (after c) (match asks f v c with Some ws => writes v ws | None => v end).

Lemma protect_switch b t : same Protection -> outcome_ok (ProtectSwitch b t).
Proof.
  intros H. unfold outcome_ok, after, setter, set_protection_enabled. cbv zeta.
  destruct t as [t|].
  - assert (Ab : asks f v (ProtectSwitch b (Some t)) = if (0 <=? t) && (t <=? f_max_power f)
        then Some [(Protection, "enabled", JBool b); (Protection, "protection_power", JInt t)] else None) by (destruct b; reflexivity).
    rewrite Ab. clear Ab. destruct (Z.eqb_spec t 0) as [->|N].
    + cbn [negb andb]. replace ((0 <=? 0) && (0 <=? f_max_power f)) with true by (symmetry; apply andb_true_intro; split; apply Z.leb_le; lia).
      apply (back Protection [("enabled", JBool b); ("protection_power", JInt 0)] H).
    + cbn [negb andb]. destruct (Z.ltb_spec t 0), (Z.ltb_spec (f_max_power f) t); cbn [orb];
        destruct (Z.leb_spec 0 t), (Z.leb_spec t (f_max_power f)); cbn [andb]; try lia; try exact Ha.
      apply (back Protection [("enabled", JBool b); ("protection_power", JInt t)] H).
  - destruct b.
    + cbn [asks]. cbv zeta. rewrite <- (Ha Protection "protection_power"). cbn [andb].
      destruct Hs as (_ & _ & _ & _ & P).
      assert (Hf : negb (Z.quot (f_max_power f) 2 =? 0) && ((Z.quot (f_max_power f) 2 <? 0) || (f_max_power f <? Z.quot (f_max_power f) 2)) = false).
      { rewrite Z.quot_div_nonneg by lia. apply andb_false_iff. right. apply orb_false_iff.
        split; apply Z.ltb_ge; [apply Z.div_pos; lia|apply Z.div_le_upper_bound; lia]. }
      assert (Hq : Z.quot (f_max_power f) 2 = f_max_power f / 2) by (apply Z.quot_div_nonneg; lia).
      unfold protection_threshold. rewrite H. destruct (dget "protection_power" (s Protection)) as [w|] eqn:Ew.
      * destruct (P w eq_refl) as [n ->]. unfold Gadget_Model.is_zero. cbn [as_int]. destruct (n =? 0).
        -- rewrite Hf. rewrite Hq. apply (back Protection [("enabled", JBool true); ("protection_power", JInt (f_max_power f / 2))] H).
        -- apply (back Protection [("enabled", JBool true)] H).
      * unfold Gadget_Model.is_zero. cbn [as_int]. change (0 =? 0) with true. cbv iota. rewrite Hf. rewrite Hq.
        apply (back Protection [("enabled", JBool true); ("protection_power", JInt (f_max_power f / 2))] H).
    + cbn [andb]. apply (back Protection [("enabled", JBool false)] H).
Qed.
Lemma protect_threshold t : same Protection -> outcome_ok (ProtectThreshold t).
Proof.
  intros H. unfold outcome_ok, after, setter, set_protection_threshold. cbn [asks]. cbv zeta.
  destruct (Z.ltb_spec t 0), (Z.ltb_spec (f_max_power f) t); cbn [orb];
    destruct (Z.leb_spec 0 t), (Z.leb_spec t (f_max_power f)); cbn [andb]; try lia; try exact Ha.
  apply (back Protection [("protection_power", JInt t)] H).
Qed.
Lemma protect_feature t : same Protection -> outcome_ok (ProtectFeature t).
Proof.
  intros H. unfold outcome_ok. unfold after, setter, set_threshold_auto_enable. cbn [asks]. cbv zeta.
  destruct (t =? 0) eqn:E.
  - exact (protect_switch false None H).
  - exact (protect_switch true (Some t) H).
Qed.
Lemma alarm_step : same AlarmConf -> (forall n, outcome_ok (AlarmVolume n)) /\ (forall n, outcome_ok (AlarmDuration n)) /\ (forall n, outcome_ok (AlarmSound n)).
Proof.
  intros H. unfold outcome_ok, after, setter, set_alarm_volume, set_alarm_duration, set_alarm_sound, mbind, mlift. cbn [asks]. cbv zeta.
  split; [|split]; intros n.
  - unfold convert_volume. rewrite smem_volumes. destruct (smem n ["mute"; "low"; "normal"; "high"]).
    + apply (back AlarmConf [("volume", JStr n)] H).
    + exact Ha.
  - unfold check_duration. change (10 * 60) with 600.
    destruct (Z.ltb_spec n 1), (Z.ltb_spec 600 n); cbn [orb]; destruct (Z.leb_spec 1 n), (Z.leb_spec n 600); cbn [andb]; try lia; try exact Ha.
    apply (back AlarmConf [("duration", JInt n)] H).
  - unfold check_sound. destruct (smem n (f_sounds f)); [|exact Ha]. apply (back AlarmConf [("type", JStr n)] H).
Qed.

Lemma clean_step : same CleanAttr -> forall n, outcome_ok (MopLevel n).
Proof.
  intros H n. unfold outcome_ok, after, setter, set_waterlevel, value_of. cbn [asks]. cbv zeta.
  change (dget n water_levels) with (level_of n). destruct (level_of n) as [z|]; [|exact Ha].
  assert (W := proj1 Hsh CleanAttr).
  apply (put_agrees CleanAttr _ s v [("cistern", JInt z)]); [exact Ha|]. intros k. cbn [k_params].
  rewrite dget_rev by (apply ddel_wf, dwf_dset, W). cbn [rev List.app]. rewrite dget_ddel.
  destruct (String.eqb_spec k "type") as [->|N].
  - reflexivity.
  - rewrite dget_dset. cbn [dget]. destruct (String.eqb k "cistern"); [reflexivity|]. rewrite H. destruct (dget k (s CleanAttr)); reflexivity.
Qed.
Lemma bin_modes n : dget n dust_modes = if String.eqb n "Off" then Some (-1000) else bin_mode_of n.
Proof.
  unfold bin_mode_of, dust_modes. cbn [dget].
  destruct (String.eqb_spec n "Smart") as [->|]; [reflexivity|]. destruct (String.eqb_spec n "Light") as [->|]; [reflexivity|].
  destruct (String.eqb_spec n "Balanced") as [->|]; [reflexivity|]. destruct (String.eqb_spec n "Max") as [->|]; reflexivity.
Qed.
Lemma dust_step : same DustInfo -> (forall b, outcome_ok (DustAuto b)) /\ (forall n, outcome_ok (DustMode n)).
Proof.
  intros H. assert (A : forall b, outcome_ok (DustAuto b)).
  { intros b. exact (back DustInfo [("auto_dust_collection", JBool b)] H). }
  split; [exact A|]. intros n. unfold outcome_ok, after, setter, set_dust_mode, value_of. cbn [asks]. cbv zeta.
  rewrite bin_modes. destruct (String.eqb n "Off").
  - exact (A false).
  - destruct (bin_mode_of n) as [z|]; [|exact Ha].
    exact (back DustInfo [("auto_dust_collection", JBool true); ("dust_collection_mode", JInt z)] H).
Qed.
Lemma narrow_step c : carries c = [] -> match c with SmoothOn _ | SmoothOff _ => False | _ => True end -> outcome_ok c.
Proof.
  intros C N. destruct c as [b|n|b|b t|t|t|n|n|n|n|n|n|b|n|n|b|b|b|b|n|b|u|n|n|b]; try discriminate C; try contradiction N;
    unfold outcome_ok, after, setter; cbn [asks]; cbv zeta.
  - (* FanPreset *) unfold set_fan_speed. change (dget n fan_speeds) with (preset_of n). destruct (preset_of n) as [z|]; [|exact Ha].
    exact (put_narrow CleanAttr [("suction", JInt z)] s v Ha).
  - exact (put_narrow CleanAttr [("clean_number", JInt n)] s v Ha).
  - unfold set_speaker_volume.
    destruct (Z.ltb_spec n 0), (Z.ltb_spec 100 n); cbn [orb]; destruct (Z.leb_spec 0 n), (Z.leb_spec n 100); cbn [andb]; try lia; try exact Ha.
    exact (put_narrow SpeakerVol [("volume", JInt n)] s v Ha).
  - exact (put_narrow CarpetInfo [("carpet_clean_prefer", JStr (if b then "boost" else "normal"))] s v Ha).
  - exact (put_narrow LockInfo [("child_lock_status", JBool b)] s v Ha).
  - exact (put_narrow DevInfo [("frost_protection_on", JBool b)] s v Ha).
  - unfold set_fan_speed_level. destruct (Z.eqb_spec n 0) as [->|Nn].
    + exact (put_narrow DevInfo [("device_on", JBool false)] s v Ha).
    + destruct (Z.ltb_spec n 0), (Z.ltb_spec 4 n); cbn [orb]; destruct (Z.leb_spec 1 n), (Z.leb_spec n 4); cbn [andb]; try lia; try exact Ha.
      exact (put_narrow DevInfo [("device_on", JBool true); ("fan_speed_level", JInt n)] s v Ha).
  - exact (put_narrow DevInfo [("fan_sleep_mode_on", JBool b)] s v Ha).
  - exact (put_narrow DevInfo [("temp_unit", JStr u)] s v Ha).
Qed.
Lemma tstate_ok g max : g = OnState \/ g = OffState -> exists n b, dget "duration" (sh g) = Some (JInt n) /\ tstate_of (sh g) max = Ok (SmartLight_Model.mkT n b max).
Proof.
  intros G. destruct Hsh as (_ & _ & _ & T & _). destruct (T g G) as [[n En] [b Eb]]. exists n, b. split; [exact En|].
  unfold tstate_of. rewrite En, Eb. reflexivity.
Qed.
(** One half of the transitions, its duration sent back *)
Lemma half_step g n b s' v' : dget "duration" (sh g) = Some (JInt n) -> (forall k, dget k (sh g) = dget k (s' g)) -> agrees s' v' ->
  agrees (put g [("enable", JBool b); ("duration", JInt n)] s') (writes v' (tag g [("enable", JBool b)])).
Proof.
  intros E H A. apply put_agrees; [exact A|]. intros k. cbn [rev List.app dget].
  destruct (String.eqb_spec k "duration") as [->|N1]; [rewrite <- H, E; reflexivity|].
  destruct (String.eqb k "enable"); reflexivity.
Qed.
Lemma smooth_on n : (n <= 0 -> same OnState) -> outcome_ok (SmoothOn n).
Proof.
  intros H. unfold outcome_ok, after, setter, mbind, mlift. cbn [asks]. cbv zeta.
  destruct (tstate_ok OnState (f_max_on f) (or_introl eq_refl)) as (d & b & Ed & ->).
  unfold SmartLight_Model.set_transition. cbn [SmartLight_Model.t_max SmartLight_Model.t_duration].
  destruct (f_max_on f <? n); [exact Ha|]. destruct (Z.leb_spec n 0) as [L|L].
  - exact (half_step OnState d false s v Ed (H L) Ha).
  - exact (put_narrow OnState [("enable", JBool true); ("duration", JInt n)] s v Ha).
Qed.
Lemma smooth_off n : (n <= 0 -> same OffState) -> outcome_ok (SmoothOff n).
Proof.
  intros H. unfold outcome_ok, after, setter, mbind, mlift. cbn [asks]. cbv zeta.
  destruct (tstate_ok OffState (f_max_off f) (or_intror eq_refl)) as (d & b & Ed & ->).
  unfold SmartLight_Model.set_transition. cbn [SmartLight_Model.t_max SmartLight_Model.t_duration].
  destruct (f_max_off f <? n); [exact Ha|]. destruct (Z.leb_spec n 0) as [L|L].
  - exact (half_step OffState d false s v Ed (H L) Ha).
  - exact (put_narrow OffState [("enable", JBool true); ("duration", JInt n)] s v Ha).
Qed.
Lemma smooth_both b : same OnState -> same OffState -> outcome_ok (Smooth b).
Proof.
  intros H1 H2. unfold outcome_ok, after, setter, mbind, mlift. cbn [asks]. cbv zeta.
  destruct (tstate_ok OnState (f_max_on f) (or_introl eq_refl)) as (d & e & Ed & ->).
  destruct (tstate_ok OffState (f_max_off f) (or_intror eq_refl)) as (d' & e' & Ed' & ->).
  unfold set_smooth, mbind. cbn [SmartLight_Model.t_duration send fine].
  pose proof (half_step OnState d b s v Ed H1 Ha) as A1.
  assert (H2' : forall k, dget k (sh OffState) = dget k (put OnState [("enable", JBool b); ("duration", JInt d)] s OffState)) by exact H2.
  exact (half_step OffState d' b _ _ Ed' H2' A1).
Qed.

Theorem set_step c : (forall g, In g (carries c) -> same g) -> outcome_ok c.
Proof.
  intros C.
  assert (S : forall g, carries c = [g] -> same g) by (intros g E; apply C; rewrite E; left; reflexivity).
  destruct c as [b|n|b|b t|t|t|n|n|n|n|n|n|b|n|n|b|b|b|b|n|b|u|n|n|b].
  - exact (proj1 (auto_off_step b 0 (S _ eq_refl))).
  - exact (proj2 (auto_off_step true n (S _ eq_refl))).
  - exact (back LedInfo [("led_rule", JStr (if b then "always" else "never"))] (S _ eq_refl)).
  - exact (protect_switch b t (S _ eq_refl)).
  - exact (protect_threshold t (S _ eq_refl)).
  - exact (protect_feature t (S _ eq_refl)).
  - exact (proj1 (alarm_step (S _ eq_refl)) n).
  - exact (proj1 (proj2 (alarm_step (S _ eq_refl))) n).
  - exact (proj2 (proj2 (alarm_step (S _ eq_refl))) n).
  - exact (clean_step (S _ eq_refl) n).
  - exact (narrow_step (FanPreset n) eq_refl I).
  - exact (narrow_step (CleanCount n) eq_refl I).
  - exact (proj1 (dust_step (S _ eq_refl)) b).
  - exact (proj2 (dust_step (S _ eq_refl)) n).
  - exact (narrow_step (Volume n) eq_refl I).
  - exact (narrow_step (CarpetBoost b) eq_refl I).
  - exact (back AutoUpdate [("enable", JBool b)] (S _ eq_refl)).
  - exact (narrow_step (ChildLock b) eq_refl I).
  - exact (narrow_step (Frost b) eq_refl I).
  - exact (narrow_step (FanLevel n) eq_refl I).
  - exact (narrow_step (FanSleep b) eq_refl I).
  - exact (narrow_step (TempUnit u) eq_refl I).
  - apply smooth_on. intros L. apply C. cbn [carries]. rewrite (proj2 (Z.leb_le n 0) L). left; reflexivity.
  - apply smooth_off. intros L. apply C. cbn [carries]. rewrite (proj2 (Z.leb_le n 0) L). left; reflexivity.
  - apply smooth_both; apply C; [left|right; left]; reflexivity.
Qed.
End Step.

(** ** Histories *)
Definition group_of (w : group * string * json) : group := fst (fst w).
Lemma writes_off v ws g k : (forall w, In w ws -> group_of w <> g) -> writes v ws g k = v g k.
Proof.
  unfold writes. revert v. induction ws as [|[[g' k'] x] ws IH]; intros v N; [reflexivity|]. cbn [fold_left].
  rewrite IH by (intros w Hw; apply N; right; exact Hw). unfold write.
  rewrite group_eqb_neq by (apply (N (g', k', x)); left; reflexivity). reflexivity.
Qed.
(** The value of a field after writes: one of them, or the old one *)
Lemma writes_cases v ws g k : (exists x, In (g, k, x) ws /\ writes v ws g k = Some x) \/ writes v ws g k = v g k.
Proof.
  unfold writes. revert v. induction ws as [|[[g' k'] x] ws IH]; intros v; [right; reflexivity|]. cbn [fold_left].
  destruct (IH (write v (g', k', x))) as [(y & Hy & E)|E]; [left; exists y; split; [right; exact Hy|exact E]|].
  rewrite E. unfold write. destruct (group_eqb g' g) eqn:G; cbn [andb]; [|right; reflexivity].
  destruct (String.eqb_spec k' k) as [->|]; [|right; reflexivity]. apply group_eqb_eq in G. subst g'.
  left. exists x. split; [left; reflexivity|reflexivity].
Qed.

Ltac asked H := repeat match type of H with
  | (if ?b then _ else _) = _ => destruct b
  | match ?o with _ => _ end = _ => destruct o
  end; inversion H; subst; clear H.
Lemma asks_touches f v c ws : asks f v c = Some ws -> forall w, In w ws -> In (group_of w) (touches c).
Proof.
  intros A w Hw. destruct c as [b|n|b|b t|t|t|n|n|n|n|n|n|b|n|n|b|b|b|b|n|b|u|n|n|b]; cbn [asks] in A; cbv zeta in A; asked A;
    cbn [In] in Hw; repeat (destruct Hw as [<-|Hw]; [cbn; auto|]); contradiction Hw.
Qed.
(** What is asked for transitions and thresholds is of the right kind *)
Definition right_kind (g : group) (k : string) (x : json) : Prop :=
  match g with OnState | OffState => typed k x | Protection => k = "protection_power" -> exists n, x = JInt n | _ => True end.
Lemma asks_kind f v c ws : asks f v c = Some ws -> forall g k x, In (g, k, x) ws -> right_kind g k x.
Proof.
  intros A g k x Hw. destruct c as [b|n|b|b t|t|t|n|n|n|n|n|n|b|n|n|b|b|b|b|n|b|u|n|n|b]; cbn [asks] in A; cbv zeta in A; asked A;
    cbn [In] in Hw; repeat (destruct Hw as [E|Hw]; [inversion E; subst; clear E; cbn; unfold typed; repeat split; (intros; discriminate) || eauto|]); contradiction Hw.
Qed.

Lemma accept_wf c s : (forall g, dwf (s g)) -> forall g, dwf (accept c s g).
Proof.
  intros W g. unfold accept. destruct (plain_target (k_method c)) as [g'|]; [apply put_wf, W|].
  destruct (String.eqb (k_method c) _); [|apply W]. unfold half.
  destruct (dget "off_state" (k_params c)) as [[]|]; try apply put_wf;
    destruct (dget "on_state" (k_params c)) as [[]|]; try apply put_wf; apply W.
Qed.
Lemma accepts_wf cs : forall s, (forall g, dwf (s g)) -> forall g, dwf (fold_left (fun s c => accept c s) cs s g).
Proof. induction cs as [|c cs IH]; intros s W; [exact W|]. cbn [fold_left]. apply IH. apply accept_wf. exact W. Qed.

(** Writing values of the right kind keeps a device sound *)
Lemma sound_writes s s' v ws : sound s -> agrees s v -> (forall g, dwf (s' g)) -> agrees s' (writes v ws) ->
  (forall g k x, In (g, k, x) ws -> right_kind g k x) -> sound s'.
Proof.
  intros (W & E & D & T & P) A W' A' K. split; [exact W'|].
  assert (Keep : forall k g, dmem k (s g) = true -> dmem k (s' g) = true).
  { intros k g. unfold dmem. rewrite A', A. destruct (writes_cases v ws g k) as [(x & _ & ->)| ->]; auto. }
  split; [apply Keep, E|]. split; [apply Keep, D|]. split.
  - intros g G. destruct (T g G) as [[n En] [b Eb]]. rewrite A in En, Eb. rewrite !A'. split.
    + destruct (writes_cases v ws g "duration") as [(x & Hx & ->)| ->]; [|eauto].
      apply K in Hx. destruct G as [-> | ->]; destruct (proj1 Hx eq_refl) as [m ->]; eauto.
    + destruct (writes_cases v ws g "enable") as [(x & Hx & ->)| ->]; [|eauto].
      apply K in Hx. destruct G as [-> | ->]; destruct (proj2 Hx eq_refl) as [m ->]; eauto.
  - intros x. rewrite A'. destruct (writes_cases v ws Protection "protection_power") as [(y & Hy & ->)| ->].
    + intros E1. inversion E1; subst. exact (K _ _ _ Hy eq_refl).
    + rewrite <- A. apply P.
Qed.

Lemma agrees_refl s : agrees s (fun g k => dget k (s g)).
Proof. intros g k. reflexivity. Qed.

Record inv (x : sys) (v : view) (changed : list group) : Prop := mkInv {
  i_shown : sound (shown x); i_kept : sound (kept x); i_view : agrees (kept x) v;
  i_same : forall g, ~ In g changed -> forall k, dget k (shown x g) = dget k (kept x g) }.

Lemma inv_run f h : 0 <= f_max_power f -> forall x v changed, inv x v changed -> careful changed h -> Forall sane h ->
  agrees (kept (run f x h)) (settled f v h).
Proof.
  intros Hm. induction h as [|e h IH]; intros x v changed [S K V E] C N; [exact V|].
  inversion N as [|? ? Ne Nh]; subst. unfold run, settled. cbn [fold_left]. destruct e as [c|gs|g k y].
  - destruct C as [Cc Ch]. apply (IH _ _ (touches c ++ changed)); [|exact Ch|exact Nh].
    assert (O : outcome_ok f (shown x) (kept x) v c).
    { apply set_step; [exact Hm|exact S|exact K|exact V|]. intros g Hg. unfold same. apply E. apply Cc. exact Hg. }
    unfold outcome_ok, after in O. cbn [change step].
    destruct (asks f v c) as [ws|] eqn:A.
    + constructor; cbn [shown kept]; [exact S| |exact O|].
      * apply (sound_writes (kept x) _ v ws K V); [apply accepts_wf, (proj1 K)|exact O|]. exact (asks_kind f v c ws A).
      * intros g Hg k. rewrite O. rewrite writes_off.
        -- rewrite <- V. apply E. intros H. apply Hg. apply in_app_iff. right. exact H.
        -- intros w Hw Eg. subst g. apply Hg. apply in_app_iff. left. exact (asks_touches f v c ws A w Hw).
    + constructor; cbn [shown kept]; [exact S| |exact O|].
      * apply (sound_writes (kept x) _ v [] K V); [apply accepts_wf, (proj1 K)|exact O|]. intros g k y [].
      * intros g Hg k. rewrite O, <- V. apply E. intros H. apply Hg. apply in_app_iff. right. exact H.
  - cbn [careful] in C. apply (IH _ _ (filter (fun g => negb (existsb (group_eqb g) gs)) changed)); [|exact C|exact Nh].
    constructor; cbn [step shown kept change]; [|exact K|exact V|].
    + destruct S as (W1 & E1 & D1 & T1 & P1), K as (W2 & E2 & D2 & T2 & P2). split; [intros g; destruct (existsb _ gs); auto|].
      split; [destruct (existsb _ gs); auto|]. split; [destruct (existsb _ gs); auto|].
      split; [intros g G; destruct (existsb _ gs); auto|destruct (existsb _ gs); auto].
    + intros g Hg k. destruct (existsb (group_eqb g) gs) eqn:X; [reflexivity|]. apply E. intros H. apply Hg. apply filter_In.
      split; [exact H|]. now rewrite X.
  - cbn [careful] in C. apply (IH _ _ (g :: changed)); [|exact C|exact Nh].
    assert (O : agrees (put g [(k, y)] (kept x)) (writes v [(g, k, y)])) by exact (put_narrow g [(k, y)] (kept x) v V).
    constructor; cbn [step shown kept change]; [exact S| |exact O|].
    + apply (sound_writes (kept x) _ v [(g, k, y)] K V); [intros g'; apply put_wf, (proj1 K)|exact O|].
      intros g0 k0 y0 [H|[]]. inversion H; subst. cbn [sane] in Ne. unfold right_kind. destruct g0; auto.
    + intros g' Hg k'. rewrite put_other by (intros ->; apply Hg; left; reflexivity). apply E. intros H. apply Hg. right. exact H.
Qed.

(** ** Whole records *)
Lemma run_wf f h : forall x, (forall g, dwf (shown x g)) -> (forall g, dwf (kept x g)) ->
  (forall g, dwf (shown (run f x h) g)) /\ (forall g, dwf (kept (run f x h) g)).
Proof.
  induction h as [|e h IH]; intros x A B; [auto|]. unfold run. cbn [fold_left]. apply IH; destruct e as [c|gs|g k y]; cbn [step shown kept]; auto.
  - intros g. destruct (existsb _ gs); auto.
  - apply accepts_wf. exact B.
  - intros g'. apply put_wf, B.
Qed.
Lemma restores g kvs (sh s : store) k : dwf (sh g) -> dget k (rev kvs) = None ->
  dget k (put g (dupdate (sh g) kvs) s g) = match dget k (sh g) with Some x => Some x | None => dget k (s g) end.
Proof.
  intros W N. rewrite put_same by (apply dwf_dupdate, W). rewrite dget_dupdate, N. reflexivity.
Qed.
Lemma tag_none g kvs k : (forall y, ~ In (g, k, y) (tag g kvs)) -> dget k (rev kvs) = None.
Proof.
  intros N. apply dget_None. intros H. unfold dkeys in H. rewrite map_rev, <- in_rev in H. apply in_map_iff in H as ([k' y] & E & H).
  cbn in E. subst k'. apply (N y). unfold tag. apply in_map_iff. exists (k, y). split; [reflexivity|exact H].
Qed.
Lemma whole_restores f sh s c g v ws k : dwf (sh g) -> whole c = Some g -> asks f v c = Some ws ->
  (forall y, ~ In (g, k, y) ws) -> (g = CleanAttr -> k <> "type") ->
  dget k (after f sh s c g) = match dget k (sh g) with Some x => Some x | None => dget k (s g) end.
Proof.
  intros W Wh A N Nt.
  destruct c as [b|n|b|b t|t|t|n|n|n|n|n|n|b|n|n|b|b|b|b|n|b|u|n|n|b]; try discriminate Wh; inversion Wh; subst g; clear Wh;
    cbn [asks] in A; cbv zeta in A; unfold after, setter.
  - inversion A; subst ws. exact (restores LedInfo [(_, _)] sh s k W (tag_none LedInfo [(_, _)] k N)).
  - unfold set_protection_threshold.
    destruct (Z.leb_spec 0 t), (Z.leb_spec t (f_max_power f)); cbn [andb] in A; try discriminate A. inversion A; subst ws.
    destruct (Z.ltb_spec t 0), (Z.ltb_spec (f_max_power f) t); cbn [orb]; try lia.
    exact (restores Protection [(_, _)] sh s k W (tag_none Protection [(_, _)] k N)).
  - unfold set_alarm_volume, mbind, mlift, convert_volume. rewrite smem_volumes. destruct (smem n ["mute"; "low"; "normal"; "high"]); [|discriminate A].
    inversion A; subst ws. exact (restores AlarmConf [(_, _)] sh s k W (tag_none AlarmConf [(_, _)] k N)).
  - unfold set_alarm_duration, mbind, mlift, check_duration. change (10 * 60) with 600.
    destruct (Z.leb_spec 1 n), (Z.leb_spec n 600); cbn [andb] in A; try discriminate A. inversion A; subst ws.
    destruct (Z.ltb_spec n 1), (Z.ltb_spec 600 n); cbn [orb]; try lia.
    exact (restores AlarmConf [(_, _)] sh s k W (tag_none AlarmConf [(_, _)] k N)).
  - unfold set_alarm_sound, mbind, mlift, check_sound. destruct (smem n (f_sounds f)); [|discriminate A].
    inversion A; subst ws. exact (restores AlarmConf [(_, _)] sh s k W (tag_none AlarmConf [(_, _)] k N)).
  - unfold set_waterlevel, value_of. change (dget n water_levels) with (level_of n). destruct (level_of n) as [z|]; [|discriminate A].
    inversion A; subst ws. pose proof (tag_none CleanAttr [("cistern", JInt z)] k N) as H. cbn [rev List.app dget] in H.
    change (dget k (put CleanAttr (ddel "type" (dset "cistern" (JInt z) (sh CleanAttr))) s CleanAttr) =
            match dget k (sh CleanAttr) with Some x => Some x | None => dget k (s CleanAttr) end).
    rewrite put_same by (apply ddel_wf, dwf_dset, W). rewrite dget_ddel.
    destruct (String.eqb_spec k "type") as [->|_]; [exfalso; apply Nt; reflexivity|]. rewrite dget_dset.
    destruct (String.eqb k "cistern"); [discriminate H|reflexivity].
  - inversion A; subst ws. exact (restores DustInfo [(_, _)] sh s k W (tag_none DustInfo [(_, _)] k N)).
  - unfold set_dust_mode, value_of. rewrite bin_modes. destruct (String.eqb n "Off").
    + inversion A; subst ws. exact (restores DustInfo [(_, _)] sh s k W (tag_none DustInfo [(_, _)] k N)).
    + destruct (bin_mode_of n) as [z|]; [|discriminate A]. inversion A; subst ws.
      exact (restores DustInfo [(_, _); (_, _)] sh s k W (tag_none DustInfo [(_, _); (_, _)] k N)).
  - inversion A; subst ws. exact (restores AutoUpdate [(_, _)] sh s k W (tag_none AutoUpdate [(_, _)] k N)).
Qed.

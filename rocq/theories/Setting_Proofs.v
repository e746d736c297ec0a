(** Lemmas about the settings *)
From Coq Require Import QArith Lia.
From Verif Require Import Base Base_Lemmas Py Setting_Model Setting_Spec.
Open Scope string_scope.
Open Scope list_scope.
Open Scope Z_scope.

Lemma number_num v q : number v q <-> num v = Some q.
Proof.
  split; [now intros []|]. destruct v as [z|f|[]| | | |]; cbn; intros H; try discriminate; injection H as <-; constructor.
Qed.
Lemma below_num v b x y : num v = Some x -> num b = Some y -> below v b = Ok (negb (Qle_bool y x)).
Proof. unfold below. now intros -> ->. Qed.
Lemma check_in lo hi e v : within lo hi v -> check (Int lo) (Int hi) e v = Ok tt.
Proof.
  intros (q & H & H1 & H2). apply number_num in H. unfold check, below. rewrite H. cbn [num bind].
  apply Qle_bool_iff in H1, H2. now rewrite H1, H2.
Qed.
Lemma check_out lo hi e v : num v <> None -> ~ within lo hi v -> check (Int lo) (Int hi) e v = Err e.
Proof.
  intros Hn Ho. destruct (num v) as [q|] eqn:E; [|easy]. unfold check, below. rewrite E. cbn [num bind].
  destruct (Qle_bool (inject_Z lo) q) eqn:E1, (Qle_bool q (inject_Z hi)) eqn:E2; cbn; try reflexivity.
  exfalso. apply Ho. exists q. split; [now apply number_num|]. split; now apply Qle_bool_iff.
Qed.
Definition numeric (s : setting) (st : state) (o : option (Z * Z)) : Prop :=
  offered st s = Ok (match o with Some (lo, hi) => Between (Int lo) (Int hi) | None => Unbounded end).
Lemma gate_number st s o v : numeric s st o ->
  let (lo, hi) := match o with Some lh => lh | None => (0, 65536) end in
  (within lo hi v -> gate st s v = Ok tt) /\ (~ within lo hi v -> gate st s v = Err PyValueError).
Proof.
  unfold numeric. intros H. unfold gate. rewrite H. destruct o as [[lo hi]|].
  - split; intros Hw.
    + pose proof (check_in lo hi PyValueError v Hw) as Hc. unfold check in Hc.
      destruct Hw as (q & Hq & _). apply number_num in Hq. rewrite Hq. exact Hc.
    + destruct (num v) eqn:E; [|reflexivity]. assert (Hn : num v <> None) by congruence.
      exact (check_out lo hi PyValueError v Hn Hw).
  - split; intros Hw.
    + pose proof (check_in 0 65536 PyValueError v Hw) as Hc. unfold check in Hc.
      destruct Hw as (q & Hq & _). apply number_num in Hq. rewrite Hq. exact Hc.
    + destruct (num v) eqn:E; [|reflexivity]. assert (Hn : num v <> None) by congruence.
      exact (check_out 0 65536 PyValueError v Hn Hw).
Qed.
Lemma gate_choice st s l v : offered st s = Ok (OneOf l) ->
  (among l v -> gate st s v = Ok tt) /\ (~ among l v -> gate st s v = Err PyValueError).
Proof.
  unfold gate. intros ->. split.
  - intros (x & -> & Hi). apply smem_In in Hi. now rewrite Hi.
  - intros Hn. destruct v; try reflexivity. destruct (smem s0 l) eqn:E; [|reflexivity].
    exfalso. apply Hn. exists s0. split; [reflexivity|now apply smem_In].
Qed.
Lemma pir_choice st v : among (pir_ranges st) v <-> advertised st PirRange v.
Proof.
  unfold among, advertised, pir_ranges, range_at, field. split.
  - intros (x & -> & H). apply in_map_iff in H. destruct H as ((n & i) & Hn & H). cbn in Hn. subst n.
    apply filter_In in H. destruct H as (Hr & Hm). cbn [snd] in Hm.
    unfold dmem in Hm. destruct (dget (keys_of_index i) (at_ st PirArray)) as [t|] eqn:E; [|discriminate].
    exists x, (keys_of_index i), t. split; [reflexivity|]. split; [|exact E].
    cbn in Hr. destruct Hr as [Hr|[Hr|[Hr|[Hr|[]]]]]; injection Hr as <- <-; cbn; intuition.
  - intros (n & k & t & -> & H & Ht). exists n. split; [reflexivity|]. apply in_map_iff.
    cbn in H.
    assert (Hx : exists i, In (n, i) ranges /\ k = keys_of_index i).
    { destruct H as [H|[H|[H|[H|[]]]]]; injection H as <- <-; [exists 0|exists 1|exists 2|exists 3]; cbn; intuition. }
    destruct Hx as (i & Hi & ->). exists (n, i). split; [reflexivity|]. apply filter_In. split; [exact Hi|].
    cbn [snd]. unfold dmem. now rewrite Ht.
Qed.
Lemma gate_spec st s v : in_order st s ->
  (advertised st s v -> gate st s v = Ok tt) /\ (~ advertised st s v -> gate st s v = Err PyValueError).
Proof.
  intros Ho.
  destruct s; cbn [in_order advertised] in *;
    try match goal with |- (within ?lo ?hi _ -> gate _ ?s _ = _) /\ _ =>
          first [exact (gate_number st s (Some (lo, hi)) v eq_refl) | exact (gate_number st s None v eq_refl)] end;
    try match goal with |- (among ?l _ -> gate _ ?s _ = _) /\ _ => exact (gate_choice st s l v eq_refl) end.
  - split; intros H; [apply (gate_choice st PirRange _ v eq_refl); now apply pir_choice|].
    apply (gate_choice st PirRange _ v eq_refl). intros Hc. apply H. exact (proj1 (pir_choice st v) Hc).
  - destruct Ho as (m & Hm & _).
    assert (Hn : numeric SmoothOn st (Some (0, m))) by (unfold numeric, offered, look, dindex; unfold field in Hm; now rewrite Hm).
    destruct (gate_number _ _ _ v Hn) as (H1 & H2). split; intros H.
    + destruct H as (m' & Hm' & H). apply H1. unfold field in *. congruence.
    + apply H2. intros Hw. apply H. now exists m.
  - destruct Ho as (m & Hm & _).
    assert (Hn : numeric SmoothOff st (Some (0, m))) by (unfold numeric, offered, look, dindex; unfold field in Hm; now rewrite Hm).
    destruct (gate_number _ _ _ v Hn) as (H1 & H2). split; intros H.
    + destruct H as (m' & Hm' & H). apply H1. unfold field in *. congruence.
    + apply H2. intros Hw. apply H. now exists m.
  - destruct Ho as (m & Hm & _).
    assert (Hn : numeric Protection st (Some (0, m))) by (unfold numeric, offered, look, dindex; unfold field in Hm; now rewrite Hm).
    destruct (gate_number _ _ _ v Hn) as (H1 & H2). split; intros H.
    + destruct H as (m' & Hm' & H). apply H1. unfold field in *. congruence.
    + apply H2. intros Hw. apply H. now exists m.
  - destruct Ho as (lo & hi & w & Hlo & Hhi & _).
    assert (Hn : numeric Target st (Some (lo, hi))) by (unfold numeric, offered, look, dindex; unfold field in Hlo, Hhi; now rewrite Hlo, Hhi).
    destruct (gate_number _ _ _ v Hn) as (H1 & H2). split; intros H.
    + destruct H as (lo' & hi' & Hlo' & Hhi' & H). apply H1. unfold field in *. congruence.
    + apply H2. intros Hw. apply H. now exists lo, hi.
Qed.

(** *** What a setter changes *)
(** The fields a setter may change *)
Definition touches (s : setting) : list (sec * string) :=
  match s with
  | ThresholdMin => [(DimmerConf, "minThreshold")]
  | FadeOff => [(DimmerConf, "fadeOffTime")] | FadeOn => [(DimmerConf, "fadeOnTime")]
  | GentleOff => [(DimmerConf, "gentleOffTime")] | GentleOn => [(DimmerConf, "gentleOnTime")]
  | RampRate => [(DimmerConf, "rampRate")]
  | PirRange => [(Pir, "trigger_index")]
  | PirThreshold => [(Pir, "trigger_index"); (PirArray, "3")]
  | AlarmSound => [(AlarmConf, "type")] | AlarmVolume | AlarmLevel => [(AlarmConf, "volume")]
  | AlarmDuration => [(AlarmConf, "duration")]
  | AutoOffMinutes => [(AutoOff, "delay_min"); (AutoOff, "enable")]
  | CleanCount => [(CleanAttr, "clean_number")] | FanPreset => [(CleanAttr, "suction")] | MopLevel => [(CleanAttr, "cistern")]
  | DustMode => [(DustInfo, "auto_dust_collection"); (DustInfo, "dust_collection_mode")]
  | Volume => [(Speaker, "volume")]
  | FanLevel => [(Info, "device_on"); (Info, "fan_speed_level")]
  | SmoothOn => [(OnHalf, "enable"); (OnHalf, "duration")] | SmoothOff => [(OffHalf, "enable"); (OffHalf, "duration")]
  | Protection => [(Protect, "enabled"); (Protect, "protection_power")]
  | Target => [(Info, "target_temp"); (Info, "frost_protection_on")]
  | Offset => [(Info, "temp_offset")] | Unit => [(Info, "temp_unit")]
  | CamSound => [(Siren, "siren_type")] | CamVolume => [(Siren, "volume")] | CamDuration => [(Siren, "duration")]
  | PanStep => [(Own, "_pan_step")] | TiltStep => [(Own, "_tilt_step")]
  end.
(** The fields a getter reads *)
Definition reads (s : setting) : list (sec * string) :=
  match s with
  | PirRange | PirThreshold => [(Pir, "trigger_index"); (PirArray, "0"); (PirArray, "1"); (PirArray, "2"); (PirArray, "3")]
  | Target => [(Info, "target_temp")]
  | AutoOffMinutes => [(AutoOff, "delay_min")]
  | s => touches s
  end.
Lemma show_reads st st' s : (forall g k, In (g, k) (reads s) -> dget k (at_ st' g) = dget k (at_ st g)) -> show st' s = show st s.
Proof.
  intros H.
  assert (L : forall g k, In (g, k) (reads s) -> look g k st' = look g k st) by (intros g k Hi; unfold look, dindex; now rewrite (H g k Hi)).
  destruct s; cbn [reads touches] in *; cbn [show];
    try (rewrite !L by (cbn; tauto); reflexivity).
  - unfold pir_index. rewrite !L by (cbn; tauto). destruct (look Pir "trigger_index" st) as [i|]; [|reflexivity]. cbn [bind].
    unfold name_of. destruct (num i) as [q|]; [|reflexivity].
    destruct (find _ ranges) as [[n z]|] eqn:E; [|reflexivity]. cbn [bind].
    apply find_some in E. destruct E as (E & _).
    cbn in E. destruct E as [E|[E|[E|[E|[]]]]]; injection E as <- <-; cbn; unfold pir_threshold; cbn;
      (rewrite (H PirArray) by (cbn; tauto)); reflexivity.
  - unfold pir_index. rewrite !L by (cbn; tauto). destruct (look Pir "trigger_index" st) as [i|]; [|reflexivity]. cbn [bind].
    unfold name_of. destruct (num i) as [q|]; [|reflexivity].
    destruct (find _ ranges) as [[n z]|] eqn:E; [|reflexivity]. cbn [bind].
    apply find_some in E. destruct E as (E & _).
    cbn in E. destruct E as [E|[E|[E|[E|[]]]]]; injection E as <- <-; cbn; unfold pir_threshold; cbn;
      (rewrite (H PirArray) by (cbn; tauto)); reflexivity.
  - rewrite L by (cbn; tauto). rewrite (H Protect "protection_power") by (cbn; tauto). reflexivity.
Qed.

Lemma dget_put g ps st g' k : dwf ps ->
  dget k (at_ (put g ps st) g') = if sec_eqb g g' then match dget k ps with Some v => Some v | None => dget k (at_ st g') end else dget k (at_ st g').
Proof. intros H. cbn [put at_]. destruct (sec_eqb g g'); [|reflexivity]. now apply dget_dupdate_wf. Qed.
Lemma sec_eqb_true g g' : sec_eqb g g' = true <-> g = g'.
Proof. split; [destruct g, g'; cbn; congruence|intros ->; now destruct g']. Qed.
(** One [put] of some parameters over what is there, as copies are *)
Lemma put_frame g ps st g' k l : dwf ps ->
  (forall k', ~ In (g, k') l -> dget k' ps = None \/ dget k' ps = dget k' (at_ st g)) ->
  ~ In (g', k) l -> dget k (at_ (put g ps st) g') = dget k (at_ st g').
Proof.
  intros Hw Hp Hi. rewrite dget_put by exact Hw. destruct (sec_eqb g g') eqn:E; [|reflexivity].
  apply sec_eqb_true in E. subst g'. destruct (Hp k Hi) as [H|H]; rewrite H; [reflexivity|].
  destruct (dget k (at_ st g)); reflexivity.
Qed.
Lemma dwf1 {A} k (v : A) : dwf [(k, v)].
Proof. constructor; [easy|constructor]. Qed.
Lemma dwf2 {A} k k' (v v' : A) : k <> k' -> dwf [(k, v); (k', v')].
Proof. intros H. constructor; [cbn; intuition|apply dwf1]. Qed.
Lemma dwf_ddel {A} k (d : dict A) : dwf d -> dwf (ddel k d).
Proof.
  unfold dwf. induction d as [|[k' v] d IH]; [easy|]. cbn [ddel dkeys map fst]. intros H. inversion H; subst.
  destruct (String.eqb k k'); [now apply IH|]. cbn [dkeys map fst]. constructor; [|now apply IH].
  intros Hin. apply H2. clear - Hin. unfold dkeys in *. induction d as [|[a b] d IH]; [easy|].
  cbn [ddel] in Hin. destruct (String.eqb k a); cbn in *; intuition.
Qed.
(** What the actions of a setter amount to *)
Definition puts (l : list (sec * dict pv)) (st : state) : state := fold_left (fun st gp => put (fst gp) (snd gp) st) l st.
Definition halves (s : setting) : option (sec * string) :=
  match s with SmoothOn => Some (OnHalf, "on_state") | SmoothOff => Some (OffHalf, "off_state") | _ => None end.

Ltac one_put := match goal with |- context [after [?a] ?st] => change (after [a] st) with (obey a st) end.
Lemma put_fields g ps st l : dwf ps -> (forall k v, In (k, v) ps -> In (g, k) l) ->
  forall g' k, ~ In (g', k) l -> dget k (at_ (put g ps st) g') = dget k (at_ st g').
Proof.
  intros Hw Hp g' k Hi. apply (put_frame g ps st g' k l Hw); [|exact Hi].
  intros k' Hn. left. destruct (dget k' ps) as [v|] eqn:E; [|reflexivity]. exfalso. apply Hn. apply (Hp k' v). now apply dget_In.
Qed.
Lemma put_copy g k0 v st l : objects st -> In (g, k0) l ->
  forall g' k, ~ In (g', k) l -> dget k (at_ (put g (dset k0 v (at_ st g)) st) g') = dget k (at_ st g').
Proof.
  intros Ho H0 g' k Hi. apply (put_frame g _ st g' k l); [apply dwf_dset, Ho| |exact Hi].
  intros k' Hn. right. apply dget_dset_other. intros ->. now apply Hn.
Qed.
Lemma put_copy2 g k0 v k1 w st l : objects st -> In (g, k0) l -> In (g, k1) l ->
  forall g' k, ~ In (g', k) l -> dget k (at_ (put g (dset k0 v (dset k1 w (at_ st g))) st) g') = dget k (at_ st g').
Proof.
  intros Ho H0 H1 g' k Hi. apply (put_frame g _ st g' k l); [apply dwf_dset, dwf_dset, Ho| |exact Hi].
  intros k' Hn. right. rewrite !dget_dset_other; [reflexivity| |]; intros ->; now apply Hn.
Qed.
Ltac fields := apply put_fields; [repeat (constructor; [cbn; intuition discriminate|]); try constructor |
  let H := fresh in intros ? ? H; cbn in H; intuition (try match goal with E : (_, _) = (_, _) |- _ => injection E as <- <- end); cbn; tauto].
Ltac sent E := injection E as <-; one_put; intros g0 k0; revert g0 k0;
  match goal with |- context [obey ?a ?st] => let r := eval cbn -[put dset ddel at_] in (obey a st) in change (obey a st) with r end.
Ltac frame := match goal with
  | |- forall g k, _ -> dget k (at_ (put ?g0 (dset _ _ (dset _ _ (at_ ?st ?g0))) ?st) g) = _ => apply put_copy2; [assumption|cbn; tauto|cbn; tauto]
  | |- forall g k, _ -> dget k (at_ (put ?g0 (dset _ _ (at_ ?st ?g0)) ?st) g) = _ => apply put_copy; [assumption|cbn; tauto]
  | _ => fields end.
Lemma setter_frame st s v acts : objects st -> setter st s v = Ok acts ->
  forall g k, ~ In (g, k) (touches s) -> dget k (at_ (after acts st) g) = dget k (at_ st g).
Proof.
  intros Ho E. destruct s; cbn [setter] in E;
    try (destruct (check _ _ _ _) in E; [|discriminate]; sent E; frame; fail);
    try (unfold set_time in E; destruct (match v with Dur _ => _ | _ => _ end) in E; [|discriminate]; cbn [bind] in E;
         destruct (_ || _) in E; [discriminate|]; sent E; frame; fail);
    try (unfold set_alarm_volume in E; match type of E with (if ?b then _ else _) = _ => destruct b end; [|discriminate]; sent E; frame; fail);
    try (unfold by_name in E; destruct v as [| | |n| | |]; try discriminate; destruct (dget n _) as [z|] in E; [|discriminate]; sent E; frame; fail);
    try (sent E; frame; fail).
  - (* PirThreshold *) injection E as <-. one_put.
    change (obey (Send "set_trigger_sens" "" [("index", Int 3); ("value", v)]) st)
      with (put PirArray [("3", v)] (put Pir [("trigger_index", Int 3)] st)).
    intros g k Hi. transitivity (dget k (at_ (put Pir [("trigger_index", Int 3)] st) g)); revert g k Hi; fields.
  - (* AlarmSound *) destruct v; try discriminate. destruct (smem _ _) in E; [|discriminate]. sent E. frame.
  - (* AutoOffMinutes *) destruct (look _ _ _) in E; [|discriminate]. sent E. frame.
  - (* DustMode *) unfold by_name in E. destruct v as [| | |n| | |]; try discriminate. destruct (dget n _) as [z|] in E; [|discriminate].
    destruct (String.eqb n "Off"); sent E; frame.
  - (* MopLevel *) unfold by_name in E. destruct v as [| | |n| | |]; try discriminate. destruct (dget n _) as [z|] in E; [|discriminate].
    sent E. intros g k Hi. apply (put_frame CleanAttr _ st g k (touches MopLevel)); [apply dwf_ddel, dwf_dset, Ho| |exact Hi].
    intros k' Hn. rewrite dget_ddel. destruct (String.eqb_spec k' "type") as [E|]; [now left|]. right.
    apply dget_dset_other. intros ->. apply Hn. cbn. tauto.
  - (* FanLevel *) destruct (check _ _ _ _) in E; [|discriminate]. cbn [bind] in E. destruct (is_zero v); sent E; frame.
  - (* SmoothOn *) unfold set_half in E. destruct (look _ _ _) in E; [|discriminate]. cbn [bind] in E.
    destruct (below a v) as [[]|] in E; try discriminate. cbn [bind] in E. destruct (below (Int 0) v) as [[]|] in E; try discriminate; cbn [bind] in E.
    + sent E. frame.
    + destruct (look _ _ _) in E; [|discriminate]. sent E. frame.
  - (* SmoothOff *) unfold set_half in E. destruct (look _ _ _) in E; [|discriminate]. cbn [bind] in E.
    destruct (below a v) as [[]|] in E; try discriminate. cbn [bind] in E. destruct (below (Int 0) v) as [[]|] in E; try discriminate; cbn [bind] in E.
    + sent E. frame.
    + destruct (look _ _ _) in E; [|discriminate]. sent E. frame.
  - (* Protection *) destruct (is_zero v); unfold set_protect in E; cbn [bind] in E.
    + sent E. frame.
    + match type of E with bind ?x _ = _ => destruct x end; [|discriminate]. sent E. frame.
  - (* Target *) destruct (look Info "min_control_temp" st) in E; [|discriminate]. cbn [bind] in E.
    destruct (look Info "max_control_temp" st) in E; [|discriminate]. cbn [bind] in E.
    destruct (check _ _ _ _) in E; [|discriminate]. cbn [bind] in E. destruct (dmem _ _) in E; sent E; frame.
  - (* CamSound *) destruct v; try discriminate. destruct (String.eqb s ""); [sent E; frame|].
    destruct (smem _ _) in E; [|discriminate]. sent E. frame.
Qed.
Lemma after_lists acts st : sounds (after acts st) = sounds st /\ cam_sounds (after acts st) = cam_sounds st.
Proof.
  revert st. induction acts as [|a acts IH]; intros st; [now split|]. cbn [after fold_left].
  destruct (IH (obey a st)) as (H1 & H2). unfold after in *. rewrite H1, H2. clear.
  unfold obey. destruct a as [m part ps|k v]; [|now split].
  repeat match goal with |- context [if ?b then _ else _] => destruct b end; try (now split).
  all: destruct (dget "index" ps) as [[]|]; try (now split); destruct (dget "value" ps); try (now split); destruct (z =? 3); now split.
Qed.

(** *** What is shown afterwards *)
Lemma look_put g ps st k v : dwf ps -> dget k ps = Some v -> look g k (put g ps st) = Ok v.
Proof. intros Hw H. unfold look, dindex. rewrite dget_put by exact Hw. replace (sec_eqb g g) with true by (now destruct g). now rewrite H. Qed.
Lemma same_refl v : same v v.
Proof. now left. Qed.
Lemma zero_same v : is_zero v = true -> same v (Int 0).
Proof.
  unfold is_zero. destruct (num v) as [q|] eqn:E; [|discriminate]. intros H. right. exists q, 0%Q.
  split; [now apply number_num|]. split; [apply (NInt 0)|]. now apply Qeq_bool_iff.
Qed.
Lemma within_num lo hi v : within lo hi v -> exists q, num v = Some q /\ (inject_Z lo <= q)%Q /\ (q <= inject_Z hi)%Q.
Proof. intros (q & H & H1 & H2). exists q. split; [now apply number_num|easy]. Qed.
Lemma plain_within lo hi v : within lo hi v -> plain v -> exists z, v = Int z /\ lo <= z <= hi.
Proof.
  intros (q & H & H1 & H2) Hp. destruct H; try easy. exists z. split; [reflexivity|]. rewrite <- Zle_Qle in H1, H2. now split.
Qed.
Definition taken (st : state) (s : setting) (v : pv) : Prop :=
  exists acts w, setter st s v = Ok acts /\ show (after acts st) s = Ok w /\ same (shown s v) w.
Ltac effect st := match goal with |- context [after [?a] st] =>
    let r := eval cbn -[put dset ddel at_] in (obey a st) in change (after [a] st) with r end.
Ltac known := first [apply dwf1 | apply dwf2; discriminate | reflexivity].
Lemma taken_simple st s v g k ps acts : setter st s v = Ok acts -> after acts st = put g ps st -> dwf ps -> dget k ps = Some v ->
  (forall st', show st' s = look g k st') -> shown s v = v -> taken st s v.
Proof.
  intros E Ea Hw Hk Hs Hv. exists acts, v. split; [exact E|]. rewrite Ea, Hs, Hv. split; [now apply look_put|apply same_refl].
Qed.
Ltac simple_ s g k ps := eapply (taken_simple _ s _ g k ps);
   [ cbn [setter]; try (rewrite check_in by eassumption; cbn [bind]); reflexivity | reflexivity | known | reflexivity | reflexivity | reflexivity].
Lemma time_taken st s v hi method key k : plain v -> within 0 hi v ->
  setter st s v = set_time hi method key v -> 
  (forall n, after [Send method "" [(key, Int n)]] st = put DimmerConf [(k, Int n)] st) ->
  (forall st', show st' s = let! v := look DimmerConf k st' in match v with Int z => Ok (Dur z) | _ => Err PyTypeError end) ->
  (forall n, shown s (Int n) = Dur n) -> taken st s v.
Proof.
  intros Hp Hw Es Ea Hs Hv. destruct (plain_within _ _ _ Hw Hp) as (z & -> & H1 & H2).
  exists [Send method "" [(key, Int z)]], (Dur z). split; [|split].
  - rewrite Es. unfold set_time. cbn [int_of bind]. replace (z <? 0) with false by (symmetry; apply Z.ltb_ge; lia).
    replace (hi <? z) with false by (symmetry; apply Z.ltb_ge; lia). reflexivity.
  - rewrite Ea, Hs, (look_put _ _ _ k (Int z)); [reflexivity|apply dwf1|]. cbn. now rewrite seqb_refl.
  - rewrite Hv. apply same_refl.
Qed.
Lemma half_taken st s v g part : halves s = Some (g, part) -> half_sound st g -> advertised st s v -> 
  (forall st', show st' s = let! d := look g "duration" st' in let! e := look g "enable" st' in Ok (if truthy e then d else Int 0)) ->
  setter st s v = set_half g part st v ->
  (forall ps, after [Send "set_on_off_gradually_info" part ps] st = put g ps st) -> shown s v = v -> taken st s v.
Proof.
  intros Hh (m & Hm & Hm0 & (d & Hd & _) & _) Ha Hs Es Eo Hv.
  assert (Hw : within 0 m v).
  { destruct s; try discriminate; injection Hh as <- <-; destruct Ha as (m' & Hm' & Ha); unfold field in *; congruence. }
  destruct (within_num _ _ _ Hw) as (q & Hq & H1 & H2). apply Qle_bool_iff in H1, H2.
  destruct (Qle_bool q 0) eqn:E0.
  - exists [Send "set_on_off_gradually_info" part [("enable", Bool false); ("duration", Int d)]], (Int 0).
    split; [|split].
    + rewrite Es. unfold set_half, look, dindex. unfold field in Hm, Hd. rewrite Hm. cbn [bind].
      rewrite (below_num (Int m) v (inject_Z m) q eq_refl Hq), H2. cbn [negb bind].
      rewrite (below_num (Int 0) v 0 q eq_refl Hq). change (inject_Z 0) with 0%Q in *. rewrite E0. cbn [negb bind]. rewrite Hd. reflexivity.
    + rewrite Eo, Hs. rewrite (look_put _ _ _ "duration" (Int d)), (look_put _ _ _ "enable" (Bool false)); try known; try reflexivity.
    + rewrite Hv. apply zero_same. unfold is_zero. rewrite Hq. apply Qeq_bool_iff. apply Qle_antisym; now apply Qle_bool_iff.
  - exists [Send "set_on_off_gradually_info" part [("enable", Bool true); ("duration", v)]], v.
    split; [|split].
    + rewrite Es. unfold set_half, look, dindex. unfold field in Hm. rewrite Hm. cbn [bind].
      rewrite (below_num (Int m) v (inject_Z m) q eq_refl Hq), H2. cbn [negb bind].
      rewrite (below_num (Int 0) v 0 q eq_refl Hq), E0. reflexivity.
    + rewrite Eo, Hs. rewrite (look_put _ _ _ "duration" v), (look_put _ _ _ "enable" (Bool true)); try known; reflexivity.
    + rewrite Hv. apply same_refl.
Qed.
Lemma copy_taken st s v g k x acts : objects st -> setter st s v = Ok acts -> after acts st = put g (dset k x (at_ st g)) st ->
  (forall st', look g k st' = Ok x -> show st' s = Ok v) -> shown s v = v -> taken st s v.
Proof.
  intros Ho E Ea Hs Hv. exists acts, v. split; [exact E|]. rewrite Ea, Hv. split; [|apply same_refl].
  apply Hs. apply look_put; [apply dwf_dset, Ho|apply dget_dset_same].
Qed.
Lemma pir_taken_range st n k : pir_sound st -> range_at n k -> taken st PirRange (Str n).
Proof.
  intros (Ha & _) Hr. unfold taken. cbn [setter].
  assert (Hk : exists z t, dget n ranges = Some z /\ keys_of_index z = k /\ dget k (at_ st PirArray) = Some (Int t) /\ name_of ranges (Int z) = Ok n).
  { unfold range_at in Hr. cbn in Hr.
    destruct Hr as [Hr|[Hr|[Hr|[Hr|[]]]]]; injection Hr as <- <-.
    - destruct (Ha "0") as (t & Ht & _); [cbn; tauto|]. exists 0, t. now repeat split.
    - destruct (Ha "1") as (t & Ht & _); [cbn; tauto|]. exists 1, t. now repeat split.
    - destruct (Ha "2") as (t & Ht & _); [cbn; tauto|]. exists 2, t. now repeat split.
    - destruct (Ha "3") as (t & Ht & _); [cbn; tauto|]. exists 3, t. now repeat split. }
  destruct Hk as (z & t & Hz & Hkz & Ht & Hn). rewrite Hz. do 2 eexists. split; [reflexivity|]. split; [|apply same_refl].
  change (after [Send "set_trigger_sens" "" [("index", Int z)]] st) with (put Pir [("trigger_index", Int z)] st).
  cbn [show]. unfold pir_index. rewrite (look_put Pir _ _ "trigger_index" (Int z)); [|apply dwf1|reflexivity]. cbn [bind].
  rewrite Hn. cbn [bind]. rewrite Hz. cbn [bind fst snd]. unfold pir_threshold. rewrite Hkz.
  rewrite dget_put by apply dwf1. cbn [sec_eqb]. rewrite Ht. reflexivity.
Qed.
Ltac dgets := cbn; rewrite ?seqb_refl; reflexivity.
Lemma setter_takes st s v : objects st -> in_order st s -> advertised st s v -> plain v \/ fractions s = true -> s <> AlarmLevel -> taken st s v.
Proof.
  intros Ho Hi Ha Hf Hl. destruct s; cbn [advertised in_order fractions reshaped negb] in *; try congruence.
  - simple_ ThresholdMin DimmerConf "minThreshold" [("minThreshold", v)].
  - destruct Hf as [Hf|]; [|discriminate]. apply (time_taken st FadeOff v 10000 "set_fade_off_time" "fadeTime" "fadeOffTime"); easy.
  - destruct Hf as [Hf|]; [|discriminate]. apply (time_taken st FadeOn v 10000 "set_fade_on_time" "fadeTime" "fadeOnTime"); easy.
  - destruct Hf as [Hf|]; [|discriminate]. apply (time_taken st GentleOff v 120000 "set_gentle_off_time" "duration" "gentleOffTime"); easy.
  - destruct Hf as [Hf|]; [|discriminate]. apply (time_taken st GentleOn v 120000 "set_gentle_on_time" "duration" "gentleOnTime"); easy.
  - simple_ RampRate DimmerConf "rampRate" [("rampRate", v)].
  - destruct Ha as (n & k & t & -> & Hr & _). now apply (pir_taken_range st n k).
  - destruct Hf as [Hf|]; [|discriminate]. destruct (plain_within _ _ _ Ha Hf) as (z & -> & _).
    exists [Send "set_trigger_sens" "" [("index", Int 3); ("value", Int z)]], (Int z).
    split; [reflexivity|]. split; [|apply same_refl].
    change (after [Send "set_trigger_sens" "" [("index", Int 3); ("value", Int z)]] st)
      with (put PirArray [("3", Int z)] (put Pir [("trigger_index", Int 3)] st)).
    cbn [show]. unfold pir_index, look, dindex. rewrite dget_put by apply dwf1. cbn [sec_eqb].
    rewrite dget_put by apply dwf1. cbn [sec_eqb dget]. rewrite seqb_refl. cbn [bind name_of num].
    change (find _ ranges) with (Some ("Custom", 3)). cbn [bind]. change (dget "Custom" ranges) with (Some 3). cbn [bind fst snd].
    unfold pir_threshold. change (keys_of_index 3) with "3". rewrite dget_put by apply dwf1. cbn [sec_eqb dget]. rewrite seqb_refl. reflexivity.
  - destruct Ha as (x & -> & Hx). apply smem_In in Hx.
    apply (copy_taken st AlarmSound _ AlarmConf "type" (Str x) [Send "set_alarm_configure" "" (dset "type" (Str x) (at_ st AlarmConf))]); try easy.
    cbn [setter]. now rewrite Hx.
  - destruct Ha as (x & -> & Hx).
    apply (copy_taken st AlarmVolume _ AlarmConf "volume" (Str x) [Send "set_alarm_configure" "" (dset "volume" (Str x) (at_ st AlarmConf))]); try easy.
    cbn [setter]. unfold set_alarm_volume. cbn [int_of]. cbn in Hx. destruct Hx as [<-|[<-|[<-|[<-|[]]]]]; reflexivity.
  - apply (copy_taken st AlarmDuration _ AlarmConf "duration" v [Send "set_alarm_configure" "" (dset "duration" v (at_ st AlarmConf))]); try easy.
    cbn [setter]. now rewrite check_in.
  - destruct Hi as (_ & b & Hb). unfold field in Hb.
    apply (taken_simple st AutoOffMinutes v AutoOff "delay_min" [("delay_min", v); ("enable", Bool b)]
             [Send "set_auto_off_config" "" [("delay_min", v); ("enable", Bool b)]]); try easy; try known.
    cbn [setter]. unfold look, dindex. now rewrite Hb.
  - apply (taken_simple st CleanCount v CleanAttr "clean_number" [("clean_number", v)]
             [Send "setCleanAttr" "" [("clean_number", v); ("type", Str "global")]]); try easy; known.
  - destruct Ha as (x & -> & Hx).
    assert (Hz : exists z, dget x speeds = Some z /\ name_of speeds (Int z) = Ok x).
    { cbn in Hx. destruct Hx as [<-|[<-|[<-|[<-|[<-|[]]]]]]; [exists 1|exists 2|exists 3|exists 4|exists 5]; now split. }
    destruct Hz as (z & Hz & Hn).
    exists [Send "setCleanAttr" "" [("suction", Int z); ("type", Str "global")]], (Str x).
    split; [cbn [setter by_name]; now rewrite Hz|]. split; [|apply same_refl].
    change (after _ st) with (put CleanAttr [("suction", Int z)] st). cbn [show].
    rewrite (look_put _ _ _ "suction" (Int z)); [|apply dwf1|reflexivity]. cbn [bind]. now rewrite Hn.
  - destruct Ha as (x & -> & Hx). destruct Hi as ((b & Hb) & _).
    destruct (String.eqb_spec x "Off") as [E|N].
    + subst x. exists [Send "setDustCollectionInfo" "" (dset "auto_dust_collection" (Bool false) (at_ st DustInfo))], (Str "Off").
      split; [reflexivity|]. split; [|apply same_refl].
      change (after _ st) with (put DustInfo (dset "auto_dust_collection" (Bool false) (at_ st DustInfo)) st). cbn [show].
      rewrite (look_put _ _ _ "auto_dust_collection" (Bool false)); [reflexivity|apply dwf_dset, Ho|apply dget_dset_same].
    + assert (Hz : exists z, dget x modes = Some z /\ name_of modes (Int z) = Ok x).
      { cbn in Hx. destruct Hx as [<-|[<-|[<-|[<-|[<-|[]]]]]]; [exists 0|exists 1|exists 2|exists 3|now contradiction N]; now split. }
      destruct Hz as (z & Hz & Hn).
      exists [Send "setDustCollectionInfo" "" (dset "dust_collection_mode" (Int z) (dset "auto_dust_collection" (Bool true) (at_ st DustInfo)))], (Str x).
      split; [cbn [setter by_name]; rewrite Hz; apply String.eqb_neq in N; now rewrite N|]. split; [|apply same_refl].
      change (after _ st) with (put DustInfo (dset "dust_collection_mode" (Int z) (dset "auto_dust_collection" (Bool true) (at_ st DustInfo))) st).
      cbn [show]. rewrite (look_put _ _ _ "auto_dust_collection" (Bool true)), (look_put _ _ _ "dust_collection_mode" (Int z)).
      * cbn [bind]. now rewrite Hn.
      * apply dwf_dset, dwf_dset, Ho.
      * apply dget_dset_same.
      * apply dwf_dset, dwf_dset, Ho.
      * rewrite dget_dset_other by discriminate. apply dget_dset_same.
  - destruct Ha as (x & -> & Hx).
    assert (Hz : exists z, dget x levels = Some z /\ name_of levels (Int z) = Ok x).
    { cbn in Hx. destruct Hx as [<-|[<-|[<-|[<-|[]]]]]; [exists 0|exists 1|exists 2|exists 3]; now split. }
    destruct Hz as (z & Hz & Hn).
    exists [Send "setCleanAttr" "" (dset "cistern" (Int z) (at_ st CleanAttr))], (Str x).
    split; [cbn [setter by_name]; now rewrite Hz|]. split; [|apply same_refl].
    change (after _ st) with (put CleanAttr (ddel "type" (dset "cistern" (Int z) (at_ st CleanAttr))) st). cbn [show].
    rewrite (look_put _ _ _ "cistern" (Int z)); [cbn [bind to_int]; now rewrite Hn|apply dwf_ddel, dwf_dset, Ho|].
    rewrite dget_ddel. change (String.eqb "cistern" "type") with false. apply dget_dset_same.
  - simple_ Volume Speaker "volume" [("volume", v)].
  - destruct (is_zero v) eqn:E.
    + exists [Send "set_device_info" "" [("device_on", Bool false)]], (Int 0).
      split; [cbn [setter]; rewrite check_in by exact Ha; cbn [bind]; now rewrite E|]. split; [|now apply zero_same].
      change (after _ st) with (put Info [("device_on", Bool false)] st). cbn [show].
      rewrite (look_put _ _ _ "device_on" (Bool false)); [reflexivity|apply dwf1|reflexivity].
    + exists [Send "set_device_info" "" [("device_on", Bool true); ("fan_speed_level", v)]], v.
      split; [cbn [setter]; rewrite check_in by exact Ha; cbn [bind]; now rewrite E|]. split; [|apply same_refl].
      change (after _ st) with (put Info [("device_on", Bool true); ("fan_speed_level", v)] st). cbn [show].
      rewrite (look_put _ _ _ "device_on" (Bool true)), (look_put _ _ _ "fan_speed_level" v); known.
  - now apply (half_taken st SmoothOn v OnHalf "on_state").
  - now apply (half_taken st SmoothOff v OffHalf "off_state").
  - destruct Hi as (m & Hm & Hm0 & (b & Hb) & _). destruct Ha as (m' & Hm' & Ha). unfold field in *.
    destruct (is_zero v) eqn:E.
    + exists [Send "set_protection_power" "" (dset "enabled" (Bool false) (at_ st Protect))], (Int 0).
      split; [cbn [setter]; rewrite E; reflexivity|]. split; [|now apply zero_same].
      change (after _ st) with (put Protect (dset "enabled" (Bool false) (at_ st Protect)) st). cbn [show].
      rewrite (look_put _ _ _ "enabled" (Bool false)); [reflexivity|apply dwf_dset, Ho|apply dget_dset_same].
    + exists [Send "set_protection_power" "" (dset "protection_power" v (dset "enabled" (Bool true) (at_ st Protect)))], v.
      split; [|split; [|apply same_refl]].
      * cbn [setter]. rewrite E. unfold set_protect. replace (truthy v) with true.
        2:{ destruct Ha as (q & Hq & _). destruct Hq; cbn in *; try congruence; symmetry; apply Bool.negb_true_iff; [|exact E].
            unfold is_zero in E. cbn in E. destruct (Z.eqb_spec z 0) as [->|]; [discriminate|reflexivity]. }
        unfold look, dindex. rewrite Hm'. cbn [bind]. rewrite check_in by exact Ha. reflexivity.
      * change (after _ st) with (put Protect (dset "protection_power" v (dset "enabled" (Bool true) (at_ st Protect))) st). cbn [show].
        rewrite (look_put _ _ _ "enabled" (Bool true)); [|apply dwf_dset, dwf_dset, Ho|rewrite dget_dset_other by discriminate; apply dget_dset_same].
        cbn [bind truthy]. rewrite dget_put by apply dwf_dset, dwf_dset, Ho. cbn [sec_eqb]. rewrite dget_dset_same. reflexivity.
  - destruct Ha as (lo & hi & Hlo & Hhi & Ha). unfold field in *.
    set (ps := ("target_temp", v) :: if dmem "frost_protection_on" (at_ st Info) then [("frost_protection_on", Bool false)] else []).
    apply (taken_simple st Target v Info "target_temp" ps [Send "set_device_info" "" ps]); try easy.
    + cbn [setter]. unfold look, dindex. rewrite Hlo, Hhi. cbn [bind]. rewrite check_in by exact Ha. reflexivity.
    + unfold ps. destruct (dmem _ _); known.
  - simple_ Offset Info "temp_offset" [("temp_offset", v)].
  - simple_ Unit Info "temp_unit" [("temp_unit", v)].
  - destruct Ha as (x & -> & Hx). destruct Hi as (_ & Hn).
    apply (taken_simple st CamSound _ Siren "siren_type" [("siren_type", Str x)] [Send "setSirenConfig" "siren" [("siren_type", Str x)]]); try easy; try known.
    cbn [setter]. assert (N : x <> "") by (intros ->; now apply Hn). apply String.eqb_neq in N. rewrite N. apply smem_In in Hx. now rewrite Hx.
  - destruct Hf as [Hf|]; [|discriminate]. destruct (plain_within _ _ _ Ha Hf) as (z & -> & _).
    exists [Send "setSirenConfig" "siren" [("volume", Digits (Int z))]], (Int z). split; [cbn [setter]; now rewrite check_in|]. split; [|apply same_refl].
    change (after _ st) with (put Siren [("volume", Digits (Int z))] st). cbn [show].
    rewrite (look_put _ _ _ "volume" (Digits (Int z))); [reflexivity|apply dwf1|reflexivity].
  - simple_ CamDuration Siren "duration" [("duration", v)].
  - simple_ PanStep Own "_pan_step" [("_pan_step", v)].
  - simple_ TiltStep Own "_tilt_step" [("_tilt_step", v)].
Qed.
Definition apart (s s' : setting) : bool :=
  forallb (fun gk => negb (existsb (fun gk' => sec_eqb (fst gk) (fst gk') && String.eqb (snd gk) (snd gk')) (touches s))) (reads s').
Lemma apart_unrelated s s' : ~ related s s' -> apart s s' = true.
Proof.
  intros H. destruct (apart s s') eqn:E; [reflexivity|]. exfalso. apply H. clear H.
  destruct s, s'; vm_compute in E; try discriminate E; unfold related; tauto.
Qed.
Lemma others_keep st s v acts s' : objects st -> setter st s v = Ok acts -> ~ related s s' -> show (after acts st) s' = show st s'.
Proof.
  intros Ho E Hr. apply show_reads. intros g k Hi. apply (setter_frame st s v acts Ho E).
  intros Ht. pose proof (apart_unrelated s s' Hr) as Ha. unfold apart in Ha. rewrite forallb_forall in Ha.
  specialize (Ha _ Hi). apply Bool.negb_true_iff in Ha. apply Bool.not_true_iff_false in Ha. apply Ha.
  apply existsb_exists. exists (g, k). split; [exact Ht|]. cbn [fst snd]. rewrite seqb_refl.
  replace (sec_eqb g g) with true by (now destruct g). reflexivity.
Qed.

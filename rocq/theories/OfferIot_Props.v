(** C164: the features of a legacy device are those its kind and its answers call for, and show what
    the device last replied. *)
From Coq Require Import QArith.
From Verif Require Import Base Py Base_Lemmas Factory_Model Emeter_Model Emeter_Spec Emeter_Props Feats_Model Feats_Spec Feats_Props Read_Model Read_Spec Read_Proofs
  Iot_Spec IotUpd_Model WholeIot_Model WholeIot_Spec IotRead_Model IotRead_Spec IotRead_Props Offer_Proofs DevType_Model DevType_Props
  OfferIot_Model OfferIot_Spec OfferIot_Proofs.
Open Scope string_scope.
Open Scope list_scope.
Open Scope Z_scope.

Section First.
Variables (k : lkind) (o : lobj) (sys : dict json) (ms : list lmod).
Notation lu := (l_lu o).
Notation w := (shows o).
Hypothesis (T : told k sys w (fun s => dget s lu <> None)) (M : legacy_mods k sys = Ok ms).

Lemma ms_ok : NoDup (map lm_name ms) /\ (forall n, In n (map lm_name ms) <-> kind_has k sys n) /\ forallb (keyed k) ms = true.
Proof.
  destruct (legacy_mods_of k sys (t_name _ _ _ _ T)) as (pir & E & P). rewrite M in E. injection E as ->.
  split; [apply mods_nodup|]. split; [|apply mods_keyed]. intros n. rewrite mods_names. unfold kind_has.
  rewrite (has_meter_names sys (t_word _ _ _ _ T)). split; intros [H|[H|(H1 & H2 & H3)]]; auto; right; right; (split; [exact H1|]; split; [exact H2|]); apply P; assumption.
Qed.
Lemma there m : In m ms -> is_there lu sys m = true <->
  (forall s, In (lm_name m, s) (service k) -> w s "err_code" = None) /\ (lm_name m = "Led" -> dget "led_off" sys <> None).
Proof.
  intros I. destruct ms_ok as (_ & _ & K). rewrite forallb_forall in K. specialize (K m I). unfold keyed in K. unfold is_there.
  destruct (String.eqb_spec (lm_name m) "Led") as [L|L].
  - rewrite L in *. split.
    + intros D. split; [|intros _; unfold dmem in D; destruct (dget "led_off" sys); discriminate].
      intros s J. exfalso. revert J. clear. destruct k; vm_compute; intuition discriminate.
    + intros (_ & D). specialize (D eq_refl). unfold dmem. destruct (dget "led_off" sys); [reflexivity|contradiction].
  - rewrite Bool.orb_false_l in K. unfold shows, field. destruct (lm_asks m).
    + rewrite Bool.andb_true_r in K. apply existsb_exists in K. destruct K as (x & J & E). apply pair_eqb_eq in E. subst x.
      assert (U : forall s, In (lm_name m, s) (service k) -> s = lm_key m).
      { intros s J'. pose proof (service_once k) as D. pose proof (In_dget (lm_name m) s (service k) D J') as E1.
        pose proof (In_dget (lm_name m) (lm_key m) (service k) D J) as E2. congruence. }
      destruct (dget (lm_key m) lu) as [d|] eqn:E.
      * unfold dmem. destruct (dget "err_code" d) eqn:E'; split; intros H; try discriminate H; auto.
        -- destruct H as (H & _). specialize (H _ J). rewrite E in H. congruence.
        -- split; [|intros X; contradiction]. intros s J'. rewrite (U s J'), E. exact E'.
      * split; [|reflexivity]. intros _. split; [|intros X; contradiction]. intros s J'. rewrite (U s J'), E. reflexivity.
    + apply Bool.andb_true_iff in K. destruct K as (K1 & K2). apply smem_In in K1. pose proof (t_only _ _ _ _ T _ K1) as N. cbv beta in N.
      apply Bool.negb_true_iff in K2. apply smem_false in K2.
      destruct (dget (lm_key m) lu) eqn:E; [exfalso; apply N; discriminate|]. split; [|reflexivity]. intros _. split; [|intros X; contradiction].
      intros s J. exfalso. apply K2. exact (in_map fst _ _ J).
Qed.
Lemma names_there n : In n (map lm_name (filter (is_there lu sys) ms)) <-> has_it k sys w n.
Proof.
  destruct ms_ok as (_ & N & _). unfold has_it. rewrite <- N, !in_map_iff. split.
  - intros (m & <- & I). apply filter_In in I. destruct I as (I & H). apply (there m I) in H. split; [eauto|exact H].
  - intros ((m & <- & I) & H). exists m. split; [reflexivity|]. apply filter_In. split; [exact I|]. apply there; assumption.
Qed.
Lemma names_there_nodup : NoDup (map lm_name (filter (is_there lu sys) ms)).
Proof.
  destruct ms_ok as (D & _ & _). revert D. clear. generalize (is_there lu sys) as P. intros P. induction ms as [|m l IH]; cbn [map filter]; intros D; [constructor|].
  inversion D as [|? ? N D']; subst. destruct (P m); [|auto]. cbn [map]. constructor; [|auto].
  intros I. apply N. apply in_map_iff in I. destruct I as (x & E & I). apply filter_In in I. apply in_map_iff. exists x. tauto.
Qed.
Definition reported (u m : string) : Prop :=
  k = StripK \/ exists s, In ("Energy", s) (service k) /\ (fld2 w s "get_realtime" [u] <> None \/ fld2 w s "get_realtime" [m] <> None).
Lemma hooks_told : exists f, hooks k lu (Ok tt) ms = Ok f
  /\ (kind_has k sys "Energy" -> (fst f = true <-> reported "voltage" "voltage_mv") /\ (snd f = true <-> reported "total" "total_wh")).
Proof.
  destruct ms_ok as (_ & N & _). unfold hooks. destruct (is_strip k) eqn:S.
  - exists (true, true). split; [reflexivity|]. intros _. assert (E : k = StripK) by (destruct k; try discriminate S; reflexivity).
    cbn [fst snd]. unfold reported. intuition.
  - destruct (existsb (fun m => String.eqb (lm_name m) "Energy") ms) eqn:X.
    + assert (H : kind_has k sys "Energy").
      { apply N. apply existsb_exists in X. destruct X as (m & I & E). apply String.eqb_eq in E. rewrite <- E. apply in_map. exact I. }
      destruct (t_meter _ _ _ _ T _ H (meter_service' k S)) as (d & E). unfold meter_hook.
      pose proof E as E'. unfold shows, field in E'. destruct (dget (meter_key k) lu) as [D|] eqn:L; [|discriminate E'].
      unfold dindex. rewrite E'. cbn [bind jcontains]. eexists. split; [reflexivity|]. intros _. cbn [fst snd]. unfold reported.
      assert (G : forall u, fld2 w (meter_key k) "get_realtime" [u] = dget u d) by (intros u; unfold fld2; rewrite E; cbn [opt_bind]; apply follow1).
      assert (R : forall u m, dmem m d || dmem u d = true <->
                 (k = StripK \/ exists s, In ("Energy", s) (service k) /\ (fld2 w s "get_realtime" [u] <> None \/ fld2 w s "get_realtime" [m] <> None))).
      { intros u m. unfold dmem. split.
        - intros H1. right. exists (meter_key k). split; [apply meter_service'; exact S|]. rewrite !G. destruct (dget m d), (dget u d); try discriminate H1; intuition discriminate.
        - intros [->|(s & J & H1)]; [discriminate S|]. apply meter_service in J. destruct J as (-> & _). rewrite !G in H1.
          destruct (dget m d), (dget u d); try reflexivity. intuition. }
      split; apply R.
    + exists (false, false). split; [reflexivity|]. intros H. exfalso. apply N in H. apply in_map_iff in H. destruct H as (m & E & I).
      assert (X' : existsb (fun m => String.eqb (lm_name m) "Energy") ms = true) by (apply existsb_exists; exists m; split; [exact I|apply String.eqb_eq; exact E]).
      congruence.
Qed.
Lemma features_told f n : (kind_has k sys "Energy" -> (fst f = true <-> reported "voltage" "voltage_mv") /\ (snd f = true <-> reported "total" "total_wh")) ->
  kind_has k sys n ->
  exists c, lmodule_features k lu sys f n = Ok (lfeats c n) /\ forall id, In id (map fst (lfeats c n)) <-> lgives k sys w n id.
Proof.
  intros F H. unfold lmodule_features.
  assert (P : exists pir, (if String.eqb n "motion" then motion_there lu else Ok false) = Ok pir
                /\ (n = "motion" -> (pir = true <-> fld2 w "smartlife.iot.PIR" "get_config" ["enable"] <> None /\ w "smartlife.iot.PIR" "get_adc_value" <> None))).
  { destruct (String.eqb_spec n "motion") as [->|N]; [|exists false; split; [reflexivity|intros X; contradiction]].
    destruct (t_motion _ _ _ _ T H) as (A & B). unfold motion_there. unfold fld2, shows, field in *.
    destruct (dget "smartlife.iot.PIR" lu) as [d|]; [|contradiction]. unfold dmem, dindex. destruct (dget "get_config" d) as [v|] eqn:E.
    - destruct (B v eq_refl) as (x & ->). cbn [negb opt_bind]. rewrite follow1. destruct (dget "get_adc_value" d).
      + cbn [negb bind jcontains]. eexists. split; [reflexivity|]. intros _. unfold dmem. destruct (dget "enable" x); intuition congruence.
      + exists false. split; [reflexivity|]. intros _. intuition congruence.
    - exists false. split; [reflexivity|]. intros _. cbn [opt_bind]. intuition congruence. }
  destruct P as (pir & -> & P). cbn [bind].
  assert (L : exists l, (if String.eqb n "Light" then light_there k sys else Ok (false, (false, false))) = Ok l
                /\ (n = "Light" -> let light b x := if lamp k then exists v, dget x sys = Some v /\ truthy v = true else b in
                    (fst l = true <-> light (dget "brightness" sys <> None) "is_dimmable") /\ (fst (snd l) = true <-> light False "is_variable_color_temp")
                    /\ (snd (snd l) = true <-> light False "is_color"))).
  { destruct (String.eqb_spec n "Light") as [->|N]; [|eexists; split; [reflexivity|intros X; contradiction]]. unfold light_there.
    assert (B : is_bulb k = lamp k) by (destruct k; reflexivity). rewrite B. pose proof (t_light _ _ _ _ T) as Q. destruct (lamp k).
    - pose proof (Q eq_refl "is_dimmable" ltac:(cbn; auto)) as Q1. pose proof (Q eq_refl "is_variable_color_temp" ltac:(cbn; auto)) as Q2.
      pose proof (Q eq_refl "is_color" ltac:(cbn; auto)) as Q3. unfold dindex.
      destruct (dget "is_dimmable" sys) as [a|]; [|contradiction]. destruct (dget "is_variable_color_temp" sys) as [b|]; [|contradiction].
      destruct (dget "is_color" sys) as [c|]; [|contradiction]. cbn [bind]. eexists. split; [reflexivity|]. intros _. cbn [fst snd].
      assert (E : forall x, truthy x = true <-> exists v, Some x = Some v /\ truthy v = true).
      { intros x. split; [eauto|]. intros (v & E & U). injection E as ->. exact U. }
      cbv zeta. rewrite <- !E. intuition.
    - eexists. split; [reflexivity|]. intros _. cbn [fst snd]. unfold dmem. destruct (dget "brightness" sys); intuition congruence. }
  destruct L as (l & -> & L). cbn [bind]. eexists. split; [reflexivity|]. intros id. rewrite lids_cond. unfold by_cond, lgives.
  cbn [c_volt c_total c_pir c_dim c_temp c_color]. cbv beta zeta in *. fold (reported "total" "total_wh"). fold (reported "voltage" "voltage_mv").
  split.
  - intros [A|[(-> & A)|[(-> & A)|(-> & A)]]].
    + left; exact A.
    + right; left. destruct (F H) as (F1 & F2). rewrite <- F1, <- F2. tauto.
    + right; right; left. specialize (P eq_refl). tauto.
    + right; right; right. specialize (L eq_refl). split; [reflexivity|]. destruct L as (L1 & L2 & L3). rewrite <- L1, <- L2, <- L3. exact A.
  - intros [A|[(-> & A)|[(-> & A)|(-> & A)]]].
    + left; exact A.
    + right; left. destruct (F H) as (F1 & F2). rewrite <- F1, <- F2 in A. tauto.
    + right; right; left. specialize (P eq_refl). tauto.
    + right; right; right. specialize (L eq_refl). split; [reflexivity|]. destruct L as (L1 & L2 & L3). rewrite <- L1, <- L2, <- L3 in A. exact A.
Qed.
Lemma own_ok : NoDup (map fst (lown k sys)) /\ (forall id, In id (map fst (lown k sys)) <-> lgives_itself k sys id)
  /\ forall id, In id (map fst (lown k sys)) -> In id ["state"; "rssi"; "on_since"; "reboot"].
Proof.
  assert (D : dmem "on_time" sys = true <-> dget "on_time" sys <> None) by (unfold dmem; destruct (dget "on_time" sys); intuition congruence).
  unfold lown, lgives_itself. setoid_rewrite <- D. destruct (dmem "on_time" sys), k; cbn [is_strip orb map fst List.app In];
    (split; [apply nodup_s_ok; vm_compute; reflexivity|]); (split; intros id; [|clear; tauto]).
  all: split; [intros H; repeat (destruct H as [H|H]; [subst id|]); [..|contradiction]
              |intros [->|[(-> & H)|(H & [<-|[<-|[]]])]]]; try (clear; tauto); try (intuition discriminate); try contradiction; try congruence.
  all: right; try (left; split; [reflexivity|clear; tauto]); right; split; [discriminate|clear; tauto].
Qed.

(** What [legacy_features] gives. *)
Lemma features_are : exists f (F : string -> list (string * lgetter)),
  let ns := map lm_name (filter (is_there lu sys) ms) in
  legacy_features k lu sys (Ok tt) ms = Ok (lown k sys ++ concat (map F ns))
  /\ NoDup (map fst (lown k sys ++ concat (map F ns)))
  /\ (forall n, In n ns -> exists c, F n = lfeats c n /\ lmodule_features k lu sys f n = Ok (F n) /\ forall id, In id (map fst (F n)) <-> lgives k sys w n id).
Proof.
  destruct hooks_told as (f & E & Hf). exists f, (fun n => match lmodule_features k lu sys f n with Ok l => l | Err _ => [] end). cbv zeta.
  set (F := fun n => match lmodule_features k lu sys f n with Ok l => l | Err _ => [] end).
  set (ns := map lm_name (filter (is_there lu sys) ms)).
  assert (A : forall n, In n ns -> exists c, F n = lfeats c n /\ lmodule_features k lu sys f n = Ok (F n) /\ forall id, In id (map fst (F n)) <-> lgives k sys w n id).
  { intros n I. apply names_there in I. destruct (features_told f n Hf (proj1 I)) as (c & X & Y). exists c. unfold F. rewrite X. auto. }
  assert (X : map (fun n => let! l := lmodule_features k lu sys f n in Ok (map fst l)) ns = map (@Ok (list string)) (map (fun n => map fst (F n)) ns)).
  { rewrite map_map. apply map_ext_in. intros n I. destruct (A n I) as (c & _ & -> & _). reflexivity. }
  assert (G : lgathered k lu sys f ns = Ok (concat (map F ns))).
  { clear X. revert A. generalize ns as l. induction l as [|n l IH]; intros A; [reflexivity|]. cbn [lgathered map concat].
    destruct (A n (or_introl eq_refl)) as (c & _ & -> & _). cbn [bind]. rewrite IH by (intros m I; apply A; right; exact I). reflexivity. }
  assert (C : map fst (concat (map F ns)) = concat (map (fun n => map fst (F n)) ns)).
  { rewrite concat_map, map_map. reflexivity. }
  assert (D : NoDup (map fst (lown k sys ++ concat (map F ns)))).
  { destruct own_ok as (O1 & _ & O3). rewrite map_app, C. apply Offer_Proofs.NoDup_app. split; [exact O1|]. split.
    - apply NoDup_concat; [apply names_there_nodup| |].
      + intros n I. destruct (A n I) as (c & -> & _). apply lids_nodup.
      + intros n n' x I I' J J'. destruct (A n I) as (c & E1 & _), (A n' I') as (c' & E2 & _). rewrite E1 in J. rewrite E2 in J'.
        exact (table_module _ _ _ (lids_table _ _ _ J) (lids_table _ _ _ J')).
    - intros x I J. apply in_concat in J. destruct J as (l & L & J). apply in_map_iff in L. destruct L as (n & <- & N).
      destruct (A n N) as (c & E1 & _). rewrite E1 in J. exact (table_own _ _ (lids_table _ _ _ J) (O3 x I)). }
  split; [|split; [exact D|exact A]].
  unfold legacy_features. rewrite E. cbn [bind]. fold ns. rewrite X.
  assert (U : update_features (map fst (lown k sys)) (map (@Ok (list string)) (map (fun n => map fst (F n)) ns)) []
              = (map fst (lown k sys) ++ concat (map (fun n => map fst (F n)) ns), Ok tt)).
  { apply features_first. split; [|rewrite <- C, <- map_app; exact D]. apply all_features_concat. eexists. split; reflexivity. }
  rewrite U. cbn [snd bind]. rewrite G. reflexivity.
Qed.

(** The features of a device are exactly those its kind and its answers call for, no two with one id. *)
Theorem legacy_features_distinct_partial :
  exists fs, legacy_features k lu sys (Ok tt) ms = Ok fs /\ NoDup (map fst fs)
    /\ forall id, In id (map fst fs) <-> lgives_itself k sys id \/ exists n, has_it k sys w n /\ lgives k sys w n id.
Proof.
  destruct features_are as (f & F & E & D & A). cbv zeta in *. eexists. split; [exact E|]. split; [exact D|]. intros id.
  destruct own_ok as (_ & O & _). rewrite map_app, in_app_iff, O, concat_map, map_map, in_concat. split.
  - intros [H|(l & L & I)]; [left; exact H|]. right. apply in_map_iff in L. destruct L as (n & <- & N). exists n.
    split; [apply names_there; exact N|]. destruct (A n N) as (c & _ & _ & G). apply G. exact I.
  - intros [H|(n & N & I)]; [left; exact H|]. right. apply names_there in N. exists (map fst (F n)).
    split; [apply in_map_iff; exists n; split; [reflexivity|exact N]|]. destruct (A n N) as (c & _ & _ & G). apply G. exact I.
Qed.

Lemma found n id : has_it k sys w n -> lgives k sys w n id ->
  exists fs c g, legacy_features k lu sys (Ok tt) ms = Ok fs /\ dget id fs = Some g /\ In (id, g) (lfeats c n).
Proof.
  intros N I. destruct features_are as (f & F & E & D & A). cbv zeta in *. apply names_there in N. destruct (A n N) as (c & X & _ & G).
  apply G in I. apply in_map_iff in I. destruct I as ((i & g) & E' & I). cbn [fst] in E'. subst i. eexists. exists c, g.
  split; [exact E|]. rewrite X in I. split; [|exact I]. apply In_dget; [exact D|]. apply in_or_app. right. apply in_concat. exists (F n).
  split; [apply in_map; exact N|]. rewrite X. exact I.
Qed.
(** A feature shows the reading it is named for: a value exactly if the device replied it. *)
Theorem legacy_features_show : forall n id r, In (n, id, r) lmeanings -> has_it k sys w n -> lgives k sys w n id ->
  exists fs g x, legacy_features k lu sys (Ok tt) ms = Ok fs /\ dget id fs = Some g /\ lvalue k o sys g = Some x
    /\ forall v, x = Ok v <-> lmeans (lamp k) w (l_sys o) r = Some v.
Proof.
  intros n id r I N V. destruct (found n id N V) as (fs & c & g & E & G & J). exists fs, g.
  assert (X : g = LReads r).
  { apply in_lfeats in J. destruct J as (x & J & A & _ & B & C). subst n id g.
    assert (Y : forallb (fun m => negb (String.eqb (snd (fst m)) (lr_id x)) || match lr_getter x with LReads r' => if lreading_eq_dec (snd m) r' then true else false | _ => false end) lmeanings = true).
    { unfold lrows in J. cbn [In] in J. clear - J. repeat (destruct J as [J|J]; [subst x; vm_compute; reflexivity|]). destruct J. }
    rewrite forallb_forall in Y. specialize (Y _ I). cbn [fst snd] in Y. rewrite String.eqb_refl in Y. cbn [negb orb] in Y.
    destruct (lr_getter x); try discriminate Y. destruct (lreading_eq_dec r r0) as [->|]; [reflexivity|discriminate Y]. }
  subst g. eexists. split; [exact E|]. split; [exact G|]. split; [reflexivity|]. intros v.
  assert (B : is_bulb k = lamp k) by (destruct k; reflexivity). rewrite B. apply legacy_readings_show.
Qed.
(** The state of a plug is its relay's, and the signal strength is the one the device reported. *)
Theorem legacy_own_features_show : exists fs, legacy_features k lu sys (Ok tt) ms = Ok fs
  /\ (In k [PlugK; WallK; DimmerK] -> exists g x, dget "state" fs = Some g /\ lvalue k o sys g = Some x
        /\ forall v, dget "relay_state" sys = Some (JInt v) -> x = Ok (Plain (JBool (negb (v =? 0)))))
  /\ (k <> SocketK -> exists g x, dget "rssi" fs = Some g /\ lvalue k o sys g = Some x
        /\ (forall v, dget "rssi" sys = Some (JInt v) -> x = Ok (Plain (JInt v))) /\ (dget "rssi" sys = None -> x = Ok (Plain JNull))).
Proof.
  destruct features_are as (f & F & E & D & A). cbv zeta in *. eexists. split; [exact E|].
  assert (X : forall id g, In (id, g) (lown k sys) -> dget id (lown k sys ++ concat (map F (map lm_name (filter (is_there lu sys) ms)))) = Some g).
  { intros id g I. apply In_dget; [exact D|]. apply in_or_app. left. exact I. }
  split.
  - intros K. exists Relay. eexists. split; [apply X; unfold lown; destruct K as [<-|[<-|[<-|[]]]]; left; reflexivity|].
    split; [reflexivity|]. intros v V. unfold dindex. rewrite V. reflexivity.
  - intros K. exists Signal. eexists. split; [apply X; unfold lown; destruct k; try contradiction; right; left; reflexivity|].
    split; [reflexivity|]. split; [intros v V|intros V]; rewrite V; reflexivity.
Qed.

Lemma numbers_reading d r : numbers d r -> reading_of d = Ok r.
Proof.
  unfold numbers. intros H. induction H as [|[n v] [n' x] d r (E & V) H IH]; [reflexivity|]. cbn [fst snd] in *. subst n'. cbn [reading_of]. rewrite IH.
  destruct x as [q|]; [destruct V as (z & -> & ->)|subst v]; reflexivity.
Qed.
(** A quantity of the meter is shown in the unit the feature has, whichever unit the device reports in. *)
Theorem meter_features_show : forall id q s d r v,
  k <> StripK -> In (id, q) quantities -> has_it k sys w "Energy" -> lgives k sys w "Energy" id ->
  In ("Energy", s) (service k) -> w s "get_realtime" = Some (JObj d) -> numbers d r -> Emeter_Spec.means q v r ->
  exists fs item b, legacy_features k lu sys (Ok tt) ms = Ok fs /\ dget id fs = Some (Meter item)
    /\ meter_value k lu item = Ok (Some b) /\ (b == v)%Q.
Proof.
  intros id q s d r v K I N V S R Nu Me. destruct (found "Energy" id N V) as (fs & c & g & E & G & J).
  assert (X : g = Meter (Emeter_Spec.base q)).
  { apply in_lfeats in J. destruct J as (x & J & A & _ & B & C). subst id g. revert A I.
    unfold lrows in J. cbn [In] in J. clear - J. repeat (destruct J as [J|J]; [subst x; cbn [lr_module lr_id lr_getter]; intros A; try discriminate A;
      intros I; repeat (destruct I as [I|I]; [first [discriminate I|injection I as <-; reflexivity]|]); destruct I|]). destruct J. }
  subst g. exists fs, (Emeter_Spec.base q).
  destruct (readings_consistent q v r Me) as (b & m & B & _ & Eb & _). exists b. split; [exact E|]. split; [exact G|]. split; [|exact Eb].
  apply meter_service in S. destruct S as (-> & _). unfold meter_value. unfold shows, field in R.
  destruct (dget (meter_key k) lu) as [x|]; [|discriminate R]. unfold dindex. rewrite R. cbn [bind]. rewrite (numbers_reading d r Nu). exact B.
Qed.
End First.
Print Assumptions legacy_features_distinct_partial.
Print Assumptions legacy_features_show.
Print Assumptions legacy_own_features_show.
Print Assumptions meter_features_show.

(** ** A device that has a meter by its kind but refuses its service is not offered without the meter:
    the update itself fails, with an error that is not the library's. *)
Theorem legacy_unsupported_meter_refuted : forall k o sys ms d s,
  legacy_mods k sys = Ok ms -> In "Energy" (map lm_name ms) -> In ("Energy", s) (service k) ->
  dget s (l_lu o) = Some d -> dget "get_realtime" d = None ->
  legacy_features k (l_lu o) sys (Ok tt) ms = Err PyKeyError.
Proof.
  intros k o sys ms d s _ N S D R. apply meter_service in S. destruct S as (-> & S). unfold legacy_features, hooks. rewrite S.
  assert (X : existsb (fun m => String.eqb (lm_name m) "Energy") ms = true).
  { apply in_map_iff in N. destruct N as (m & E & I). apply existsb_exists. exists m. split; [exact I|apply String.eqb_eq; exact E]. }
  rewrite X. unfold meter_hook, dindex. rewrite D, R. reflexivity.
Qed.
Print Assumptions legacy_unsupported_meter_refuted.

(** ** A plug with a meter, a bulb whose meter service is refused, a dimmer with a motion sensor *)
Definition hs110 : dict json := [("feature", JStr "TIM:ENE"); ("led_off", JInt 0); ("relay_state", JInt 1); ("rssi", JInt (-61)); ("on_time", JInt 5)].
Definition hs110_obj : lobj := mkL
  [("system", [("get_sysinfo", JObj hs110)]);
   ("emeter", [("get_realtime", JObj [("voltage_mv", JInt 122049); ("current_ma", JInt 13); ("power_mw", JInt 1500); ("total_wh", JInt 9); ("err_code", JInt 0)])]);
   ("cnCloud", [("get_info", JObj [("binded", JInt 1); ("cld_connection", JInt 1); ("fwDlPage", JStr ""); ("fwNotifyType", JInt (-1)); ("illegalType", JInt 0);
                                  ("server", JStr "n-devs.tplinkcloud.com"); ("stopConnect", JInt 0); ("tcspInfo", JStr ""); ("tcspStatus", JInt 1);
                                  ("username", JStr "user@example.com")])]);
   ("anti_theft", [("err_code", JInt (-1)); ("err_msg", JStr "module not support")])]
  (Some (JObj hs110)) [] 16384.
Example hs110_told : told PlugK hs110 (shows hs110_obj) (fun s => dget s (l_lu hs110_obj) <> None).
Proof.
  constructor; try discriminate.
  - intros s _ [E|E]; [injection E as <-; eexists; vm_compute; reflexivity|].
    exfalso. revert E. vm_compute. intuition discriminate.
  - intros H. exfalso. revert H. unfold kind_has. vm_compute. intuition discriminate.
  - intros v E. injection E as <-. eauto.
  - intros s I X. apply X. clear X. cbv [unasked lamp In] in I. repeat (destruct I as [<-|I]; [reflexivity|]). destruct I.
Qed.
Example hs110_features :
  match legacy_mods PlugK hs110 with
  | Ok ms => legacy_features PlugK (l_lu hs110_obj) hs110 (Ok tt) ms
             = Ok [("state", Relay); ("rssi", Signal); ("on_since", LOther); ("reboot", LOther);
                   ("current_consumption", Meter "power"); ("consumption_today", LOther); ("consumption_this_month", LOther);
                   ("consumption_total", Meter "total"); ("voltage", Meter "voltage"); ("current", Meter "current");
                   ("cloud_connection", LReads CloudOnline); ("led", LReads LedLit)]
  | Err _ => False
  end /\ meter_value PlugK (l_lu hs110_obj) "power" = Ok (Some (inject_Z 1500 / 1000)%Q)
  /\ lvalue PlugK hs110_obj hs110 (LReads CloudOnline) = Some (Ok (Plain (JBool true))).
Proof. vm_compute. auto. Qed.
Example hs110_power : numbers [("power_mw", JInt 1500)] [("power_mw", Some (inject_Z 1500))] /\ Emeter_Spec.means Power (3 # 2) [("power_mw", Some (inject_Z 1500))].
Proof.
  split; [repeat constructor; cbn; eauto|]. right. exists (inject_Z 1500). split; [split; [reflexivity|]|reflexivity].
  intros k [<-|[]] H. reflexivity.
Qed.
Definition lb_sys : dict json := [("is_dimmable", JInt 1); ("is_variable_color_temp", JInt 0); ("is_color", JInt 0); ("rssi", JInt (-50))].
Example lb_meter_refused :
  match legacy_mods BulbK lb_sys with
  | Ok ms => In "Energy" (map lm_name ms)
             /\ legacy_features BulbK [("system", [("get_sysinfo", JObj lb_sys)]); ("smartlife.iot.common.emeter", [("err_code", JInt (-1)); ("err_msg", JStr "module not support")])]
                  lb_sys (Ok tt) ms = Err PyKeyError
             /\ match legacy_features BulbK [("system", [("get_sysinfo", JObj lb_sys)]);
                        ("smartlife.iot.common.emeter", [("get_realtime", JObj [("power_mw", JInt 900); ("err_code", JInt 0)])]);
                        ("smartlife.iot.common.cloud", [("err_code", JInt (-1)); ("err_msg", JStr "module not support")])] lb_sys (Ok tt) ms with
                | Ok fs => map fst fs = ["state"; "rssi"; "reboot"; "current_consumption"; "consumption_today"; "consumption_this_month"; "brightness"; "light_preset"]
                | Err _ => False
                end
  | Err _ => False
  end.
Proof. vm_compute. auto 20. Qed.
Example es20m_features :
  let o := es20m (JObj [("value", JInt 2107); ("err_code", JInt 0)]) in
  match legacy_mods DimmerK [("led_off", JInt 0); ("brightness", JInt 50)] with
  | Ok ms => match legacy_features DimmerK (l_lu o) [("led_off", JInt 0); ("brightness", JInt 50)] (Ok tt) ms with
             | Ok fs => List.length fs = 24%nat /\ map (fun id => dget id fs) ["pir_value"; "ambient_light"; "dimmer_ramp_rate"; "brightness"; "hsv"; "voltage"]
                        = [Some (LReads MotionValue); Some (LReads AmbientBrightness); Some (LReads DimRamp); Some LOther; None; None]
             | Err _ => False
             end
  | Err _ => False
  end.
Proof. vm_compute. auto. Qed.

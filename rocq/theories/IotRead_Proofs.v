From Verif Require Import Base Py Base_Lemmas Factory_Model Sensor_Model Read_Model Read_Spec Read_Proofs Iot_Spec IotUpd_Model WholeIot_Model WholeIot_Spec IotRead_Model IotRead_Spec.
Open Scope string_scope.
Open Scope list_scope.
Open Scope Z_scope.

Definition agr {A} (r : res A) (o : option A) : Prop :=
  match r, o with Ok a, Some b => a = b | Err _, None => True | _, _ => False end.
Lemma agr_bind {A B} (r : res A) (o : option A) (f : A -> res B) (g : A -> option B) :
  agr r o -> (forall a, agr (f a) (g a)) -> agr (bind r f) (opt_bind o g).
Proof. destruct r as [a|e], o as [b|]; cbn; intros H F; try contradiction; auto. now subst. Qed.
Lemma bind_assoc' {A B C} (r : res A) (f : A -> res B) (g : B -> res C) : bind (bind r f) g = bind r (fun a => bind (f a) g).
Proof. destruct r; reflexivity. Qed.
Lemma agr_int v : agr (to_int v) (whole_number v).
Proof. destruct v as [|[]| | | | |]; cbn; auto. Qed.
Lemma agr_item k v : agr (jitem k v) (follow [k] v).
Proof. destruct v; cbn; auto. unfold dindex. destruct (dget k _); cbn; auto. Qed.
Section Object.
Variables (bulb : bool) (o : lobj).
Let w : replies := shows o.
Lemma agr_reply r c : agr (reply_of bulb o r c) (w (key bulb r) c).
Proof.
  unfold reply_of, ldata, w, shows, field. destruct (dget _ _) as [d|]; cbn; auto. unfold dindex. destruct (dget c d); cbn; auto.
Qed.
Lemma agr_entry r c k : agr (entry_of bulb o r c k) (fld2 w (key bulb r) c [k]).
Proof. unfold entry_of, fld2. apply agr_bind; [apply agr_reply|intros; apply agr_item]. Qed.
Lemma agr_thr i v r : prange_of i = Ok r -> agr (threshold_of v r) (whole_at (entry_no i (follow ["array"] v))).
Proof.
  intros P.
  assert (V : prange_value r = i /\ 0 <= i).
  { unfold prange_of in P. destruct (find _ pranges) as [x|] eqn:F; [|discriminate]. injection P as ->.
    apply find_some in F as [_ F]. apply Z.eqb_eq in F. split; [exact F|]. subst i. destruct r; cbn; lia. }
  destruct V as (V & N). unfold threshold_of. rewrite V. unfold whole_at.
  pose proof (agr_item "array" v) as A. destruct (jitem "array" v) as [a|e], (follow ["array"] v) as [b|]; cbn in A; try contradiction; [subst b|exact I].
  cbn [bind]. unfold len, entry_no. destruct a as [| | | | |l|]; try exact I. cbn [bind].
  replace (i <? 0) with false by (symmetry; now apply Z.ltb_ge). cbn [orb].
  destruct (Z.of_nat (List.length l) <=? i) eqn:L.
  - apply Z.leb_le in L. replace (nth_error l (Z.to_nat i)) with (@None json); [exact I|]. symmetry. apply nth_error_None. lia.
  - unfold nth_item. destruct (nth_error l (Z.to_nat i)) as [x|]; [|exact I]. cbn [bind opt_bind]. apply agr_int.
Qed.
Lemma range_ok i : agr (match prange_of i with Ok r => Ok (prange_name r) | Err e => Err e end) (range_name i).
Proof.
  unfold prange_of, range_name. cbn. destruct i as [|p|p]; cbn; auto. 
  destruct p as [[p|p|]|[p|p|]|]; cbn; auto.
Qed.
Definition sensed (x : pconf * prange) : sensor :=
  mkSensor (p_enabled (fst x)) (p_min (fst x)) (p_max (fst x)) (prange_name (snd x)) (p_threshold (fst x)).
Lemma agr_sensor : agr (match pir bulb o with Ok x => Ok (sensed x) | Err e => Err e end) (sensor_of w).
Proof.
  unfold pir, sensor_of, fld2. pose proof (agr_reply MotionOn "get_config") as A. cbn [key] in A. unfold w in *.
  destruct (reply_of bulb o MotionOn "get_config") as [v|e], (shows o "smartlife.iot.PIR" "get_config") as [v'|]; cbn in A; try contradiction; [subst v'|exact I].
  cbn [bind opt_bind]. unfold pir_conf.
  pose proof (agr_item "trigger_index" v) as A1. pose proof (agr_item "enable" v) as A2. pose proof (agr_item "min_adc" v) as A3. pose proof (agr_item "max_adc" v) as A4.
  pose proof agr_thr as A5. specialize (fun i => A5 i v).
  set (f1 := follow ["trigger_index"] v) in *. set (f2 := follow ["enable"] v) in *. set (f3 := follow ["min_adc"] v) in *. set (f4 := follow ["max_adc"] v) in *.
  set (f5 := follow ["array"] v) in *. clearbody f1 f2 f3 f4 f5.
  destruct (jitem "trigger_index" v) as [i|e], f1 as [i'|]; cbn in A1; try contradiction; [subst i'|cbn; destruct f2; cbn; auto; destruct (whole_at f3); auto; destruct (whole_at f4); auto].
  cbn [bind]. unfold whole_at at 3. cbn [opt_bind].
  replace (match as_int i with Some z => Ok z | None => Err PyValueError end) with (match whole_number i with Some z => Ok z | None => Err PyValueError end) by (destruct i as [|[]| | | | |]; reflexivity).
  destruct (whole_number i) as [z|]; [|cbn; destruct f2; cbn; auto; destruct (whole_at f3); auto; destruct (whole_at f4); auto].
  cbn [bind]. specialize (A5 z). pose proof (range_ok z) as R. destruct (prange_of z) as [r|e].
  2: { cbn in *. destruct (range_name z); [contradiction|]. destruct f2; cbn; auto; destruct (whole_at f3); auto; destruct (whole_at f4); auto. }
  specialize (A5 r eq_refl). cbn in R. destruct (range_name z) as [n|]; [|contradiction]. subst n. cbn [bind].
  destruct (jitem "enable" v) as [x|e], f2 as [x'|]; cbn in A2; try contradiction; [subst x'|exact I]. cbn [bind].
  destruct (jitem "min_adc" v) as [y|e], f3 as [y'|]; cbn in A3; try contradiction; [subst y'|exact I]. cbn [bind]. unfold whole_at at 1. cbn [opt_bind].
  pose proof (agr_int y) as B. destruct (to_int y) as [ny|e], (whole_number y) as [ny'|]; cbn in B; try contradiction; [subst ny'|exact I]. cbn [bind].
  destruct (jitem "max_adc" v) as [u|e], f4 as [u'|]; cbn in A4; try contradiction; [subst u'|exact I]. cbn [bind]. unfold whole_at at 1. cbn [opt_bind].
  pose proof (agr_int u) as C. destruct (to_int u) as [nu|e], (whole_number u) as [nu'|]; cbn in C; try contradiction; [subst nu'|exact I]. cbn [bind].
  destruct (threshold_of v r) as [t|e], (whole_at (entry_no z f5)) as [t'|]; cbn in A5; try contradiction; [subst t'|exact I]. reflexivity.
Qed.
Lemma agr_of_sensor (f : pconf * prange -> res value) (g : sensor -> option value) :
  (forall x, agr (f x) (g (sensed x))) -> agr (bind (pir bulb o) f) (of_sensor w g).
Proof.
  intros H. unfold of_sensor. pose proof agr_sensor as A. destruct (pir bulb o) as [x|e], (sensor_of w) as [s|]; cbn in A; try contradiction; [subst s|exact I].
  cbn. apply H.
Qed.
Lemma agr_fields l d : agr (from_fields l d)
  (every (fun x : string * option json => option_map (pair (fst x)) (snd x))
     (map (fun x : string * (string * bool) => (fst x, if snd (snd x) then numbered (follow [fst (snd x)] (JObj d)) else follow [fst (snd x)] (JObj d))) l)).
Proof.
  induction l as [|(n, (a, b)) l IH]; [reflexivity|]. cbn [from_fields map every fst snd].
  set (E := every _ _) in *. clearbody E. cbn [follow].
  destruct (dget a d) as [x|].
  2: { destruct b; exact I. }
  destruct b; unfold numbered, whole_at; cbn [bind option_map opt_bind].
  - pose proof (agr_int x) as A. destruct (to_int x) as [z|e], (whole_number x) as [z'|]; cbn in A; try contradiction; [subst z'|exact I].
    cbn [bind option_map]. destruct (from_fields l d) as [r|e], E as [r'|]; cbn in IH; try contradiction; [subst r'; reflexivity|exact I].
  - destruct (from_fields l d) as [r|e], E as [r'|]; cbn in IH; try contradiction; [subst r'; reflexivity|exact I].
Qed.
Lemma agr_cloud : agr (cloud bulb o) (cloud_of w (if bulb then "smartlife.iot.common.cloud" else "cnCloud")).
Proof.
  unfold cloud, cloud_of, fld2. pose proof (agr_reply CloudInfo "get_info") as A. cbn [key] in A. unfold w in *.
  destruct (reply_of bulb o CloudInfo "get_info") as [v|e], (shows o _ "get_info") as [v'|]; cbn in A; try contradiction; [subst v'|exact I].
  cbn [bind opt_bind]. destruct v as [| | | | | |d]; try exact I. exact (agr_fields cloud_fields d).
Qed.
Lemma lread_agrees r : agree (lread bulb o r) (lmeans bulb w (l_sys o) r).
Proof.
  change (agr (lread bulb o r) (lmeans bulb w (l_sys o) r)).
  assert (P : forall m c k, agr (plain (entry_of bulb o m c k)) (as_is (fld2 w (key bulb m) c [k]))).
  { intros m c k. unfold plain. pose proof (agr_entry m c k) as A. destruct (entry_of _ _ _ _ _), (fld2 _ _ _ _); cbn in *; try contradiction; try congruence; auto. }
  assert (M : forall m c k, agr (millis (entry_of bulb o m c k)) (mapped milli_of (fld2 w (key bulb m) c [k]))).
  { intros m c k. unfold millis. pose proof (agr_entry m c k) as A. destruct (entry_of _ _ _ _ _) as [x|], (fld2 _ _ _ _); cbn in *; try contradiction; auto. subst.
    unfold milli_of. replace (number j) with (is_num j) by (destruct j; reflexivity). destruct (is_num j); cbn; auto. }
  assert (L : agr (las bulb o) (entry_no 0 (fld2 w "smartlife.iot.LAS" "get_config" ["devs"]))).
  { unfold las. pose proof (agr_entry AmbientOn "get_config" "devs") as A. cbn [key] in A. destruct (entry_of _ _ _ _ _) as [x|], (fld2 _ _ _ _); cbn in A; try contradiction; [subst|exact I].
    cbn [bind]. destruct j as [| | | | |[|y l]|]; cbn; auto. }
  destruct r; cbn [lread lmeans].
  1: { unfold flag. rewrite bind_assoc'. apply agr_of_sensor. reflexivity. }
  1-3: unfold number_of; rewrite bind_assoc'; apply agr_of_sensor; reflexivity.
  1: { unfold text. rewrite bind_assoc'. apply agr_of_sensor. reflexivity. }
  1: unfold number_of; rewrite bind_assoc'; apply agr_of_sensor; reflexivity.
  1: exact (P MotionTimeout _ _).
  1: { unfold plain, adc. rewrite !bind_assoc'. apply agr_of_sensor. intros x. rewrite !bind_assoc'.
    clear L. pose proof (agr_entry MotionAdc "get_adc_value" "value") as A. cbn [key] in A. destruct (entry_of _ _ _ _ _), (fld2 _ _ _ _); cbn in *; try contradiction; try congruence; auto. }
  1: { unfold adc. rewrite !bind_assoc'. apply agr_of_sensor. intros x. rewrite !bind_assoc'.
    clear L. pose proof (agr_entry MotionAdc "get_adc_value" "value") as A. cbn [key] in A. destruct (entry_of _ _ _ _ _) as [v|], (fld2 _ _ _ _) as [v'|]; cbn in A; try contradiction; [subst v'|exact I].
    cbn [bind snd fst whole_at opt_bind]. pose proof (agr_int v) as B. destruct (to_int v), (whole_number v); cbn in *; try contradiction; auto. subst. reflexivity. }
  1: { destruct (las bulb o) as [d|], (entry_no 0 _) as [d'|]; cbn in L; try contradiction; [subst d'|exact I]. cbn [bind opt_bind].
    pose proof (agr_item "enable" d) as A. destruct (jitem _ d), (follow _ d); cbn in *; try contradiction; try congruence; auto. }
  1: { destruct (las bulb o) as [d|], (entry_no 0 _) as [d'|]; cbn in L; try contradiction; [subst d'|exact I]. cbn [bind opt_bind plain].
    pose proof (agr_item "level_array" d) as A. unfold plain. destruct (jitem _ d), (follow _ d); cbn in *; try contradiction; try congruence; auto. }
  1: { clear L. pose proof (agr_entry AmbientBrightness "get_current_brt" "value") as A. cbn [key] in A. destruct (entry_of _ _ _ _ _) as [v|], (fld2 _ _ _ _) as [v'|]; cbn in A; try contradiction; [subst v'|exact I].
    cbn [bind whole_at opt_bind]. pose proof (agr_int v) as B. unfold number_of. destruct (to_int v), (whole_number v); cbn in *; try contradiction; try congruence; auto. }
  1: exact (P DimThreshold _ _).
  1-4: exact (M DimThreshold _ _).
  1: exact (P DimThreshold _ _).
  1: exact (P UsageDays _ _).
  1: exact (P UsageMonths _ _).
  1: { unfold plain. pose proof agr_cloud as A. destruct (cloud bulb o), (cloud_of _ _); cbn in *; try contradiction; try congruence; auto. }
  1: { pose proof agr_cloud as A. destruct (cloud bulb o) as [d|], (cloud_of _ _) as [d'|]; cbn in A; try contradiction; [subst d'|exact I].
    cbn [bind opt_bind]. unfold dindex. destruct (dget _ d); cbn; auto. }
  unfold sysinfo. destruct (l_sys o) as [s|]; [|exact I]. cbn [bind opt_bind]. destruct s as [| | | | | |d]; try exact I.
  unfold flag, led, dindex. cbn [follow]. destruct (dget "led_off" d) as [v|]; [|exact I]. cbn [bind whole_at opt_bind].
  assert (Q : forall n, negb (1 - n =? 0) = negb (n =? 1)). { intros n. destruct (Z.eqb_spec n 1), (Z.eqb_spec (1 - n) 0); auto; lia. }
  destruct v as [|[]|n| | | |]; cbn [as_int whole_number opt_bind bind agr]; auto. now rewrite Q.
Qed.
End Object.

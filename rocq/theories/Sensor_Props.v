(** Motion sensors (C45), the MAC address (C46) and the LED (C77) of legacy devices. *)
From Coq Require Import QArith Qabs Lia Lqa.
From Verif Require Import Base Base_Lemmas Py Factory_Model Gadget_Model Gadget_Props Sensor_Model.
Open Scope string_scope.
Open Scope list_scope.
Open Scope Z_scope.

(** ** C45 *)
Definition in_percent (q : Q) : Prop := (-100 <= q)%Q /\ (q <= 100)%Q.
Lemma even_half : forall n, 0 < n -> n mod 2 = 0 -> 2 * (Z.abs n / 2) = n /\ 0 < Z.abs n / 2.
Proof. intros n H E. rewrite Z.abs_eq by lia. pose proof (Z.div_mod n 2 ltac:(lia)). lia. Qed.
Lemma percent_bound : forall v d, 0 < d -> - d <= v <= d -> in_percent (inject_Z v / inject_Z d * 100).
Proof.
  intros v d Hd Hv. destruct d as [|d|d]; try lia. unfold in_percent, Qdiv, Qmult, Qinv, inject_Z, Qle; cbn. nia.
Qed.
(** With a range starting at 0 and of even width, every reading within it is a percentage; the
    middle is 0 percent and the ends are 100 and -100 percent. *)
Theorem motion_percent_partial : forall c adc, p_min c = 0 -> 0 < p_max c -> p_max c mod 2 = 0 -> 0 <= adc <= p_max c ->
  exists q, pir_percent c adc = Ok q /\ in_percent q /\
    (q * inject_Z (p_max c) == 100 * inject_Z (p_max c - 2 * adc))%Q.
Proof.
  intros c adc H0 Hm He Ha. unfold pir_percent, pir_value, adc_mid. rewrite H0, Z.sub_0_r.
  destruct (even_half _ Hm He) as [E P]. set (h := Z.abs (p_max c) / 2) in *.
  assert (D : (if h - adc <? 0 then h - 0 else p_max c - h) = h) by (destruct (_ <? _); lia). rewrite D.
  destruct (h =? 0) eqn:Z0; [apply Z.eqb_eq in Z0; lia|]. eexists. split; [reflexivity|]. split; [apply percent_bound; lia|].
  rewrite <- E. destruct h as [|h|h]; try lia. unfold Qdiv, Qmult, Qinv, inject_Z, Qeq. cbn [Qnum Qden]. nia.
Qed.
Print Assumptions motion_percent_partial.
Lemma percent_bound_inv : forall v d, 0 < d -> in_percent (inject_Z v / inject_Z d * 100) -> - d <= v <= d.
Proof.
  intros v d Hd [A B]. destruct d as [|d|d]; try lia. unfold Qdiv, Qmult, Qinv, inject_Z, Qle in A, B; cbn in A, B. nia.
Qed.
Lemma percent_sign : forall v d, 0 < d -> (0 <= inject_Z v / inject_Z d * 100)%Q <-> 0 <= v.
Proof.
  intros v d Hd. destruct d as [|d|d]; try lia. unfold Qdiv, Qmult, Qinv, inject_Z, Qle; cbn. nia.
Qed.
(** Of every range starting at 0, as those of all known sensors (0 to 4095), a reading within it is a
    percentage except the highest one of an odd range; and the sign tells the half it is in. *)
Theorem motion_percent_range : forall c adc, p_min c = 0 -> 2 <= p_max c -> 0 <= adc <= p_max c ->
  exists q, pir_percent c adc = Ok q /\
    (in_percent q <-> p_max c mod 2 = 0 \/ adc < p_max c) /\
    ((0 <= q)%Q <-> 2 * adc <= p_max c).
Proof.
  intros c adc H0 Hm Ha. unfold pir_percent, pir_value, adc_mid. rewrite H0, Z.sub_0_r, Z.abs_eq by lia.
  pose proof (Z.div_mod (p_max c) 2 ltac:(lia)) as E. pose proof (Z.mod_pos_bound (p_max c) 2 ltac:(lia)) as B.
  set (h := p_max c / 2) in *. set (b := p_max c mod 2) in *. assert (Hh : 1 <= h) by lia. rewrite Z.sub_0_r.
  destruct (Z.ltb_spec (h - adc) 0) as [L|L].
  - destruct (Z.eqb_spec h 0) as [Z0|Z0]; [lia|]. eexists. split; [reflexivity|]. split; [|rewrite percent_sign by lia; lia].
    split; [intro P; apply percent_bound_inv in P; lia|intro D; apply percent_bound; lia].
  - destruct (Z.eqb_spec (p_max c - h) 0) as [Z0|Z0]; [lia|]. eexists. split; [reflexivity|]. split; [|rewrite percent_sign by lia; lia].
    split; [intros _; destruct (Z.eq_dec b 0); [now left|right; lia]|intros _; apply percent_bound; lia].
Qed.
Print Assumptions motion_percent_range.
Example motion_percent_range_ex : exists q, pir_percent (mkConf true 0 4095 80) 4094 = Ok q /\ in_percent q /\ (q < 0)%Q.
Proof. eexists. split; [reflexivity|]. repeat split; discriminate. Qed.
Example motion_percent_ex : exists q, pir_percent (mkConf true 0 4096 80) 1024 = Ok q /\ (q == 50)%Q.
Proof. eexists. split; reflexivity. Qed.
(** The sensor is triggered exactly when it is enabled and the reading is further from the
    middle than the threshold leaves room for; [span] is the width taken as 100 percent. *)
Theorem motion_trigger : forall c adc,
  let middle := Z.abs (p_max c - p_min c) / 2 in
  let span := Z.abs (if middle <? adc then middle - p_min c else p_max c - middle) in
  (p_enabled c = false -> pir_triggered c adc = Ok false) /\
  (p_enabled c = true -> span <> 0 -> exists b, pir_triggered c adc = Ok b /\
     (b = true <-> (100 - p_threshold c) * span < 100 * Z.abs (middle - adc))) /\
  (p_enabled c = true -> span = 0 -> pir_triggered c adc = Err PyZeroDivision).
Proof.
  intros c adc middle span. unfold pir_triggered. split; [intros ->; reflexivity|].
  assert (E : pir_percent c adc = let d := if middle <? adc then middle - p_min c else p_max c - middle in
     if d =? 0 then Err PyZeroDivision else Ok (inject_Z (middle - adc) / inject_Z d * 100)%Q).
  { unfold pir_percent, pir_value, adc_mid. fold middle. replace (middle - adc <? 0) with (middle <? adc); [reflexivity|].
    destruct (Z.ltb_spec middle adc), (Z.ltb_spec (middle - adc) 0); try reflexivity; lia. }
  set (d := if middle <? adc then middle - p_min c else p_max c - middle) in *. cbv zeta in E.
  split; intros -> Hs; rewrite E.
  - destruct (d =? 0) eqn:D; [apply Z.eqb_eq in D; subst span; rewrite D in Hs; contradiction|]. apply Z.eqb_neq in D.
    eexists. split; [reflexivity|]. rewrite negb_true_iff.
    set (v := middle - adc). set (t := 100 - p_threshold c).
    assert (B : Qle_bool (Qabs (inject_Z v / inject_Z d * 100)) (inject_Z t) = true <-> 100 * Z.abs v <= t * span).
    { rewrite Qle_bool_iff. subst span. fold d. clearbody d v t. destruct d as [|d|d]; [contradiction| |];
        unfold Qdiv, Qabs, Qmult, Qinv, inject_Z, Qle; cbn [Qnum Qden Z.abs];
        rewrite ?Z.abs_mul; cbn [Z.abs]; rewrite ?Pos.mul_1_r, ?Pos.mul_1_l; nia. }
    clearbody t v. destruct (Qle_bool _ _); split; intro H; try reflexivity; try discriminate; [destruct B as [B _]; specialize (B eq_refl); lia|].
    destruct (Z_lt_le_dec (t * span) (100 * Z.abs v)) as [L|L]; [exact L|]. apply B in L. discriminate.
  - subst span. fold d in Hs. destruct (d =? 0) eqn:D; [reflexivity|]. apply Z.eqb_neq in D. lia.
Qed.
Print Assumptions motion_trigger.
Example motion_trigger_ex : pir_triggered (mkConf true 0 4096 80) 1024 = Ok true /\ pir_triggered (mkConf true 0 4096 20) 1024 = Ok false.
Proof. split; reflexivity. Qed.
(** A 12-bit sensor at full scale reads less than -100 percent; one whose range does not start
    at 0 is far off; and an empty range makes every reading fail. *)
Theorem motion_percent_refuted :
  (exists q, pir_percent (mkConf true 0 4095 80) 4095 = Ok q /\ ~ in_percent q) /\
  (exists q, pir_percent (mkConf true 100 400 80) 400 = Ok q /\ ~ in_percent q) /\
  (forall on a t, pir_percent (mkConf on 0 0 t) a = Err PyZeroDivision).
Proof.
  split; [|split].
  - eexists. split; [reflexivity|]. intros [H _]. vm_compute in H. apply H. reflexivity.
  - eexists. split; [reflexivity|]. intros [H _]. vm_compute in H. apply H. reflexivity.
  - intros. unfold pir_percent, pir_value, adc_mid. cbn. destruct (- a <? 0); destruct a; reflexivity.
Qed.
Print Assumptions motion_percent_refuted.

(** The names of the ranges and what they stand for *)
Definition range_names : list (string * Z) := [("Far", 0); ("Mid", 1); ("Near", 2); ("Custom", 3)].
(** [s] is [name] in any case, with spaces around. *)
Definition spaces (s : string) : Prop := forall c, smem_char c s = true -> is_space c = true.
Definition spells (s name : string) : Prop := exists a m b, spaces a /\ spaces b /\ lower m = lower name /\ s = (a ++ m ++ b)%string.
(** The ranges offered to the user are those the device has a threshold for, and the one in
    force decides the threshold. *)
Theorem motion_ranges : forall m n,
  (In n (ranges m) <-> exists i, In (n, i) range_names /\ i < Z.of_nat (List.length (m_array m))) /\
  forall i, In (n, i) range_names -> m_index m = i ->
    (forall t, nth_error (m_array m) (Z.to_nat i) = Some t -> pir_config m = Ok (mkConf (negb (m_enable m =? 0)) (m_min m) (m_max m) t)) /\
    (nth_error (m_array m) (Z.to_nat i) = None -> pir_config m = Err KKasa).
Proof.
  intros m n. split.
  - unfold ranges. rewrite in_map_iff. split.
    + intros (r & <- & H). apply filter_In in H as [_ H]. apply andb_true_iff in H as [_ H]. apply Z.ltb_lt in H.
      exists (prange_value r). split; [destruct r; cbn; tauto|exact H].
    + intros (i & H & L). cbn in H. decompose [or] H; try contradiction; match goal with E : (_, _) = (_, _) |- _ => injection E as <- <- end;
        [exists Far|exists Mid|exists Near|exists Custom]; (split; [reflexivity|]); apply filter_In; (split; [cbn; tauto|]); cbn [prange_value];
        apply Z.ltb_lt in L; rewrite L; reflexivity.
  - intros i H E. unfold pir_config. rewrite E.
    assert (G : exists r, prange_of i = Ok r /\ prange_value r = i /\ 0 <= i).
    { cbn in H. decompose [or] H; try contradiction; match goal with E : (_, _) = (_, _) |- _ => injection E as <- <- end;
        [exists Far|exists Mid|exists Near|exists Custom]; (split; [reflexivity|split; [reflexivity|lia]]). }
    destruct G as (r & R & V & P). rewrite R. cbn [bind]. unfold get_range_threshold. rewrite V.
    destruct (Z.ltb_spec i 0); [lia|]. cbn [orb]. split.
    + intros t T. assert (L : nth_error (m_array m) (Z.to_nat i) <> None) by congruence. apply nth_error_Some in L.
      destruct (Z.leb_spec (Z.of_nat (List.length (m_array m))) i); [lia|]. rewrite T. reflexivity.
    + intro T. apply nth_error_None in T. destruct (Z.leb_spec (Z.of_nat (List.length (m_array m))) i); [reflexivity|lia].
Qed.
Print Assumptions motion_ranges.
Example motion_ranges_ex : ranges (mkMconf 1 0 4095 2 [80; 50; 20]) = ["Far"; "Mid"; "Near"] /\
  pir_config (mkMconf 1 0 4095 2 [80; 50; 20]) = Ok (mkConf true 0 4095 20) /\ pir_config (mkMconf 1 0 4095 3 [80; 50; 20]) = Err KKasa.
Proof. repeat split. Qed.
Lemma strip_spells : forall a m b, spaces a -> spaces b -> (forall c r, m = String c r -> is_space c = false) -> m <> "" ->
  (forall c r, m = (r ++ String c "")%string -> is_space c = false) -> rstrip (lstrip (a ++ m ++ b)%string) = m.
Proof.
  intros a m b Ha Hb Hf Hm Hl.
  assert (L : lstrip (a ++ m ++ b)%string = (m ++ b)%string).
  { induction a as [|c a IH].
    - destruct m as [|c r]; [contradiction|]. cbn. rewrite (Hf c r eq_refl). reflexivity.
    - cbn. rewrite (Ha c) by (cbn; rewrite Ascii.eqb_refl; reflexivity). apply IH. intros d Hd. apply Ha. cbn. rewrite Hd. apply orb_true_r. }
  rewrite L. clear L Ha Hf a.
  assert (R : rstrip b = "").
  { induction b as [|c b IH]; [reflexivity|]. cbn. rewrite IH by (intros d Hd; apply Hb; cbn; rewrite Hd; apply orb_true_r).
    rewrite (Hb c) by (cbn; rewrite Ascii.eqb_refl; reflexivity). reflexivity. }
  clear Hb. induction m as [|c r IH]; [contradiction|]. cbn. destruct r as [|d r'].
  - cbn. rewrite R. rewrite (Hl c ""%string eq_refl). reflexivity.
  - rewrite IH; [reflexivity|discriminate|]. intros e q E. apply (Hl e (String c q)). rewrite E. reflexivity.
Qed.
Lemma lower_space : forall c, is_space (lower_char c) = is_space c.
Proof. intros [[] [] [] [] [] [] [] []]; reflexivity. Qed.
Lemma upper_lower : forall c, upper_char (lower_char c) = upper_char c.
Proof. intros [[] [] [] [] [] [] [] []]; reflexivity. Qed.
Lemma lower_upper : forall c, lower_char (upper_char c) = lower_char c.
Proof. intros [[] [] [] [] [] [] [] []]; reflexivity. Qed.
Lemma lower_lower : forall s, lower (lower s) = lower s.
Proof.
  assert (H : forall c, lower_char (lower_char c) = lower_char c) by (intros [[] [] [] [] [] [] [] []]; reflexivity).
  induction s as [|c s IH]; [reflexivity|]. cbn. rewrite H. f_equal. exact IH.
Qed.
Lemma capitalize_lower : forall s, capitalize s = capitalize (lower s).
Proof. intros [|c s]; [reflexivity|]. cbn [capitalize lower smap]. rewrite upper_lower. f_equal. symmetry. apply lower_lower. Qed.
Lemma lower_capitalize : forall s, lower (capitalize s) = lower s.
Proof. intros [|c s]; [reflexivity|]. cbn. rewrite lower_upper. f_equal. apply lower_lower. Qed.
Lemma lower_app : forall a b, lower (a ++ b)%string = (lower a ++ lower b)%string.
Proof. induction a as [|c a IH]; intro b; [reflexivity|]. cbn. f_equal. apply IH. Qed.
Lemma lstrip_split : forall s, exists a, spaces a /\ s = (a ++ lstrip s)%string.
Proof.
  induction s as [|c s (a & A & E)]; [exists ""%string; split; [intros c H; discriminate|reflexivity]|]. cbn [lstrip].
  destruct (is_space c) eqn:S.
  - exists (String c a). split; [|cbn; f_equal; exact E]. intros d H. cbn in H. apply orb_true_iff in H as [H|H]; [|exact (A d H)].
    apply Ascii.eqb_eq in H. subst d. exact S.
  - exists ""%string. split; [intros d H; discriminate|reflexivity].
Qed.
Lemma rstrip_split : forall s, exists b, spaces b /\ s = (rstrip s ++ b)%string.
Proof.
  induction s as [|c s (b & B & E)]; [exists ""%string; split; [intros c H; discriminate|reflexivity]|]. cbn [rstrip].
  destruct (rstrip s) as [|d r] eqn:R.
  - destruct (is_space c) eqn:S.
    + exists (String c b). cbn in E. split; [|cbn; f_equal; exact E]. intros d H. cbn in H. apply orb_true_iff in H as [H|H]; [|exact (B d H)].
      apply Ascii.eqb_eq in H. subst d. exact S.
    + exists b. split; [exact B|]. cbn. f_equal. exact E.
  - exists b. split; [exact B|]. cbn. f_equal. exact E.
Qed.
Lemma find_range : forall v r, find (fun x => String.eqb (prange_name x) v) pranges = Some r <-> prange_name r = v.
Proof.
  intros v r. split.
  - intro H. apply find_some in H as [_ H]. apply String.eqb_eq in H. exact H.
  - intros <-. destruct r; reflexivity.
Qed.
Lemma app_snoc_inj : forall a b c d, (a ++ String c "")%string = (b ++ String d "")%string -> c = d.
Proof.
  induction a as [|x a IH]; intros [|y b] c d E; cbn in E.
  - congruence.
  - injection E as _ E. destruct b; discriminate.
  - injection E as _ E. destruct a; discriminate.
  - injection E as _ E. exact (IH b c d E).
Qed.
Lemma range_parsed : forall s r, parse_range s = Ok r <-> spells s (prange_name r).
Proof.
  intros s r. unfold parse_range. split.
  - intro H. destruct (find _ _) as [r'|] eqn:F; [|discriminate]. injection H as ->. apply find_range in F.
    destruct (lstrip_split s) as (a & A & E1). destruct (rstrip_split (lstrip s)) as (b & B & E2).
    exists a, (rstrip (lstrip s)), b. split; [exact A|]. split; [exact B|]. split; [rewrite F; symmetry; apply lower_capitalize|].
    rewrite <- E2. exact E1.
  - intros (a & m & b & A & B & E & ->). rewrite strip_spells; try assumption.
    + rewrite capitalize_lower, E, <- capitalize_lower. destruct r; reflexivity.
    + intros c q ->. rewrite <- lower_space. cbn in E. destruct r; cbn in E; injection E as -> _; reflexivity.
    + intros ->. destruct r; discriminate.
    + intros c q ->. rewrite <- lower_space. rewrite lower_app in E. cbn [lower smap] in E.
      destruct r; cbn in E; [apply (app_snoc_inj _ "fa") in E|apply (app_snoc_inj _ "mi") in E|apply (app_snoc_inj _ "nea") in E|apply (app_snoc_inj _ "custo") in E]; rewrite E; reflexivity.
Qed.
(** Choosing a range by its name, in any case and with spaces around, sends its number;
    anything else is refused and sends nothing. *)
Theorem motion_range_choice : forall reply s,
  (forall n i, In (n, i) range_names -> spells s n -> changes reply (set_range_from_str reply s) "set_trigger_sens" [] [("index", JInt i)]) /\
  ((forall n i, In (n, i) range_names -> ~ spells s n) -> forall log, set_range_from_str reply s log = (log, Err KKasa)).
Proof.
  intros reply s. unfold set_range_from_str, mbind, mlift. split.
  - intros n i H S. assert (R : exists r, prange_name r = n /\ prange_value r = i).
    { cbn in H. decompose [or] H; try contradiction; match goal with E : (_, _) = (_, _) |- _ => injection E as <- <- end;
        [exists Far|exists Mid|exists Near|exists Custom]; split; reflexivity. }
    destruct R as (r & <- & <-). apply range_parsed in S. rewrite S. eexists. split; [|intro log; reflexivity]. chg. 
  - intros H log. destruct (parse_range s) as [r|e] eqn:P.
    + exfalso. apply range_parsed in P. apply (H (prange_name r) (prange_value r)); [destruct r; cbn; tauto|exact P].
    + unfold parse_range in P. destruct (find _ _); [discriminate|]. injection P as <-. reflexivity.
Qed.
Print Assumptions motion_range_choice.
Example motion_range_choice_ex : spells "  nEAR " "Near".
Proof. exists "  "%string, "nEAR"%string, " "%string. repeat split; intros c H; cbn in H; rewrite ?orb_false_r, ?orb_diag in H; apply Ascii.eqb_eq in H; subst c; reflexivity. Qed.
(** A threshold of one's own is stored in the custom range; the other settings send their value. *)
Theorem motion_settings : forall reply t (on : bool),
  (exists i, In ("Custom", i) range_names /\ changes reply (set_threshold reply t) "set_trigger_sens" [] [("index", JInt i); ("value", JInt t)]) /\
  changes reply (set_cold_time reply t) "set_cold_time" [] [("cold_time", JInt t)] /\
  exists e, changes reply (set_pir_enabled reply on) "set_enable" [] [("enable", JInt e)] /\
    forall m c, m_enable m = e -> pir_config m = Ok c -> p_enabled c = on.
Proof.
  intros reply t on. split; [|split].
  - exists 3. split; [cbn; tauto|]. eexists. split; [|intro log; reflexivity]. chg.
  - eexists. split; [|intro log; reflexivity]. chg.
  - eexists. split; [eexists; split; [|intro log; reflexivity]; chg|]. intros m c E P. unfold pir_config in P.
    destruct (prange_of _); [|discriminate]. cbn [bind] in P. destruct (get_range_threshold _ _); [|discriminate]. cbn [bind] in P.
    injection P as <-. cbn [p_enabled]. rewrite E. destruct on; reflexivity.
Qed.
Print Assumptions motion_settings.

(** ** C77 *)
(** The LED as last set is the LED as read back. *)
Theorem led_setting : forall reply on, exists off,
  changes reply (set_led reply on) "set_led_off" [] [("off", JInt off)] /\
  forall sys, dget "led_off" sys = Some (JInt off) -> led sys = Ok on /\ led_mode sys = Ok (if on then "always" else "never").
Proof.
  intros reply on. eexists. split; [eexists; split; [|intro log; reflexivity]; chg|].
  intros sys H. unfold led_mode, led, dindex. rewrite H. destruct on; split; reflexivity.
Qed.
Print Assumptions led_setting.

(** ** C46 *)
(** Two hexadecimal digits, of either case, for a byte *)
Definition upper_digits : string := "0123456789ABCDEF".
Definition lower_digits : string := "0123456789abcdef".
Definition digit_in (digits : string) (c : ascii) (v : Z) : Prop := 0 <= v < 16 /\ String.get (Z.to_nat v) digits = Some c.
Definition digit (c : ascii) (v : Z) : Prop := digit_in upper_digits c v \/ digit_in lower_digits c v.
(** [s] writes the bytes [l] with digits as given, with one of [seps] between them. *)
Inductive writes (dig : ascii -> Z -> Prop) (seps : list string) : string -> list Z -> Prop :=
| w_one : forall c d h l, dig c h -> dig d l -> writes dig seps (String c (String d "")) [16 * h + l]
| w_more : forall c d h l sep s bs, dig c h -> dig d l -> In sep seps -> writes dig seps s bs ->
    writes dig seps (String c (String d (sep ++ s))) (16 * h + l :: bs).
Lemma digit_val : forall c v, digit c v -> hexval c = Some v /\ is_gap c = false /\ Ascii.eqb c "-" = false /\ Ascii.eqb ":" c = false.
Proof.
  intros c v H.
  assert (V : exists n, (n < 16)%nat /\ v = Z.of_nat n /\ (String.get n upper_digits = Some c \/ String.get n lower_digits = Some c)).
  { exists (Z.to_nat v). destruct H as [[H G]|[H G]]; (split; [lia|split; [lia|tauto]]). }
  destruct V as (n & L & -> & G).
  do 16 (destruct n as [|n]; [cbn in G; destruct G as [G|G]; injection G as <-; repeat split; reflexivity|]). lia.
Qed.
Lemma digit_range : forall c v, digit c v -> 0 <= v < 16.
Proof. intros c v [[H _]|[H _]]; exact H. Qed.
Lemma hexchar_digit : forall z, 0 <= z < 16 -> digit_in lower_digits (hexchar z) z.
Proof.
  intros z H. split; [exact H|]. assert (E : exists n, (n < 16)%nat /\ z = Z.of_nat n) by (exists (Z.to_nat z); lia).
  destruct E as (n & L & ->). rewrite Nat2Z.id. do 16 (destruct n as [|n]; [reflexivity|]). lia.
Qed.
Lemma writes_mono : forall (P Q : ascii -> Z -> Prop) seps s bs, (forall c v, P c v -> Q c v) -> writes P seps s bs -> writes Q seps s bs.
Proof. intros P Q seps s bs H W. induction W; econstructor; eauto. Qed.
Lemma writes_bytes : forall seps s bs, writes digit seps s bs -> bs <> [] /\ forall b, In b bs -> 0 <= b < 256.
Proof.
  intros seps s bs W. induction W as [c d h l Hc Hd|c d h l sep s bs Hc Hd _ _ [_ IH]]; (split; [discriminate|]);
    apply digit_range in Hc; apply digit_range in Hd; intros b [<-|H]; try lia; [destruct H|apply IH; exact H].
Qed.
Lemma writes_separated : forall s bs, writes digit [":"; "-"] s bs ->
  writes digit [":"] (dash_to_colon s) bs /\ (smem_char ":" (dash_to_colon s) = true \/ exists b, bs = [b]).
Proof.
  intros s bs W. induction W as [c d h l Hc Hd|c d h l sep s bs Hc Hd Hs W [IH _]];
    destruct (digit_val _ _ Hc) as (_ & _ & C & _), (digit_val _ _ Hd) as (_ & _ & D & _); unfold dash_to_colon; cbn [smap]; rewrite C, D.
  - split; [constructor; assumption|]. right. eexists. reflexivity.
  - assert (E : smap (fun c => if Ascii.eqb c "-" then ":"%char else c) (sep ++ s) = (":" ++ dash_to_colon s)%string).
    { destruct Hs as [<-|[<-|[]]]; reflexivity. }
    rewrite E. split; [apply w_more; try assumption; left; reflexivity|]. left. cbn. rewrite !orb_true_r. reflexivity.
Qed.
Lemma writes_plain : forall s bs, writes digit [""] s bs -> dash_to_colon s = s /\ smem_char ":" s = false /\ fromhex s = Ok bs.
Proof.
  intros s bs W. induction W as [c d h l Hc Hd|c d h l sep s bs Hc Hd Hs W (IH1 & IH2 & IH3)];
    destruct (digit_val _ _ Hc) as (V & G & C & C'), (digit_val _ _ Hd) as (V' & G' & D & D').
  - unfold dash_to_colon. cbn [smap smem_char fromhex]. rewrite C, D, C', D', G, V, V'. repeat split.
  - destruct Hs as [<-|[]]. cbn [append]. unfold dash_to_colon in *. cbn [smap smem_char fromhex].
    rewrite C, D, C', D', G, V, V', IH1, IH2, IH3. repeat split.
Qed.
Lemma concat_writes : forall bs, bs <> [] -> (forall b, In b bs -> 0 <= b < 256) ->
  writes (digit_in lower_digits) [":"] (String.concat ":" (map hex2 bs)) bs.
Proof.
  intros bs. induction bs as [|b bs IH]; intros H B; [contradiction|].
  assert (R : 0 <= b < 256) by (apply B; left; reflexivity).
  pose proof (Z.div_mod b 16 ltac:(lia)) as DM. pose proof (Z.mod_pos_bound b 16 ltac:(lia)) as M.
  assert (D : 0 <= b / 16 < 16) by (split; [apply Z.div_pos; lia|apply Z.div_lt_upper_bound; lia]).
  assert (Hh := hexchar_digit _ D). assert (Hl := hexchar_digit _ M).
  destruct bs as [|b' bs'].
  - change (String.concat ":" (map hex2 [b])) with (String (hexchar (b / 16)) (String (hexchar (b mod 16)) "")).
    rewrite DM at 3. apply w_one; assumption.
  - change (String.concat ":" (map hex2 (b :: b' :: bs'))) with
      (String (hexchar (b / 16)) (String (hexchar (b mod 16)) (":" ++ String.concat ":" (map hex2 (b' :: bs'))))).
    rewrite DM at 3. apply w_more; try assumption; [left; reflexivity|]. apply IH; [discriminate|]. intros x Hx. apply B. right. exact Hx.
Qed.
(** The address in the system info: its "mac", or its "mic_mac" when it has no "mac" *)
Definition raw_mac (sys : dict json) (s : string) : Prop :=
  dget "mac" sys = Some (JStr s) \/ dget "mac" sys = None /\ dget "mic_mac" sys = Some (JStr s).
Lemma mac_raw : forall sys s, raw_mac sys s -> s <> "" -> mac sys =
  (let s := dash_to_colon s in if smem_char ":" s then Ok s else let! l := fromhex s in Ok (String.concat ":" (map hex2 l))).
Proof.
  intros sys s H N. unfold mac. assert (T : truthy (JStr s) = true) by (cbn; destruct (String.eqb_spec s ""); [contradiction|reflexivity]).
  destruct H as [H|[H1 H2]]; [rewrite H|rewrite H1, H2]; rewrite T; reflexivity.
Qed.
(** Whether written with colons, with dashes or with nothing between its bytes, the address is
    reported with colons and denotes the same bytes; its digits are lower case when it was
    written with nothing between them. *)
Theorem mac_partial : forall sys s bs, raw_mac sys s ->
  (writes digit [":"; "-"] s bs -> exists t, mac sys = Ok t /\ writes digit [":"] t bs) /\
  (writes digit [""] s bs -> exists t, mac sys = Ok t /\ writes (digit_in lower_digits) [":"] t bs).
Proof.
  intros sys s bs R. split; intro W.
  - assert (N : s <> "") by (inversion W; discriminate). rewrite (mac_raw _ _ R N). cbv zeta.
    destruct (writes_separated _ _ W) as [W' [C|[b E]]].
    + rewrite C. eexists. split; [reflexivity|exact W'].
    + assert (P : writes digit [""] (dash_to_colon s) bs).
      { subst bs. inversion W'; subst; [constructor; assumption|]. match goal with H : writes _ _ _ [] |- _ => inversion H end. }
      destruct (writes_plain _ _ P) as (E1 & E2 & E3). rewrite E2, E3. cbn [bind]. eexists. split; [reflexivity|].
      destruct (writes_bytes _ _ _ W) as [B1 B2]. eapply writes_mono; [|exact (concat_writes bs B1 B2)]. intros c v H. right. exact H.
  - assert (N : s <> "") by (inversion W; discriminate). rewrite (mac_raw _ _ R N). cbv zeta.
    destruct (writes_plain _ _ W) as (E1 & E2 & E3). rewrite E1, E2, E3. cbn [bind]. eexists. split; [reflexivity|].
    destruct (writes_bytes _ _ _ W) as [B1 B2]. exact (concat_writes bs B1 B2).
Qed.
Print Assumptions mac_partial.
Ltac dig := match goal with |- digit ?c ?v => first [left; split; [lia|reflexivity]|right; split; [lia|reflexivity]] end.
Example mac_ex : writes digit [":"; "-"] "50-C7" [80; 199] /\ writes digit [""] "50C7" [80; 199] /\
  mac [("mac", JStr "50-C7")] = Ok "50:C7" /\ mac [("mic_mac", JStr "50C7")] = Ok "50:c7".
Proof.
  split; [|split; [|split; reflexivity]].
  - apply (w_more digit [":"; "-"] "5" "0" 5 0 "-" "C7" [199]); [dig|dig|right; left; reflexivity|]. apply (w_one digit _ "C" "7" 12 7); dig.
  - apply (w_more digit [""] "5" "0" 5 0 "" "C7" [199]); [dig|dig|left; reflexivity|]. apply (w_one digit _ "C" "7" 12 7); dig.
Qed.
(** No address at all, or an empty one, is a library error. *)
Theorem mac_missing : forall sys, (dget "mac" sys = None -> dget "mic_mac" sys = None -> mac sys = Err KKasa) /\
  (raw_mac sys "" -> mac sys = Err KKasa).
Proof.
  intro sys. unfold mac. split; [intros -> ->; reflexivity|]. intros [->|[-> ->]]; reflexivity.
Qed.
Print Assumptions mac_missing.
(** The same device is reported in upper or lower case depending on the raw format, never in
    upper case when it has only a "mic_mac". *)
Theorem mac_refuted : mac [("mac", JStr "50:C7:BF:00:00:01")] = Ok "50:C7:BF:00:00:01" /\
  mac [("mic_mac", JStr "50C7BF000001")] = Ok "50:c7:bf:00:00:01" /\
  ~ writes (digit_in upper_digits) [":"] "c7" [199].
Proof.
  split; [reflexivity|]. split; [reflexivity|]. intro W. inversion W; subst.
  - match goal with H : digit_in upper_digits "c" _ |- _ => destruct H as [_ H]; rename H into G end.
    destruct (Z.to_nat h) as [|n]; [discriminate|]. do 15 (destruct n as [|n]; [discriminate|]). cbn in G. destruct n; discriminate.
  - match goal with H : writes _ _ _ [] |- _ => inversion H end.
Qed.
Print Assumptions mac_refuted.

(** Legacy lights and dimmers (C40, C41, C42). *)
From Coq Require Import QArith Lia.
From Verif Require Import Base Base_Lemmas Py IotLight_Model.
Open Scope string_scope.
Open Scope list_scope.
Open Scope Z_scope.

(** ** What is said *)
(** The parameters of a command are exactly those listed with a value. *)
Definition has_fields (d : dict arg) (l : list (string * option arg)) : Prop :=
  forall k, dget k d = match dget k l with Some v => v | None => None end.
(** An action sent exactly this one command, and returns what came back. *)
Definition sends (reply : request -> res json) (m : M (list request) json) (s t : string) (l : list (string * option arg)) : Prop :=
  exists d, has_fields d l /\ forall log, m log = (log ++ [mkReq s t d], reply (mkReq s t d)).
(** Where a bulb and a light strip take commands, and what the command is called there. *)
Definition lights_at (b : bulb) : string := match is_strip b with true => "smartlife.iot.lightStrip" | false => "smartlife.iot.smartbulb.lightingservice" end.
Definition lights_by (b : bulb) : string := match is_strip b with true => "set_light_state" | false => "transition_light_state" end.
(** It raised and sent nothing. *)
Definition refuses (m : M (list request) json) : Prop :=
  exists e, (e = KKasa \/ e = PyTypeError \/ e = PyValueError) /\ forall log, m log = (log, Err e).
(** an integer between lo and hi *)
Definition int_in (lo hi : Z) (a : arg) : Prop := exists z, a = AInt z /\ lo <= z <= hi.
Definition opt_ok (P : arg -> Prop) (o : option arg) : Prop := match o with Some a => P a | None => True end.
Definition num_in (lo hi : Z) (a : arg) : Prop := (inject_Z lo <= arg_q a)%Q /\ (arg_q a <= inject_Z hi)%Q.
(** The temperatures a model supports. *)
Definition temp_range (model : string) : Z * Z :=
  let starts l := existsb (fun p => String.prefix p model) l in
  if starts ["LB130"; "LB230"; "KB130"; "KL130"; "KL135"; "KL430"] then (2500, 9000)
  else if starts ["LB120"; "KL120(EU)"] then (2700, 6500)
  else if starts ["KL125"] then (2500, 6500)
  else (2700, 5000).

(** ** Lemmas *)
Lemma ltb_spec a b : ltb_arg a b = true <-> (arg_q a < arg_q b)%Q.
Proof. unfold ltb_arg. rewrite Qlt_alt. destruct (Qcompare _ _); split; congruence. Qed.
Lemma leb_spec a b : leb_arg a b = true <-> (arg_q a <= arg_q b)%Q.
Proof.
  unfold leb_arg. rewrite negb_true_iff. destruct (ltb_arg b a) eqn:E.
  - apply ltb_spec in E. split; [discriminate|]. intro H. exfalso. apply (Qlt_not_le _ _ E H).
  - split; [intros _|reflexivity]. destruct (Qlt_le_dec (arg_q b) (arg_q a)) as [L|L]; [|exact L].
    apply ltb_spec in L. congruence.
Qed.
Lemma leb_int x y : leb_arg (AInt x) (AInt y) = (x <=? y).
Proof.
  destruct (x <=? y) eqn:E.
  - apply Z.leb_le in E. apply leb_spec. cbn. rewrite <- Zle_Qle. exact E.
  - destruct (leb_arg (AInt x) (AInt y)) eqn:F; [|reflexivity]. apply leb_spec in F. cbn in F. rewrite <- Zle_Qle in F.
    apply Z.leb_gt in E. lia.
Qed.
Lemma eqb_int x y : eqb_arg (AInt x) (AInt y) = (x =? y).
Proof.
  unfold eqb_arg. cbn [arg_q]. destruct (x =? y) eqn:E.
  - apply Z.eqb_eq in E. subst. apply Qeq_bool_iff. reflexivity.
  - destruct (Qeq_bool (inject_Z x) (inject_Z y)) eqn:F; [|reflexivity]. apply Qeq_bool_iff in F. unfold Qeq in F. cbn in F.
    apply Z.eqb_neq in E. lia.
Qed.
Lemma int_in_spec lo hi a : is_int a && (leb_arg (AInt lo) a && leb_arg a (AInt hi)) = true <-> int_in lo hi a.
Proof.
  unfold int_in. destruct a as [z|q]; cbn [is_int andb].
  - rewrite !leb_int, andb_true_iff, !Z.leb_le. split; [intro; eauto|intros (z' & [= <-] & H); exact H].
  - split; [discriminate|intros (z & H & _); discriminate].
Qed.
Lemma int_in_no lo hi a : ~ int_in lo hi a -> is_int a = false \/ (is_int a = true /\ leb_arg (AInt lo) a && leb_arg a (AInt hi) = false).
Proof.
  intro H. destruct (is_int a) eqn:E; [right|left; reflexivity]. split; [reflexivity|].
  destruct (leb_arg (AInt lo) a && leb_arg a (AInt hi)) eqn:F; [|reflexivity]. exfalso. apply H, int_in_spec. rewrite E, F. reflexivity.
Qed.
Lemma int_in_dec lo hi a : {int_in lo hi a} + {~ int_in lo hi a}.
Proof.
  destruct (is_int a && (leb_arg (AInt lo) a && leb_arg a (AInt hi))) eqn:E.
  - left. apply int_in_spec, E.
  - right. intro H. apply int_in_spec in H. congruence.
Qed.
Lemma check_ok v : int_in 0 100 v -> check_brightness v = Ok tt.
Proof. intro H. apply int_in_spec in H. apply andb_true_iff in H as [H1 H2]. unfold check_brightness. rewrite H1, H2. reflexivity. Qed.
Lemma check_no v : ~ int_in 0 100 v -> check_brightness v = Err PyTypeError \/ check_brightness v = Err PyValueError.
Proof.
  intro H. unfold check_brightness. destruct (int_in_no _ _ _ H) as [->|[-> ->]]; auto.
Qed.
Lemma only_flags_spec d : only_flags d = true <-> forall k, dget k d <> None -> k = "transition_period" \/ k = "on_off".
Proof.
  unfold only_flags. rewrite forallb_forall. split; intros H k Hk.
  - destruct (dget k d) eqn:E; [|congruence]. apply dget_Some_key in E. apply H, smem_In in E. cbn in E. intuition.
  - apply smem_In. cbn. apply dmem_In in Hk. unfold dmem in Hk. destruct (H k); [destruct (dget k d); [discriminate|discriminate Hk]|auto|auto].
Qed.
Lemma only_flags_no d k : dget k d <> None -> k <> "transition_period" -> k <> "on_off" -> only_flags d = false.
Proof. intros H1 H2 H3. destruct (only_flags d) eqn:E; [|reflexivity]. apply (proj1 (only_flags_spec d)) with (k := k) in E; [|exact H1]. tauto. Qed.

Section P.
Variable reply : request -> res json.

Lemma set_light_state_ok b state t v : 
  opt_ok (int_in 0 100) (dget "brightness" state) ->
  (dget "ignore_default" state = None) ->
  v = (if negb (eqb_arg (match dget "on_off" state with Some x => x | None => AInt 1 end) (AInt 0)) && only_flags state then 0 else 1) ->
  sends reply (set_light_state reply b state t) (light_service b) (light_method b)
    (("ignore_default", Some (AInt v)) :: ("on_off", Some (match dget "on_off" state with Some x => x | None => AInt 1 end)) ::
     match t with Some t => [("transition_period", Some t)] | None => [] end ++ map (fun p => (fst p, Some (snd p))) state).
Proof.
  intros Hb Hi Hv. unfold sends, set_light_state.
  set (st1 := match t with Some t => dset "transition_period" t state | None => state end).
  assert (G1 : forall k, dget k st1 = match t with Some t => if String.eqb k "transition_period" then Some t else dget k state | None => dget k state end).
  { intro k. unfold st1. destruct t; [apply dget_dset|reflexivity]. }
  assert (B1 : dget "brightness" st1 = dget "brightness" state) by (rewrite G1; destruct t; reflexivity).
  assert (O1 : dget "on_off" st1 = dget "on_off" state) by (rewrite G1; destruct t; reflexivity).
  set (st2 := if dmem "on_off" st1 then st1 else dset "on_off" (AInt 1) st1).
  assert (G2 : forall k, dget k st2 = if String.eqb k "on_off" then Some (match dget "on_off" state with Some x => x | None => AInt 1 end) else dget k st1).
  { intro k. unfold st2, dmem. rewrite O1. destruct (dget "on_off" state) as [x|] eqn:E.
    - destruct (String.eqb_spec k "on_off") as [Hk|Hk]; [rewrite Hk, O1; try rewrite E; reflexivity|reflexivity].
    - rewrite dget_dset. reflexivity. }
  assert (F : only_flags st2 = only_flags state).
  { destruct (only_flags state) eqn:E.
    - rewrite only_flags_spec in E. apply only_flags_spec. intros k Hk. rewrite G2, G1 in Hk.
      destruct (String.eqb_spec k "on_off"); [auto|]. destruct t; [destruct (String.eqb_spec k "transition_period"); [auto|]|]; apply E, Hk.
    - destruct (only_flags st2) eqn:E2; [|reflexivity]. rewrite only_flags_spec in E2. exfalso.
      assert (only_flags state = true); [|congruence]. apply only_flags_spec. intros k Hk. apply E2. rewrite G2, G1.
      destruct (String.eqb k "on_off"); [discriminate|]. destruct t; [destruct (String.eqb k "transition_period"); [discriminate|]|]; exact Hk. }
  exists (dset "ignore_default" (AInt v) st2). split.
  - intro k. rewrite dget_dset, G2, G1. cbn [dget].
    destruct (String.eqb k "ignore_default") eqn:Ek; [reflexivity|]. destruct (String.eqb k "on_off") eqn:Ek2; [reflexivity|].
    assert (Mp : forall k, dget k (map (fun p : string * arg => (fst p, Some (snd p))) state) = option_map Some (dget k state)).
    { clear. intro k. induction state as [|[k0 v0] s IH]; [reflexivity|]. cbn. destruct (String.eqb k k0); [reflexivity|exact IH]. }
    destruct t; cbn [app dget].
    + destruct (String.eqb k "transition_period"); [reflexivity|]. rewrite Mp. destruct (dget k state); reflexivity.
    + rewrite Mp. destruct (dget k state); reflexivity.
  - intro log. fold st1. unfold mbind at 1, mlift at 1. rewrite B1.
    assert (Ck : match dget "brightness" state with Some v0 => check_brightness v0 | None => Ok tt end = Ok tt).
    { destruct (dget "brightness" state); [apply check_ok, Hb|reflexivity]. }
    rewrite Ck. fold st2. unfold mbind, mlift, dindex. rewrite G2, seqb_refl. cbv iota zeta.
    rewrite F. rewrite Hv. destruct (negb _ && only_flags state); reflexivity.
Qed.
Lemma set_light_state_no b state t : ~ opt_ok (int_in 0 100) (dget "brightness" state) -> refuses (set_light_state reply b state t).
Proof.
  intro H. unfold set_light_state.
  set (st1 := match t with Some t => dset "transition_period" t state | None => state end).
  assert (B1 : dget "brightness" st1 = dget "brightness" state) by (unfold st1; destruct t; [apply dget_dset_other; discriminate|reflexivity]).
  destruct (dget "brightness" state) as [v|] eqn:E; [|exfalso; apply H; exact I]. cbn [opt_ok] in H.
  destruct (check_no v H) as [C|C]; [exists PyTypeError|exists PyValueError]; (split; [tauto|]); intro log;
    unfold mbind, mlift; rewrite B1, C; reflexivity.
Qed.
End P.

Lemma sends_fields reply m s t l l' : (forall k, match dget k l with Some v => v | None => None end = match dget k l' with Some v => v | None => None end) ->
  sends reply m s t l -> sends reply m s t l'.
Proof. intros H (d & Hd & Hm). exists d. split; [|exact Hm]. intro k. rewrite Hd. apply H. Qed.
Ltac fields := let k := fresh "k" in intro k; cbn [dget dset app map fst snd option_map String.eqb Ascii.eqb Bool.eqb];
  repeat match goal with |- context [String.eqb k ?s] => let E := fresh in destruct (String.eqb k s) eqn:E; [apply String.eqb_eq in E; subst k; reflexivity|] end;
  try reflexivity.

(** ** C41 *)
(** Setting a colour. *)
Lemma hsv_command_lemma : forall reply b h s v t,
  let valid := is_color b = true /\ int_in 0 360 h /\ int_in 0 100 s /\ opt_ok (int_in 0 100) v in
  (valid -> sends reply (set_hsv reply b h s v t) (light_service b) (light_method b)
     [("hue", Some h); ("saturation", Some s); ("color_temp", Some (AInt 0)); ("brightness", v);
      ("transition_period", t); ("on_off", Some (AInt 1)); ("ignore_default", Some (AInt 1))]) /\
  (~ valid -> refuses (set_hsv reply b h s v t)).
Proof.
  intros reply b h s v t valid. subst valid. unfold set_hsv. split.
  - intros (-> & Hh & Hs & Hv). apply int_in_spec in Hh, Hs. apply andb_true_iff in Hh as [H1 H2], Hs as [H3 H4].
    rewrite H1, H2, H3, H4. cbn [negb]. destruct v as [v|]; cbn [opt_ok] in Hv.
    + destruct (set_light_state_ok reply b (dset "brightness" v [("hue", h); ("saturation", s); ("color_temp", AInt 0)]) t 1) as (d & Hd & Hm);
        [cbn; exact Hv|reflexivity|rewrite (only_flags_no _ "hue"); [rewrite andb_false_r; reflexivity|discriminate|discriminate|discriminate]|].
      eapply sends_fields; [|exists d; split; [exact Hd|intro log; unfold mbind, mlift; rewrite (check_ok _ Hv); apply Hm]].
      destruct t; fields.
    + eapply sends_fields; [|apply (set_light_state_ok reply b _ t 1); [exact I|reflexivity|
        rewrite (only_flags_no _ "hue"); [rewrite andb_false_r; reflexivity|discriminate|discriminate|discriminate]]].
      destruct t; fields.
  - intro N. destruct (is_color b); cbn [negb]; [|exists KKasa; split; [tauto|reflexivity]].
    destruct (int_in_dec 0 360 h) as [Hh|Hh].
    2:{ destruct (int_in_no _ _ _ Hh) as [->|[-> ->]]; cbn [negb]; [exists PyTypeError|exists PyValueError]; (split; [tauto|reflexivity]). }
    pose proof Hh as Hh'. apply int_in_spec in Hh'. apply andb_true_iff in Hh' as [-> ->]. cbn [negb].
    destruct (int_in_dec 0 100 s) as [Hs|Hs].
    2:{ destruct (int_in_no _ _ _ Hs) as [->|[-> ->]]; cbn [negb]; [exists PyTypeError|exists PyValueError]; (split; [tauto|reflexivity]). }
    pose proof Hs as Hs'. apply int_in_spec in Hs'. apply andb_true_iff in Hs' as [-> ->]. cbn [negb].
    destruct v as [v|]; [|exfalso; apply N; repeat split; auto; exact I].
    destruct (int_in_dec 0 100 v) as [Hv|Hv]; [exfalso; apply N; cbn; auto|].
    destruct (check_no v Hv) as [C|C]; [exists PyTypeError|exists PyValueError]; (split; [tauto|]); intro log; unfold mbind, mlift; rewrite C; reflexivity.
Qed.
Theorem hsv_command : forall reply b h s v t,
  let valid := is_color b = true /\ int_in 0 360 h /\ int_in 0 100 s /\ opt_ok (int_in 0 100) v in
  (valid -> sends reply (set_hsv reply b h s v t) (lights_at b) (lights_by b)
     [("hue", Some h); ("saturation", Some s); ("color_temp", Some (AInt 0)); ("brightness", v);
      ("transition_period", t); ("on_off", Some (AInt 1)); ("ignore_default", Some (AInt 1))]) /\
  (~ valid -> refuses (set_hsv reply b h s v t)).
Proof. exact hsv_command_lemma. Qed.
Print Assumptions hsv_command.
Example hsv_command_ex : is_color (mkBulb true true true "KL130(EU)" false) = true /\ int_in 0 360 (AInt 360) /\ int_in 0 100 (AInt 0) /\ opt_ok (int_in 0 100) None.
Proof. repeat split; try (eexists; split; [reflexivity|lia]). Qed.

(** The table of models is as documented. *)
Lemma range_spec b : is_variable b = true -> valid_temperature_range b = Ok (temp_range (model b)).
Proof.
  intro H. unfold valid_temperature_range, temp_range, kelvin. rewrite H. cbn [negb find fst existsb].
  assert (Ex : forall p q s, String.prefix p s = true -> String.prefix q s = true -> String.length p = String.length q -> p = q).
  { clear. intro p. induction p as [|a p IH]; intros [|c q] s Hp Hq Hl; try reflexivity; try discriminate.
    destruct s as [|d s]; [discriminate|]. cbn in Hp, Hq. destruct (ascii_dec a d) as [->|]; [|discriminate].
    destruct (ascii_dec c d) as [->|]; [|discriminate]. f_equal. eapply IH; eauto. }
  assert (Sh : forall p q s, String.prefix (p ++ q)%string s = true -> String.prefix p s = true).
  { clear. intro p. induction p as [|a p IH]; intros q s Hp; [destruct s; reflexivity|].
    destruct s as [|d s]; [discriminate|]. cbn in Hp |- *. destruct (ascii_dec a d); [|discriminate]. eapply IH; eauto. }
  destruct (String.prefix "LB130" (model b)) eqn:E1; [reflexivity|].
  destruct (String.prefix "LB120" (model b)) eqn:E2.
  { assert (N : forall q, String.length q = 5%nat -> q <> "LB120" -> String.prefix q (model b) = false).
    { intros q Hl Hq. destruct (String.prefix q (model b)) eqn:E; [|reflexivity]. exfalso. apply Hq. exact (Ex _ _ _ E E2 Hl). }
    rewrite !(N "LB230"), !(N "KB130"), !(N "KL130"), !(N "KL135"), !(N "KL430") by (reflexivity || discriminate). reflexivity. }
  destruct (String.prefix "LB230" (model b)) eqn:E3; [reflexivity|].
  destruct (String.prefix "KB130" (model b)) eqn:E4; [reflexivity|].
  destruct (String.prefix "KL130" (model b)) eqn:E5; [reflexivity|].
  destruct (String.prefix "KL125" (model b)) eqn:E6.
  { assert (N : forall q, String.length q = 5%nat -> q <> "KL125" -> String.prefix q (model b) = false).
    { intros q Hl Hq. destruct (String.prefix q (model b)) eqn:E; [|reflexivity]. exfalso. apply Hq. exact (Ex _ _ _ E E6 Hl). }
    rewrite !(N "KL135"), !(N "KL430") by (reflexivity || discriminate). cbn [orb].
    assert (M1 : String.prefix "KL120(EU)" (model b) = false).
    { destruct (String.prefix "KL120(EU)" (model b)) eqn:E; [|reflexivity]. apply (Sh "KL120" "(EU)") in E.
      rewrite (N "KL120") in E by (reflexivity || discriminate). discriminate. }
    rewrite M1. reflexivity. }
  destruct (String.prefix "KL135" (model b)) eqn:E7; [reflexivity|].
  destruct (String.prefix "KL120(EU)" (model b)) eqn:E8.
  { apply (Sh "KL120" "(EU)") in E8.
    assert (M1 : String.prefix "KL430" (model b) = false).
    { destruct (String.prefix "KL430" (model b)) eqn:E; [|reflexivity]. discriminate (Ex _ _ _ E E8 eq_refl). }
    rewrite M1. reflexivity. }
  destruct (String.prefix "KL120(US)" (model b)) eqn:E9.
  { apply (Sh "KL120" "(US)") in E9.
    assert (M1 : String.prefix "KL430" (model b) = false).
    { destruct (String.prefix "KL430" (model b)) eqn:E; [|reflexivity]. discriminate (Ex _ _ _ E E9 eq_refl). }
    rewrite M1. reflexivity. }
  destruct (String.prefix "KL430" (model b)); reflexivity.
Qed.
(** Setting a temperature. *)
Lemma temperature_command_lemma : forall reply b temp v t,
  let (lo, hi) := temp_range (model b) in
  let valid := is_variable b = true /\ num_in lo hi temp /\ opt_ok (int_in 0 100) v in
  (valid -> sends reply (set_color_temp reply b temp v t) (light_service b) (light_method b)
     [("color_temp", Some temp); ("brightness", v); ("transition_period", t); ("on_off", Some (AInt 1)); ("ignore_default", Some (AInt 1))]) /\
  (~ valid -> refuses (set_color_temp reply b temp v t)).
Proof.
  intros reply b temp v t. destruct (temp_range (model b)) as [lo hi] eqn:R. intro valid; subst valid.
  assert (Num : ltb_arg temp (AInt lo) || ltb_arg (AInt hi) temp = false <-> num_in lo hi temp).
  { rewrite orb_false_iff. unfold num_in. pose proof (leb_spec (AInt lo) temp) as L1. pose proof (leb_spec temp (AInt hi)) as L2.
    unfold leb_arg in L1, L2. rewrite negb_true_iff in L1, L2. cbn [arg_q] in L1, L2. rewrite L1, L2. reflexivity. }
  unfold set_color_temp. split.
  - intros (Hv & Hn & Hb). pose proof (range_spec b Hv) as Rg. rewrite R in Rg. rewrite Hv. cbn [negb]. apply Num in Hn.
    destruct v as [v|]; cbn [opt_ok] in Hb.
    + destruct (set_light_state_ok reply b (dset "brightness" v [("color_temp", temp)]) t 1) as (d & Hd & Hm);
        [cbn; exact Hb|reflexivity|rewrite (only_flags_no _ "color_temp"); [rewrite andb_false_r; reflexivity|discriminate|discriminate|discriminate]|].
      eapply sends_fields; [|exists d; split; [exact Hd|intro log; unfold mbind, mlift; rewrite Rg; cbn [fst snd]; rewrite Hn; apply Hm]].
      destruct t; fields.
    + destruct (set_light_state_ok reply b [("color_temp", temp)] t 1) as (d & Hd & Hm);
        [exact I|reflexivity|rewrite (only_flags_no _ "color_temp"); [rewrite andb_false_r; reflexivity|discriminate|discriminate|discriminate]|].
      eapply sends_fields; [|exists d; split; [exact Hd|intro log; unfold mbind, mlift; rewrite Rg; cbn [fst snd]; rewrite Hn; apply Hm]].
      destruct t; fields.
  - intro N. destruct (is_variable b) eqn:Hv; cbn [negb]; [|exists KKasa; split; [tauto|reflexivity]].
    pose proof (range_spec b Hv) as Rg. rewrite R in Rg.
    destruct (ltb_arg temp (AInt lo) || ltb_arg (AInt hi) temp) eqn:E.
    + exists PyValueError. split; [tauto|]. intro log. unfold mbind, mlift. rewrite Rg. cbn [fst snd]. rewrite E. reflexivity.
    + destruct v as [v|]; [|exfalso; apply N; split; [reflexivity|]; split; [apply Num; reflexivity|exact I]].
      assert (Hb : ~ opt_ok (int_in 0 100) (dget "brightness" (dset "brightness" v [("color_temp", temp)]))).
      { rewrite dget_dset_same. intro Hb. apply N. split; [reflexivity|]. split; [apply Num; reflexivity|exact Hb]. }
      destruct (set_light_state_no reply b _ t Hb) as (e & He & Hm). exists e. split; [exact He|].
      intro log. unfold mbind at 1, mlift at 1. rewrite Rg. cbn [fst snd]. rewrite E. apply Hm.
Qed.
Theorem temperature_command : forall reply b temp v t,
  let (lo, hi) := temp_range (model b) in
  let valid := is_variable b = true /\ num_in lo hi temp /\ opt_ok (int_in 0 100) v in
  (valid -> sends reply (set_color_temp reply b temp v t) (lights_at b) (lights_by b)
     [("color_temp", Some temp); ("brightness", v); ("transition_period", t); ("on_off", Some (AInt 1)); ("ignore_default", Some (AInt 1))]) /\
  (~ valid -> refuses (set_color_temp reply b temp v t)).
Proof. exact temperature_command_lemma. Qed.
Print Assumptions temperature_command.
Example temperature_command_ex : temp_range "KL120(US)" = (2700, 5000) /\ num_in 2700 5000 (AInt 5000) /\ ~ num_in 2700 5000 (AInt 5001).
Proof. split; [reflexivity|]. split; [split; discriminate|]. intros [_ H]. apply H. reflexivity. Qed.

(** ** C42, bulbs *)
Lemma eqb_zero v : eqb_arg v (AInt 0) = true -> v = AInt 0 \/ is_int v = false.
Proof. destruct v as [z|q]; [rewrite eqb_int; intro H; apply Z.eqb_eq in H; subst; auto|auto]. Qed.
(** Setting a state sends one command: off when brightness is zero or light_on false;
    otherwise on, with the fields that are set and no others. *)
Lemma bulb_state_lemma : forall reply b s,
  let zero := match brightness s with Some v => eqb_arg v (AInt 0) | None => false end in
  let off := zero || match light_on s with Some false => true | _ => false end in
  let rest := [("hue", hue s); ("saturation", saturation s); ("color_temp", color_temp s); ("transition_period", transition s);
               ("on_off", Some (AInt (if off then 0 else 1)))] in
  (zero = true \/ opt_ok (int_in 0 100) (brightness s) ->
   exists i, (i = 0 <-> off = false /\ brightness s = None /\ hue s = None /\ saturation s = None /\ color_temp s = None) /\ (i = 0 \/ i = 1) /\
    sends reply (bulb_set_state reply b s) (light_service b) (light_method b)
     (("brightness", if zero then None else brightness s) :: ("ignore_default", Some (AInt i)) :: rest)) /\
  (zero = false -> ~ opt_ok (int_in 0 100) (brightness s) -> refuses (bulb_set_state reply b s)).
Proof.
  intros reply b [l v h s c t] zero off rest. cbn [light_on brightness hue saturation color_temp transition] in *.
  set (d1 := dset "on_off" (match l with None => AInt 1 | Some l => b2i l end)
     (ddel "transition" (put "light_on" (option_map b2i l) (put "brightness" v (put "hue" h (put "saturation" s (put "color_temp" c (put "transition" t []))))))) : dict arg).
  assert (Gput : forall k k' o d, dget k (put k' o d) = if String.eqb k k' then match o with Some x => Some x | None => dget k d end else dget k d).
  { intros k k' o d. unfold put. destruct o; [apply dget_dset|destruct (String.eqb k k'); reflexivity]. }
  set (d2 := match dget "brightness" d1 with
     | Some w => if eqb_arg w (AInt 0) then ddel "brightness" (dset "on_off" (AInt 0) d1)
                 else dset "on_off" (match l with None => AInt 1 | Some l => b2i l end) d1
     | None => dset "on_off" (match l with None => AInt 1 | Some l => b2i l end) d1 end).
  assert (B1 : dget "brightness" d1 = v).
  { unfold d1. rewrite dget_dset_other, dget_ddel, !Gput by discriminate. cbn [String.eqb Ascii.eqb Bool.eqb]. destruct v; [reflexivity|]. cbn. reflexivity. }
  assert (G : forall k, dget k (ddel "light_on" d2) =
     if String.eqb k "on_off" then Some (AInt (if off then 0 else 1))
     else if String.eqb k "brightness" then (if zero then None else v)
     else if String.eqb k "hue" then h else if String.eqb k "saturation" then s else if String.eqb k "color_temp" then c else None).
  { intro k. rewrite dget_ddel. unfold d2. rewrite B1.
    assert (G1 : forall k, k <> "on_off" -> k <> "transition" -> k <> "light_on" -> dget k d1 =
       if String.eqb k "brightness" then v else if String.eqb k "hue" then h else if String.eqb k "saturation" then s else if String.eqb k "color_temp" then c else None).
    { clear - Gput. intros k H1 H2 H3. unfold d1. rewrite dget_dset_other by exact H1. rewrite dget_ddel, !Gput.
      rewrite (seqb_neq _ _ H2), (seqb_neq _ _ H3). cbn [dget].
      destruct (String.eqb_spec k "brightness") as [->|]; [destruct v; reflexivity|].
      destruct (String.eqb_spec k "hue") as [->|]; [destruct h; reflexivity|].
      destruct (String.eqb_spec k "saturation") as [->|]; [destruct s; reflexivity|].
      destruct (String.eqb_spec k "color_temp") as [->|]; [destruct c; reflexivity|]. reflexivity. }
    assert (G2 : dget "transition" d1 = None) by (unfold d1; rewrite dget_dset_other, dget_ddel by discriminate; reflexivity).
    destruct (String.eqb_spec k "light_on") as [->|N1]; [reflexivity|].
    assert (E0 : dget k d1 = if String.eqb k "on_off" then Some (match l with None => AInt 1 | Some l => b2i l end)
       else if String.eqb k "brightness" then v else if String.eqb k "hue" then h else if String.eqb k "saturation" then s else if String.eqb k "color_temp" then c else None).
    { destruct (String.eqb_spec k "on_off") as [->|N2]; [unfold d1; apply dget_dset_same|].
      destruct (String.eqb_spec k "transition") as [->|N3]; [exact G2|]. apply G1; assumption. }
    assert (Hoff : zero = false -> (match l with None => AInt 1 | Some l => b2i l end) = AInt (if off then 0 else 1)).
    { intro Z0. unfold off. rewrite Z0. destruct l as [[]|]; reflexivity. }
    unfold zero, off in *. destruct v as [w|].
    - destruct (eqb_arg w (AInt 0)) eqn:Ez.
      + rewrite dget_ddel, dget_dset, E0. destruct (String.eqb_spec k "brightness") as [->|]; [reflexivity|].
        destruct (String.eqb k "on_off"); reflexivity.
      + rewrite dget_dset, E0, (Hoff eq_refl). destruct (String.eqb k "on_off"); reflexivity.
    - rewrite dget_dset, E0, (Hoff eq_refl). destruct (String.eqb k "on_off"); reflexivity. }
  assert (Eq : forall log, bulb_set_state reply b (mkLight l v h s c t) log = set_light_state reply b (ddel "light_on" d2) t log) by reflexivity.
  split.
  - intro Hv.
    set (i := if negb off && only_flags (ddel "light_on" d2) then 0 else 1).
    assert (Hi : i = 0 <-> off = false /\ v = None /\ h = None /\ s = None /\ c = None).
    { unfold i. destruct off eqn:Eo; cbn [negb andb].
      - split; [discriminate|intros [H _]; discriminate].
      - assert (Hz : zero = false) by (unfold off in Eo; apply orb_false_iff in Eo; apply Eo).
        destruct (only_flags (ddel "light_on" d2)) eqn:Ef.
        + split; [|reflexivity]. intros _. split; [reflexivity|]. rewrite only_flags_spec in Ef.
          pose proof (Ef "brightness") as F1. pose proof (Ef "hue") as F2. pose proof (Ef "saturation") as F3. pose proof (Ef "color_temp") as F4.
          rewrite G in F1, F2, F3, F4. cbn [String.eqb Ascii.eqb Bool.eqb] in F1, F2, F3, F4. rewrite Hz in F1.
          repeat split; [destruct v|destruct h|destruct s|destruct c]; try reflexivity; exfalso;
            [destruct F1|destruct F2|destruct F3|destruct F4]; discriminate.
        + split; [discriminate|]. intros (_ & -> & -> & -> & ->). exfalso.
          assert (only_flags (ddel "light_on" d2) = true); [|congruence]. apply only_flags_spec. intros k Hk. rewrite G, Hz in Hk.
          destruct (String.eqb_spec k "on_off"); [auto|]. exfalso. apply Hk.
          repeat match goal with |- context [String.eqb k ?x] => destruct (String.eqb k x) end; reflexivity. }
    exists i. split; [exact Hi|]. split; [unfold i; destruct (negb off && _); auto|].
    destruct (set_light_state_ok reply b (ddel "light_on" d2) t i) as (d & Hd & Hm).
    + rewrite G. cbn [String.eqb Ascii.eqb Bool.eqb]. destruct Hv as [->|Hv]; [exact I|]. destruct zero; [exact I|exact Hv].
    + rewrite G. reflexivity.
    + rewrite G. cbn [String.eqb Ascii.eqb Bool.eqb]. unfold i. rewrite eqb_int. destruct off; reflexivity.
    + exists d. split; [|intro log; rewrite Eq; apply Hm]. intro k. rewrite Hd. unfold rest. cbn [dget app].
      assert (Mp : forall d0 : dict arg, dget k (map (fun p : string * arg => (fst p, Some (snd p))) d0) = option_map Some (dget k d0)).
      { clear. intro d0. induction d0 as [|[k0 v0] s0 IH]; [reflexivity|]. cbn. destruct (String.eqb k k0); [reflexivity|exact IH]. }
      destruct (String.eqb_spec k "ignore_default") as [->|Ni]; [destruct zero; reflexivity|].
      destruct (String.eqb_spec k "on_off") as [->|No]; [rewrite G; reflexivity|].
      destruct (String.eqb_spec k "transition_period") as [->|Nt].
      * destruct t; [reflexivity|]. cbn [app dget]. rewrite Mp, G. reflexivity.
      * assert (Ht : dget k (match t with Some t0 => [("transition_period", Some t0)] | None => [] end ++ map (fun p : string * arg => (fst p, Some (snd p))) (ddel "light_on" d2)) = option_map Some (dget k (ddel "light_on" d2))).
        { destruct t; cbn [app dget]; [rewrite (seqb_neq _ _ Nt)|]; apply Mp. }
        rewrite Ht, G. rewrite (seqb_neq _ _ No).
        destruct (String.eqb k "brightness"); [destruct zero; [reflexivity|destruct v; reflexivity]|].
        destruct (String.eqb k "hue"); [destruct h; reflexivity|]. destruct (String.eqb k "saturation"); [destruct s; reflexivity|].
        destruct (String.eqb k "color_temp"); [destruct c; reflexivity|]. reflexivity.
  - intros Hz Hv. destruct (set_light_state_no reply b (ddel "light_on" d2) t) as (e & He & Hm).
    + rewrite G, Hz. cbn [String.eqb Ascii.eqb Bool.eqb]. exact Hv.
    + exists e. split; [exact He|]. intro log. rewrite Eq. apply Hm.
Qed.
Theorem bulb_state : forall reply b s,
  let zero := match brightness s with Some v => Qeq_bool (arg_q v) 0 | None => false end in
  let off := zero || match light_on s with Some false => true | _ => false end in
  let rest := [("hue", hue s); ("saturation", saturation s); ("color_temp", color_temp s); ("transition_period", transition s);
               ("on_off", Some (AInt (if off then 0 else 1)))] in
  (zero = true \/ opt_ok (int_in 0 100) (brightness s) ->
   exists i, (i = 0 <-> off = false /\ brightness s = None /\ hue s = None /\ saturation s = None /\ color_temp s = None) /\ (i = 0 \/ i = 1) /\
    sends reply (bulb_set_state reply b s) (lights_at b) (lights_by b)
     (("brightness", if zero then None else brightness s) :: ("ignore_default", Some (AInt i)) :: rest)) /\
  (zero = false -> ~ opt_ok (int_in 0 100) (brightness s) -> refuses (bulb_set_state reply b s)).
Proof. exact bulb_state_lemma. Qed.
Print Assumptions bulb_state.
Example bulb_state_ex : 
  let b := mkBulb true true true "KL130(EU)" false in let r := fun _ => Ok JNull in
  fst (bulb_set_state r b (mkLight (Some true) (Some (AInt 0)) (Some (AInt 5)) None None None) []) =
    [mkReq "smartlife.iot.smartbulb.lightingservice" "transition_light_state" [("hue", AInt 5); ("on_off", AInt 0); ("ignore_default", AInt 1)]]
  /\ fst (bulb_set_state r b (mkLight None (Some (AInt 101)) None None None None) []) = [].
Proof. split; reflexivity. Qed.

(** Switching and brightness. *)
Lemma turn_command_lemma : forall reply b on t,
  sends reply (bulb_turn reply b on t) (light_service b) (light_method b)
    [("on_off", Some (AInt (if on then 1 else 0))); ("transition_period", t); ("ignore_default", Some (AInt (if on then 0 else 1)))].
Proof.
  intros reply b on t. unfold bulb_turn.
  eapply sends_fields; [|apply (set_light_state_ok reply b _ t (if on then 0 else 1)); [exact I|reflexivity|destruct on; reflexivity]].
  destruct t, on; fields.
Qed.
Theorem turn_command : forall reply b on t,
  sends reply (bulb_turn reply b on t) (lights_at b) (lights_by b)
    [("on_off", Some (AInt (if on then 1 else 0))); ("transition_period", t); ("ignore_default", Some (AInt (if on then 0 else 1)))].
Proof. exact turn_command_lemma. Qed.
Print Assumptions turn_command.
Lemma brightness_command_lemma : forall reply b v t,
  (eqb_arg v (AInt 0) = true -> sends reply (bulb_set_brightness reply b v t) (light_service b) (light_method b)
     [("on_off", Some (AInt 0)); ("transition_period", t); ("ignore_default", Some (AInt 1))]) /\
  (int_in 1 100 v -> sends reply (bulb_set_brightness reply b v t) (light_service b) (light_method b)
     [("brightness", Some v); ("on_off", Some (AInt 1)); ("transition_period", t); ("ignore_default", Some (AInt 1))]) /\
  (eqb_arg v (AInt 0) = false -> ~ int_in 1 100 v -> refuses (bulb_set_brightness reply b v t)).
Proof.
  intros reply b v t. pose proof (bulb_state_lemma reply b (mkLight None (Some v) None None None t)) as H.
  cbn [light_on brightness hue saturation color_temp transition opt_ok] in H. fold (bulb_set_brightness reply b v t) in H. split; [|split].
  - intro Z0. rewrite Z0 in H. cbn [orb] in H. destruct H as [H _]. destruct (H (or_introl eq_refl)) as (i & Hi & Hr & Hs).
    assert (i = 1). { destruct Hr as [->|]; [|assumption]. destruct Hi as [Hi _]. destruct (Hi eq_refl). discriminate. } subst i.
    eapply sends_fields; [|exact Hs]. destruct t; fields.
  - intros (z & -> & Hz). rewrite eqb_int in H. replace (z =? 0) with false in H by (symmetry; apply Z.eqb_neq; lia). cbn [orb] in H.
    destruct H as [H _]. destruct H as (i & Hi & Hr & Hs); [right; exists z; split; [reflexivity|lia]|].
    assert (i = 1). { destruct Hr as [->|]; [|assumption]. destruct Hi as [Hi _]. destruct (Hi eq_refl) as (_ & Hb & _). discriminate. } subst i.
    eapply sends_fields; [|exact Hs]. destruct t; fields.
  - intros Z0 N. rewrite Z0 in H. destruct H as [_ H]. apply H; [reflexivity|]. intros (z & -> & Hz). apply N. exists z. split; [reflexivity|].
    rewrite eqb_int in Z0. apply Z.eqb_neq in Z0. lia.
Qed.
Theorem brightness_command : forall reply b v t,
  (Qeq_bool (arg_q v) 0 = true -> sends reply (bulb_set_brightness reply b v t) (lights_at b) (lights_by b)
     [("on_off", Some (AInt 0)); ("transition_period", t); ("ignore_default", Some (AInt 1))]) /\
  (int_in 1 100 v -> sends reply (bulb_set_brightness reply b v t) (lights_at b) (lights_by b)
     [("brightness", Some v); ("on_off", Some (AInt 1)); ("transition_period", t); ("ignore_default", Some (AInt 1))]) /\
  (Qeq_bool (arg_q v) 0 = false -> ~ int_in 1 100 v -> refuses (bulb_set_brightness reply b v t)).
Proof. exact brightness_command_lemma. Qed.
Print Assumptions brightness_command.
Example brightness_command_ex : int_in 1 100 (AInt 100) /\ ~ int_in 1 100 (AInt 101).
Proof. split; [eexists; split; [reflexivity|lia]|]. intros (z & [= <-] & H). lia. Qed.

(** But setting a whole state checks the brightness only: any hue, saturation and
    temperature go to any bulb, coloured or not. *)
Theorem state_unchecked_refuted : forall reply b h s c,
  exists d, (forall log, bulb_set_state reply b (mkLight None None (Some h) (Some s) (Some c) None) log =
                         (log ++ [mkReq (lights_at b) (lights_by b) d], reply (mkReq (lights_at b) (lights_by b) d))) /\
            dget "hue" d = Some h /\ dget "saturation" d = Some s /\ dget "color_temp" d = Some c.
Proof.
  intros reply b h s c. destruct (bulb_state reply b (mkLight None None (Some h) (Some s) (Some c) None)) as [H _].
  destruct (H (or_intror I)) as (i & _ & _ & d & Hd & Hm). exists d. split; [exact Hm|].
  rewrite (Hd "hue"), (Hd "saturation"), (Hd "color_temp"). repeat split; reflexivity.
Qed.
Print Assumptions state_unchecked_refuted.

(** ** C40 and C42, dimmers *)
Definition pos_int (a : arg) : Prop := exists z, a = AInt z /\ 0 < z.
(** What is sent for a transition time: zero becomes one. *)
Definition duration (t : arg) : arg := if Qeq_bool (arg_q t) 0 then AInt 1 else t.
Definition time_ok (t : arg) : Prop := pos_int (duration t).

Theorem dimmer_transition : forall reply v t,
  (int_in 0 100 v /\ time_ok t -> sends reply (set_dimmer_transition reply v t) "smartlife.iot.dimmer" "set_dimmer_transition"
     [("brightness", Some v); ("duration", Some (duration t))]) /\
  (~ (int_in 0 100 v /\ time_ok t) -> refuses (set_dimmer_transition reply v t)).
Proof.
  intros reply v t. unfold set_dimmer_transition. change (if eqb_arg t (AInt 0) then AInt 1 else t) with (duration t). unfold time_ok. generalize (duration t) as u. intro u.
  assert (Pos : pos_int u <-> is_int u = true /\ leb_arg u (AInt 0) = false).
  { unfold pos_int. destruct u as [z|q]; cbn [is_int].
    - rewrite leb_int, Z.leb_gt. split; [intros (z' & [= <-] & H); auto|intros [_ H]; eauto].
    - split; [intros (z & H & _); discriminate|intros [H _]; discriminate]. }
  split.
  - intros [Hv Ht]. apply int_in_spec in Hv. apply andb_true_iff in Hv as [-> ->]. apply Pos in Ht as [-> ->].
    exists [("brightness", v); ("duration", u)]. split; [fields|]. reflexivity.
  - intro N. destruct (int_in_dec 0 100 v) as [Hv|Hv].
    + pose proof Hv as Hv'. apply int_in_spec in Hv'. apply andb_true_iff in Hv' as [-> ->]. cbn [negb].
      destruct (is_int u) eqn:E1; cbn [negb]; [|exists PyTypeError; split; [tauto|reflexivity]].
      destruct (leb_arg u (AInt 0)) eqn:E2; [exists PyValueError; split; [tauto|reflexivity]|].
      exfalso. apply N. split; [exact Hv|]. apply Pos. auto.
    + destruct (int_in_no _ _ _ Hv) as [->|[-> ->]]; cbn [negb]; [exists PyTypeError|exists PyValueError]; (split; [tauto|reflexivity]).
Qed.
Print Assumptions dimmer_transition.
Example dimmer_transition_ex : time_ok (AInt 0) /\ ~ time_ok (AInt (-1)) /\ ~ time_ok (ANum (1 # 2)).
Proof. repeat split; [exists 1; split; [reflexivity|lia]| |]; intros (z & H & Hz); [injection H as <-; lia|discriminate]. Qed.

(** The brightness setter: always between 1 and 100, zero sent as one. *)
Theorem dimmer_brightness : forall reply n v t,
  let valid := int_in 0 100 v /\ opt_ok time_ok t in
  let sent := if Qeq_bool (arg_q v) 0 then AInt 1 else v in
  (valid -> int_in 1 100 sent /\
     match t with
     | None => sends reply (dimmer_set_brightness reply (Some n) v t) "smartlife.iot.dimmer" "set_brightness" [("brightness", Some sent)]
     | Some t' => sends reply (dimmer_set_brightness reply (Some n) v t) "smartlife.iot.dimmer" "set_dimmer_transition"
                    [("brightness", Some sent); ("duration", Some (duration t'))]
     end) /\
  (~ valid -> refuses (dimmer_set_brightness reply (Some n) v t)) /\
  refuses (dimmer_set_brightness reply None v t).
Proof.
  intros reply n v t valid sent.
  assert (S : int_in 0 100 v -> int_in 1 100 sent).
  { intros (z & -> & Hz). unfold sent. change (Qeq_bool (arg_q (AInt z)) 0) with (eqb_arg (AInt z) (AInt 0)). rewrite eqb_int. destruct (Z.eqb_spec z 0); [exists 1|exists z]; (split; [reflexivity|lia]). }
  unfold valid, dimmer_set_brightness. split; [|split].
  - intros [Hv Ht]. split; [auto|]. pose proof Hv as Hv'. apply int_in_spec in Hv'. apply andb_true_iff in Hv' as [-> ->]. cbn [negb].
    change (if eqb_arg v (AInt 0) then AInt 1 else v) with sent. destruct t as [t|].
    + apply dimmer_transition. destruct (S Hv) as (z & -> & Hz). split; [exists z; split; [reflexivity|lia]|exact Ht].
    + exists [("brightness", sent)]. split; [fields|reflexivity].
  - intro N. destruct (int_in_dec 0 100 v) as [Hv|Hv].
    + pose proof Hv as Hv'. apply int_in_spec in Hv'. apply andb_true_iff in Hv' as [-> ->]. cbn [negb]. change (if eqb_arg v (AInt 0) then AInt 1 else v) with sent.
      destruct t as [t|]; [|exfalso; apply N; split; [exact Hv|exact I]].
      apply dimmer_transition. intros [_ Ht]. apply N. split; assumption.
    + destruct (int_in_no _ _ _ Hv) as [->|[-> ->]]; cbn [negb]; exists PyValueError; (split; [tauto|reflexivity]).
  - exists KKasa. split; [tauto|reflexivity].
Qed.
Print Assumptions dimmer_brightness.
Example dimmer_brightness_ex : fst (dimmer_set_brightness (fun _ => Ok JNull) (Some 40) (AInt 0) None []) =
  [mkReq "smartlife.iot.dimmer" "set_brightness" [("brightness", AInt 1)]].
Proof. reflexivity. Qed.

(** Setting a state: off with one command when brightness is zero or light_on false. *)
Definition wants_off (s : light_state) : Prop :=
  light_on s = Some false \/ exists v, brightness s = Some v /\ Qeq_bool (arg_q v) 0 = true.
Lemma wants_off_spec s : match brightness s with Some v => eqb_arg v (AInt 0) | None => false end || match light_on s with Some false => true | _ => false end = true <-> wants_off s.
Proof.
  unfold wants_off. rewrite orb_true_iff. split.
  - intros [H|H]; [right; destruct (brightness s); [eauto|discriminate]|left; destruct (light_on s) as [[]|]; congruence].
  - intros [->|(v & -> & H)]; auto.
Qed.
Theorem dimmer_off : forall reply n s, wants_off s ->
  match transition s with
  | None => sends reply (dimmer_set_state reply n s) "system" "set_relay_state" [("state", Some (AInt 0))]
  | Some t => (time_ok t -> sends reply (dimmer_set_state reply n s) "smartlife.iot.dimmer" "set_dimmer_transition"
                              [("brightness", Some (AInt 0)); ("duration", Some (duration t))]) /\
              (~ time_ok t -> refuses (dimmer_set_state reply n s))
  end.
Proof.
  intros reply n s H. apply wants_off_spec in H. unfold dimmer_set_state. rewrite H. unfold dimmer_turn_off.
  destruct (transition s) as [t|].
  - destruct (dimmer_transition reply (AInt 0) t) as [H1 H2]. split.
    + intro Ht. apply H1. split; [exists 0; split; [reflexivity|lia]|exact Ht].
    + intro Ht. apply H2. tauto.
  - exists [("state", AInt 0)]. split; [fields|reflexivity].
Qed.
Print Assumptions dimmer_off.
(** Otherwise with the brightness asked for, or on; a dimmer that reports the brightness
    it goes to as at least 1 is never switched off. *)
Theorem dimmer_on : forall reply n s, ~ wants_off s -> (forall z, n = Some z -> 1 <= z <= 100) ->
  refuses (dimmer_set_state reply n s) \/
  match brightness s, transition s with
  | Some v, t => int_in 1 100 v /\ sends reply (dimmer_set_state reply n s) "smartlife.iot.dimmer" "set_dimmer_transition"
                   [("brightness", Some v); ("duration", Some (match t with Some t => duration t | None => AInt 1 end))]
  | None, None => sends reply (dimmer_set_state reply n s) "system" "set_relay_state" [("state", Some (AInt 1))]
  | None, Some t => exists z, n = Some z /\ sends reply (dimmer_set_state reply n s) "smartlife.iot.dimmer" "set_dimmer_transition"
                   [("brightness", Some (AInt z)); ("duration", Some (duration t))]
  end.
Proof.
  intros reply n s N Hn. assert (E : match brightness s with Some v => eqb_arg v (AInt 0) | None => false end || match light_on s with Some false => true | _ => false end = false).
  { destruct (_ || _) eqn:E; [|reflexivity]. exfalso. apply N, wants_off_spec, E. }
  unfold dimmer_set_state. rewrite E. destruct (brightness s) as [v|].
  - destruct (dimmer_transition reply v (match transition s with Some t => t | None => AInt 0 end)) as [H1 H2].
    assert (Nz : eqb_arg v (AInt 0) = false) by (destruct (eqb_arg v (AInt 0)); [discriminate|reflexivity]).
    destruct (int_in_dec 0 100 v) as [Hv|Hv]; [|left; apply H2; tauto].
    assert (Dec : time_ok (match transition s with Some t => t | None => AInt 0 end) \/ ~ time_ok (match transition s with Some t => t | None => AInt 0 end)).
    { unfold time_ok, pos_int. destruct (duration _) as [z|q].
      - destruct (Z_lt_dec 0 z); [left; eauto|right; intros (z' & [= <-] & H); lia].
      - right. intros (z & H & _). discriminate. }
    destruct Dec as [Ht|Ht]; [right|left; apply H2; tauto]. split.
    + destruct Hv as (z & -> & Hz). rewrite eqb_int in Nz. apply Z.eqb_neq in Nz. exists z. split; [reflexivity|lia].
    + assert (Du : match transition s with Some t => duration t | None => AInt 1 end = duration (match transition s with Some t => t | None => AInt 0 end)) by (destruct (transition s); reflexivity).
      rewrite Du. apply H1. auto.
  - unfold dimmer_turn_on. destruct (transition s) as [t|].
    + destruct n as [z|]; [|left; exists KKasa; split; [tauto|reflexivity]].
      destruct (dimmer_transition reply (AInt z) t) as [H1 H2].
      assert (Dec : time_ok t \/ ~ time_ok t).
      { unfold time_ok, pos_int. destruct (duration t) as [z'|q].
        - destruct (Z_lt_dec 0 z'); [left; eauto|right; intros (z'' & [= <-] & H); lia].
        - right. intros (z' & H & _). discriminate. }
      destruct Dec as [Ht|Ht]; [right|left; apply H2; tauto].
      exists z. split; [reflexivity|]. apply H1. split; [exists z; split; [reflexivity|specialize (Hn z eq_refl); lia]|exact Ht].
    + right. exists [("state", AInt 1)]. split; [fields|reflexivity].
Qed.
Print Assumptions dimmer_on.
Example dimmer_on_ex : ~ wants_off (mkLight (Some true) None None None None (Some (AInt 500))).
Proof. intros [H|(v & H & _)]; discriminate. Qed.
(** With a stored brightness of zero, switching on with a transition switches off. *)
Theorem dimmer_on_zero_refuted : exists reply, fst (dimmer_turn_on reply (Some 0) (Some (AInt 500)) []) =
  [mkReq "smartlife.iot.dimmer" "set_dimmer_transition" [("brightness", AInt 0); ("duration", AInt 500)]].
Proof. exists (fun _ => Ok JNull). reflexivity. Qed.
Print Assumptions dimmer_on_zero_refuted.

(** The documented names of the button and fade settings. *)
Definition action_name (a : action_type) : string := match a with DoubleClick => "double_click_action" | LongPress => "long_press_action" end.
Definition mode_name (a : button_action) : string :=
  match a with NoAction => "none" | Instant => "instant_on_off" | Gentle => "gentle_on_off" | Preset => "customize_preset" end.
Definition fade_name (f : fade_type) : string := match f with FadeOn => "fade_on" | FadeOff => "fade_off" end.
(** None of them is ever sent: Python prints the members, not their values. *)
Theorem button_names_refuted : forall a b i,
  fst (set_button_action a b i) <> ("set_" ++ action_name a)%string /\ fst (snd (set_button_action a b i)) <> mode_name b.
Proof. intros [] [] i; split; discriminate. Qed.
Print Assumptions button_names_refuted.
Theorem fade_names_refuted : forall f t, fst (set_fade_time f t) <> ("set_" ++ fade_name f ++ "_time")%string.
Proof. intros [] t; discriminate. Qed.
Print Assumptions fade_names_refuted.

(** The configuration: times within bounds, in whole milliseconds; thresholds and ramp
    rates within theirs; anything else is refused. *)
Theorem dimmer_timing : forall reply t s,
  let hi := match t with FadeOffT | FadeOnT => 10 | GentleOffT | GentleOnT => 120 end in
  let us := match s with Ms z => 1000 * z | Delta us => us end in
  (0 <= us <= hi * 1000000 -> exists ms, ms * 1000 <= us < (ms + 1) * 1000 /\ 0 <= ms <= hi * 1000 /\ (forall z, s = Ms z -> ms = z) /\
     sends reply (set_timing reply t s) "smartlife.iot.dimmer"
       match t with FadeOffT => "set_fade_off_time" | FadeOnT => "set_fade_on_time" | GentleOffT => "set_gentle_off_time" | GentleOnT => "set_gentle_on_time" end
       [(match t with FadeOffT | FadeOnT => "fadeTime" | GentleOffT | GentleOnT => "duration" end, Some (AInt ms))]) /\
  (~ 0 <= us <= hi * 1000000 -> refuses (set_timing reply t s)).
Proof.
  intros reply t s hi us. assert (Em : micros s = us) by (unfold us, micros; destruct s; lia).
  assert (Eh : timing_max t = hi * 1000000) by (unfold hi; destruct t; reflexivity).
  unfold set_timing. rewrite Em, Eh. split.
  - intro H. replace ((us <? 0) || (hi * 1000000 <? us)) with false by (symmetry; apply orb_false_iff; split; apply Z.ltb_ge; lia).
    assert (Hq : td_to_ms us = us / 1000) by (unfold td_to_ms; rewrite Z.quot_div_nonneg; lia).
    pose proof (Z.div_mod us 1000 ltac:(lia)) as D. pose proof (Z.mod_pos_bound us 1000 ltac:(lia)) as B.
    exists (td_to_ms us). rewrite Hq. split; [lia|]. split; [unfold hi in *; destruct t; lia|]. split.
    + intros z ->. unfold us. rewrite Z.mul_comm, Z.div_mul; lia.
    + exists [(timing_key t, AInt (us / 1000))]. split; [|intro log; destruct t; reflexivity].
      destruct t; cbn [timing_key]; fields.
  - intro N. exists KKasa. split; [tauto|]. intro log.
    replace ((us <? 0) || (hi * 1000000 <? us)) with true; [reflexivity|]. symmetry. apply orb_true_iff. rewrite !Z.ltb_lt. lia.
Qed.
Print Assumptions dimmer_timing.
Theorem dimmer_limits : forall reply z,
  (0 <= z <= 51 -> sends reply (set_threshold_min reply z) "smartlife.iot.dimmer" "calibrate_brightness" [("minThreshold", Some (AInt z))]) /\
  (~ 0 <= z <= 51 -> refuses (set_threshold_min reply z)) /\
  (10 <= z <= 50 -> sends reply (set_ramp_rate reply z) "smartlife.iot.dimmer" "set_button_ramp_rate" [("rampRate", Some (AInt z))]) /\
  (~ 10 <= z <= 50 -> refuses (set_ramp_rate reply z)).
Proof.
  intros reply z. unfold set_threshold_min, set_ramp_rate.
  destruct (z <? 0) eqn:E1, (51 <? z) eqn:E2, (z <? 10) eqn:E3, (50 <? z) eqn:E4; cbn [orb];
  rewrite ?Z.ltb_lt, ?Z.ltb_ge in *; repeat split; intro H; try lia;
  try (exists KKasa; split; [tauto|reflexivity]);
  first [exists [("minThreshold", AInt z)]; split; [fields|reflexivity] | exists [("rampRate", AInt z)]; split; [fields|reflexivity]].
Qed.
Print Assumptions dimmer_limits.

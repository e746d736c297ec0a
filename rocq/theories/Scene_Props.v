(** Lights read back as they were set (C121), and saved states can be restored (C122). *)
From Coq Require Import QArith Lia.
From Verif Require Import Base Base_Lemmas Py IotLight_Model IotLight_Props SmartLight_Model SmartLight_Props Scene_Model Scene_Spec.
Open Scope string_scope.
Open Scope list_scope.
Open Scope Z_scope.

(** ** The calls of the library that are made for a wish *)
Definition ints (o : option Z) : option arg := option_map AInt o.
Definition bulb_do (reply : request -> res json) (b : bulb) (w : wish) : M (list request) json :=
  match w with
  | Turn on t => bulb_turn reply b on (ints t)
  | Bright v t => bulb_set_brightness reply b (AInt v) (ints t)
  | Colour h s v t => IotLight_Model.set_hsv reply b (AInt h) (AInt s) (ints v) (ints t)
  | Warmth k v t => IotLight_Model.set_color_temp reply b (AInt k) (ints v) (ints t)
  | Look on v h s k t => bulb_set_state reply b (mkLight on (ints v) (ints h) (ints s) (ints k) (ints t))
  end.
(** Dimmers have no colours.  [known]: the brightness the library knows. *)
Definition dimmer_do (reply : request -> res json) (known : dimmer) (w : wish) : M (list request) json :=
  match w with
  | Turn true t => dimmer_turn_on reply known (ints t)
  | Turn false t => dimmer_turn_off reply (ints t)
  | Bright v t => dimmer_set_state reply known (mkLight None (Some (AInt v)) None None None (ints t))
  | Look on v h s k t => dimmer_set_state reply known (mkLight on (ints v) (ints h) (ints s) (ints k) (ints t))
  | Colour _ _ _ _ | Warmth _ _ _ => mfail KKasa
  end.
(** No effect is active. *)
Definition smart_do (reply : call -> res json) (colour temp : bool) (range : option (Z * Z)) (w : wish) : M (list call) json :=
  match w with
  | Turn on _ => smart_turn reply on
  | Bright v _ => SmartLight_Model.set_brightness reply None (AInt v)
  | Colour h s v _ => SmartLight_Model.set_hsv reply colour (AInt h) (AInt s) (ints v)
  | Warmth k v _ => SmartLight_Model.set_color_temp reply temp range (AInt k) (ints v)
  | Look on v h s k t => set_state reply (mkLight on (ints v) (ints h) (ints s) (ints k) (ints t))
  end.
(** All calls return, one after the other; [log] is what was sent. *)
Fixpoint all_done {R} (run : wish -> M (list R) json) (ws : list wish) (log log' : list R) : Prop :=
  match ws with
  | [] => log' = log
  | w :: ws => exists log1 r, run w log = (log1, Ok r) /\ all_done run ws log1 log'
  end.

(** ** Lemmas *)
Lemma refuses_not m log log' r : refuses m -> m log = (log', Ok r) -> False.
Proof. intros (e & _ & H). rewrite H. discriminate. Qed.
Lemma raises_not m log log' r : raises m -> m log = (log', Ok r) -> False.
Proof. intros (e & _ & H). rewrite H. discriminate. Qed.
Lemma opt_int_dec lo hi o : {opt_ok (int_in lo hi) o} + {~ opt_ok (int_in lo hi) o}.
Proof. destruct o; [apply int_in_dec|left; exact I]. Qed.
Lemma num_in_dec lo hi a : {num_in lo hi a} + {~ num_in lo hi a}.
Proof.
  unfold num_in. destruct (Qlt_le_dec (arg_q a) (inject_Z lo)) as [H|H].
  - right. intros [H1 _]. apply (Qlt_not_le _ _ H H1).
  - destruct (Qlt_le_dec (inject_Z hi) (arg_q a)) as [G|G]; [right; intros [_ H1]; apply (Qlt_not_le _ _ G H1)|left; auto].
Qed.
(** the field of a list of optional fields *)
Definition lfield (k : string) (l : list (string * option arg)) (old : Z) : Z := match dget k l with Some (Some (AInt z)) => z | _ => old end.
Lemma field_l p l k old : has_fields p l -> field k p old = lfield k l old.
Proof. intro H. unfold field, lfield. rewrite H. destruct (dget k l) as [[[]|]|]; reflexivity. Qed.
Lemma bulb_took b d p l : has_fields p l ->
  bulb_takes b d (mkReq (light_service b) (light_method b) p) =
  mkLamp (negb (lfield "on_off" l (if shines d then 1 else 0) =? 0)) (lfield "hue" l (l_hue d)) (lfield "saturation" l (l_sat d))
         (lfield "color_temp" l (l_temp d)) (lfield "brightness" l (l_bright d)).
Proof.
  intro H. unfold bulb_takes, light_service, light_method. cbn [service method params]. rewrite !seqb_refl. cbn [andb].
  rewrite !(field_l _ _ _ _ H). reflexivity.
Qed.
Lemma sends_took b d reply m l log log' r : sends reply m (light_service b) (light_method b) l -> m log = (log', Ok r) ->
  exists rs, log' = log ++ rs /\ fold_left (bulb_takes b) rs d =
  mkLamp (negb (lfield "on_off" l (if shines d then 1 else 0) =? 0)) (lfield "hue" l (l_hue d)) (lfield "saturation" l (l_sat d))
         (lfield "color_temp" l (l_temp d)) (lfield "brightness" l (l_bright d)).
Proof.
  intros (p & Hp & Hm) E. rewrite Hm in E. injection E as <- _. eexists. split; [reflexivity|]. cbn [fold_left]. apply bulb_took, Hp.
Qed.
Lemma lfield_ints k o l old : lfield k ((k, ints o) :: l) old = given o old.
Proof. unfold lfield. cbn [dget]. rewrite seqb_refl. destruct o; reflexivity. Qed.
Ltac lf := unfold lfield; cbn [dget String.eqb Ascii.eqb Bool.eqb].

Lemma bulb_step reply b d w log log' r : bulb_do reply b w log = (log', Ok r) ->
  exists rs, log' = log ++ rs /\ fold_left (bulb_takes b) rs d = granted true d w.
Proof.
  destruct w as [on t|v t|h s v t|k v t|on v h s k t]; cbn [bulb_do]; intro E.
  - destruct (sends_took b d _ _ _ _ _ _ (turn_command_lemma reply b on (ints t)) E) as (rs & -> & F).
    eexists. split; [reflexivity|]. rewrite F. lf. destruct on; reflexivity.
  - destruct (brightness_command_lemma reply b (AInt v) (ints t)) as (H0 & H1 & H2). rewrite eqb_int in H0, H2. cbn [granted].
    destruct (v =? 0) eqn:Ev.
    + destruct (sends_took b d _ _ _ _ _ _ (H0 eq_refl) E) as (rs & -> & F). eexists. split; [reflexivity|]. rewrite F. lf. reflexivity.
    + destruct (int_in_dec 1 100 (AInt v)) as [I|I]; [|destruct (refuses_not _ _ _ _ (H2 eq_refl I) E)].
      destruct (sends_took b d _ _ _ _ _ _ (H1 I) E) as (rs & -> & F). eexists. split; [reflexivity|]. rewrite F. lf. reflexivity.
  - destruct (hsv_command_lemma reply b (AInt h) (AInt s) (ints v) (ints t)) as [H1 H2].
    assert (V : is_color b = true /\ int_in 0 360 (AInt h) /\ int_in 0 100 (AInt s) /\ opt_ok (int_in 0 100) (ints v)).
    { destruct (is_color b) eqn:C; [|destruct (refuses_not _ _ _ _ (H2 ltac:(intros (? & _); discriminate)) E)].
      destruct (int_in_dec 0 360 (AInt h)) as [I1|I1]; [|destruct (refuses_not _ _ _ _ (H2 ltac:(tauto)) E)].
      destruct (int_in_dec 0 100 (AInt s)) as [I2|I2]; [|destruct (refuses_not _ _ _ _ (H2 ltac:(tauto)) E)].
      destruct (opt_int_dec 0 100 (ints v)) as [I3|I3]; [|destruct (refuses_not _ _ _ _ (H2 ltac:(tauto)) E)]. auto. }
    destruct (sends_took b d _ _ _ _ _ _ (H1 V) E) as (rs & -> & F). eexists. split; [reflexivity|]. rewrite F. lf. destruct v; reflexivity.
  - pose proof (temperature_command_lemma reply b (AInt k) (ints v) (ints t)) as H. destruct (temp_range (model b)) as [lo hi].
    destruct H as [H1 H2].
    assert (V : is_variable b = true /\ num_in lo hi (AInt k) /\ opt_ok (int_in 0 100) (ints v)).
    { destruct (is_variable b) eqn:C; [|destruct (refuses_not _ _ _ _ (H2 ltac:(intros (? & _); discriminate)) E)].
      destruct (num_in_dec lo hi (AInt k)) as [I1|I1]; [|destruct (refuses_not _ _ _ _ (H2 ltac:(tauto)) E)].
      destruct (opt_int_dec 0 100 (ints v)) as [I3|I3]; [|destruct (refuses_not _ _ _ _ (H2 ltac:(tauto)) E)]. auto. }
    destruct (sends_took b d _ _ _ _ _ _ (H1 V) E) as (rs & -> & F). eexists. split; [reflexivity|]. rewrite F. lf. destruct v; reflexivity.
  - pose proof (bulb_state_lemma reply b (mkLight on (ints v) (ints h) (ints s) (ints k) (ints t))) as H.
    cbn [light_on brightness hue saturation color_temp transition] in H.
    set (zero := match ints v with Some v => eqb_arg v (AInt 0) | None => false end) in *.
    assert (Z0 : zero = match v with Some z => z =? 0 | None => false end) by (unfold zero; destruct v; [apply eqb_int|reflexivity]).
    destruct H as [H1 H2].
    assert (V : zero = true \/ opt_ok (int_in 0 100) (ints v)).
    { destruct zero eqn:Ez; [auto|]. destruct (opt_int_dec 0 100 (ints v)) as [I3|I3]; [auto|destruct (refuses_not _ _ _ _ (H2 eq_refl I3) E)]. }
    destruct (H1 V) as (i & _ & _ & S).
    destruct (sends_took b d _ _ _ _ _ _ S E) as (rs & -> & F). eexists. split; [reflexivity|]. rewrite F. lf. cbn [granted].
    f_equal.
    + clearbody zero. subst zero. destruct v as [[|z|z]|]; cbn [Z.eqb orb]; destruct on as [[]|]; reflexivity.
    + destruct h; reflexivity.
    + destruct s; reflexivity.
    + destruct k; reflexivity.
    + clearbody zero. subst zero. destruct v as [[|z|z]|]; reflexivity.
Qed.
Lemma all_steps {R} (run : wish -> M (list R) json) (takes : lamp -> R -> lamp) wakes (ok : wish -> Prop) :
  (forall d w log log' r, ok w -> run w log = (log', Ok r) -> exists rs, log' = log ++ rs /\ fold_left takes rs d = granted wakes d w) ->
  forall ws d log log', Forall ok ws -> all_done run ws log log' ->
  exists rs, log' = log ++ rs /\ fold_left takes rs d = fold_left (granted wakes) ws d.
Proof.
  intros H. induction ws as [|w ws IH]; intros d log log' O D.
  - cbn in D. subst. exists []. rewrite app_nil_r. auto.
  - inversion_clear O. destruct D as (l1 & r & E & D).
    destruct (H d w log l1 r H0 E) as (rs1 & -> & F1). destruct (IH (granted wakes d w) _ _ H1 D) as (rs2 & -> & F2).
    exists (rs1 ++ rs2). rewrite app_assoc, fold_left_app, F1. auto.
Qed.

(** ** What a bulb reports is read *)
Lemma bulb_ls sys d : bulb_reports sys d -> exists ls, bulb_light_state sys = Ok ls /\ says ls "on_off" (if shines d then 1 else 0) /\ looks ls d.
Proof.
  intros (ls & H & G). unfold bulb_light_state, dindex. rewrite H. cbn [bind]. destruct (shines d).
  - destruct G as [G1 G2]. unfold says in G1. rewrite G1. exists ls. auto.
  - destruct G as (G1 & dft & G2 & G3). unfold says in G1. rewrite G1. cbn [bind truth]. rewrite eqb_int. cbn [Z.eqb negb].
    rewrite G2. eexists. split; [reflexivity|].
    split; [apply dget_dset_same|]. destruct G3 as (A & B & C & D). unfold looks, says in *.
    rewrite !dget_dset_other by discriminate. auto.
Qed.
Definition bulb_reads (b : bulb) (sys : dict pv) (d : lamp) : Prop :=
  bulb_is_on sys = Ok (shines d) /\
  (is_dimmable b = true -> bulb_brightness b None sys = Ok (AInt (l_bright d))) /\
  (is_color b = true -> is_dimmable b = true -> bulb_hsv b None sys = Ok (AInt (l_hue d), AInt (l_sat d), AInt (l_bright d))) /\
  (is_variable b = true -> bulb_color_temp b sys = Ok (AInt (l_temp d))).
Lemma bulb_read b sys d : bulb_reports sys d -> bulb_reads b sys d.
Proof.
  intro H. destruct (bulb_ls _ _ H) as (ls & E & O & L1 & L2 & L3 & L4). unfold says in *.
  assert (B : is_dimmable b = true -> bulb_brightness b None sys = Ok (AInt (l_bright d))).
  { intro D. unfold bulb_brightness, dindex. rewrite D, E. cbn. rewrite L4. reflexivity. }
  unfold bulb_reads. split; [|split; [exact B|split]].
  - unfold bulb_is_on, dindex. rewrite E. cbn [bind]. rewrite O. destruct (shines d); reflexivity.
  - intros C D. unfold bulb_hsv, dindex. rewrite C, E. cbn [negb bind]. rewrite L1, L2. cbn [bind as_num]. rewrite (B D). reflexivity.
  - intro V. unfold bulb_color_temp, dindex. rewrite V, E. cbn [negb bind]. rewrite L3. reflexivity.
Qed.

(** ** C121 *)
(** After any calls that returned, and an update, a bulb reads as what was asked for. *)
Theorem bulb_reads_back : forall reply b d ws log sys,
  all_done (bulb_do reply b) ws [] log -> bulb_reports sys (fold_left (bulb_takes b) log d) ->
  bulb_reads b sys (fold_left (granted true) ws d).
Proof.
  intros reply b d ws log sys D R.
  destruct (all_steps (bulb_do reply b) (bulb_takes b) true (fun _ => True) (fun d w l l' r _ => bulb_step reply b d w l l' r) ws d [] log
              ltac:(apply Forall_forall; auto) D) as (rs & -> & F). cbn [app] in R. rewrite F in R. apply bulb_read, R.
Qed.
Print Assumptions bulb_reads_back.
Definition kl130 := mkBulb true true true "KL130(EU)" false.
Definition off_lamp := mkLamp false 0 0 2700 10.
Definition fine (r : request) : res json := Ok (JObj []).
Example bulb_reads_back_ex :
  let ws := [Colour 120 75 (Some 50) None; Turn false (Some 100); Warmth 4000 None None; Bright 33 None] in
  (exists log, all_done (bulb_do fine kl130) ws [] log /\ List.length log = 4%nat) /\
  fold_left (granted true) ws off_lamp = mkLamp true 120 75 4000 33.
Proof. split; [|reflexivity]. eexists. split; [repeat (eexists; eexists; split; [vm_compute; reflexivity|]); cbn; reflexivity|reflexivity]. Qed.
Example bulb_reports_ex : exists sys, bulb_reports sys off_lamp /\ bulb_is_on sys = Ok false /\ bulb_color_temp kl130 sys = Ok (AInt 2700).
Proof.
  exists [("light_state", PObj [("on_off", PNum (AInt 0)); ("dft_on_state", PObj [("mode", PNum (AInt 1)); ("hue", PNum (AInt 0));
     ("saturation", PNum (AInt 0)); ("color_temp", PNum (AInt 2700)); ("brightness", PNum (AInt 10))])])].
  split; [|split; reflexivity]. eexists. split; [reflexivity|]. cbn [shines off_lamp]. split; [reflexivity|]. eexists. split; [reflexivity|]. repeat split.
Qed.

(** *** SMART lights *)
Definition plfield (k : string) (l : list (string * option pv)) (old : Z) : Z :=
  match dget k l with Some (Some (PNum (AInt z))) => z | _ => old end.
Lemma calls_took d reply m l log log' r : calls reply m "set_device_info" l -> m log = (log', Ok r) ->
  exists rs, log' = log ++ rs /\ fold_left smart_takes rs d =
  mkLamp (match dget "device_on" l with Some (Some (PBool x)) => x | _ => shines d end) (plfield "hue" l (l_hue d)) (plfield "saturation" l (l_sat d))
         (plfield "color_temp" l (l_temp d)) (plfield "brightness" l (l_bright d)).
Proof.
  intros (p & Hp & Hm) E. rewrite Hm in E. injection E as <- _. eexists. split; [reflexivity|]. cbn [fold_left].
  unfold smart_takes. cbn [c_method c_params]. rewrite seqb_refl. unfold sfield, plfield.
  rewrite (Hp "device_on"), (Hp "hue"), (Hp "saturation"), (Hp "color_temp"), (Hp "brightness"). f_equal.
  - destruct (dget "device_on" l) as [[[]|]|]; reflexivity.
  - destruct (dget "hue" l) as [[[[]| | |]|]|]; reflexivity.
  - destruct (dget "saturation" l) as [[[[]| | |]|]|]; reflexivity.
  - destruct (dget "color_temp" l) as [[[[]| | |]|]|]; reflexivity.
  - destruct (dget "brightness" l) as [[[[]| | |]|]|]; reflexivity.
Qed.
Ltac plf := unfold plfield; cbn [dget String.eqb Ascii.eqb Bool.eqb].
Lemma smart_step reply colour temp range d w log log' r : sensible w -> smart_do reply colour temp range w log = (log', Ok r) ->
  exists rs, log' = log ++ rs /\ fold_left smart_takes rs d = granted false d w.
Proof.
  destruct w as [on t|v t|h s v t|k v t|on v h s k t]; cbn [smart_do sensible]; intros Sn E.
  - assert (C : calls reply (smart_turn reply on) "set_device_info" [("device_on", Some (PBool on))]).
    { exists [("device_on", PBool on)]. split; [par|reflexivity]. }
    destruct (calls_took d _ _ _ _ _ _ C E) as (rs & -> & F). eexists. split; [reflexivity|]. rewrite F. plf. reflexivity.
  - destruct (SmartLight_Props.smart_brightness reply (fun _ => mfail KKasa) (AInt v)) as (H1 & H0 & H2). cbn [granted].
    destruct (v =? 0) eqn:Ev.
    + apply Z.eqb_eq in Ev. subst v. destruct (calls_took d _ _ _ _ _ _ (H0 eq_refl None) E) as (rs & -> & F). eexists. split; [reflexivity|].
      rewrite F. plf. reflexivity.
    + apply Z.eqb_neq in Ev. destruct (int_in_dec 0 100 (AInt v)) as [I|I]; [|destruct (raises_not _ _ _ _ (H2 I None) E)].
      assert (I' : int_in 1 100 (AInt v)) by (destruct I as (z & [= <-] & Hz); exists v; split; [reflexivity|lia]).
      destruct (calls_took d _ _ _ _ _ _ (proj1 (H1 I')) E) as (rs & -> & F). eexists. split; [reflexivity|]. rewrite F. plf. reflexivity.
  - destruct (SmartLight_Props.smart_hsv reply colour (AInt h) (AInt s) (ints v)) as [H1 H2].
    assert (V : colour = true /\ int_in 0 360 (AInt h) /\ int_in 0 100 (AInt s) /\ opt_ok (int_in 0 100) (ints v)).
    { destruct colour eqn:C; [|destruct (raises_not _ _ _ _ (H2 ltac:(intros (? & _); discriminate)) E)].
      destruct (int_in_dec 0 360 (AInt h)) as [I1|I1]; [|destruct (raises_not _ _ _ _ (H2 ltac:(tauto)) E)].
      destruct (int_in_dec 0 100 (AInt s)) as [I2|I2]; [|destruct (raises_not _ _ _ _ (H2 ltac:(tauto)) E)].
      destruct (opt_int_dec 0 100 (ints v)) as [I3|I3]; [|destruct (raises_not _ _ _ _ (H2 ltac:(tauto)) E)]. auto. }
    destruct (calls_took d _ _ _ _ _ _ (H1 V) E) as (rs & -> & F). eexists. split; [reflexivity|]. rewrite F. plf. destruct v; reflexivity.
  - pose proof (smart_temperature_partial reply temp range (AInt k) (ints v)) as H.
    destruct (match range with Some r => r | None => (2500, 6500) end) as [lo hi]. destruct H as [H1 H2].
    assert (V : temp = true /\ num_in lo hi (AInt k)).
    { destruct temp eqn:C; [|destruct (raises_not _ _ _ _ (H2 ltac:(intros (? & _); discriminate)) E)].
      destruct (num_in_dec lo hi (AInt k)) as [I1|I1]; [|destruct (raises_not _ _ _ _ (H2 ltac:(tauto)) E)]. auto. }
    assert (Vv : opt_ok (int_in 1 100) (ints v)).
    { destruct v as [z|]; [|exact I]. exists z. split; [reflexivity|apply Sn; reflexivity]. }
    destruct (calls_took d _ _ _ _ _ _ (H1 V Vv) E) as (rs & -> & F). eexists. split; [reflexivity|]. rewrite F. plf. destruct v; reflexivity.
  - pose proof (state_call_partial_lemma reply (mkLight on (ints v) (ints h) (ints s) (ints k) (ints t))) as H.
    cbn [light_on brightness hue saturation color_temp transition] in H.
    set (zero := match ints v with Some v => eqb_arg v (AInt 0) | None => false end) in *.
    assert (Z0 : zero = match v with Some z => z =? 0 | None => false end) by (unfold zero; destruct v; [apply eqb_int|reflexivity]).
    destruct (calls_took d _ _ _ _ _ _ H E) as (rs & -> & F). eexists. split; [reflexivity|]. rewrite F. plf. cbn [granted].
    clearbody zero. subst zero. f_equal.
    + destruct v as [[|z|z]|]; cbn [Z.eqb orb]; destruct on as [[]|]; reflexivity.
    + destruct h; reflexivity.
    + destruct s; reflexivity.
    + destruct k; reflexivity.
    + destruct v as [[|z|z]|]; reflexivity.
Qed.
Definition smart_reads (dim colour temp : bool) (info : dict pv) (d : lamp) : Prop :=
  smart_is_on info = shines d /\
  (dim = true -> smart_brightness dim None info = Ok (AInt (l_bright d))) /\
  (colour = true -> smart_hsv colour info = Ok (AInt (l_hue d), AInt (l_sat d), AInt (l_bright d))) /\
  (temp = true -> smart_color_temp temp info = Ok (AInt (l_temp d))).
Lemma smart_read dim colour temp info d : smart_reports dim colour temp info d -> smart_reads dim colour temp info d.
Proof.
  intros (O & B & C & T). unfold smart_reads, says in *. repeat split.
  - unfold smart_is_on. rewrite O. destruct (shines d); reflexivity.
  - intros ->. unfold smart_brightness, dindex. rewrite (B eq_refl). reflexivity.
  - intros ->. destruct (C eq_refl) as (H1 & H2 & H3). unfold smart_hsv, get_or_0. rewrite H1, H2, H3. reflexivity.
  - intros ->. unfold smart_color_temp, dindex. rewrite (T eq_refl). reflexivity.
Qed.
(** The same for a SMART light without an active effect. *)
Theorem smart_reads_back_partial : forall reply dim colour temp range d ws log info,
  Forall sensible ws -> all_done (smart_do reply colour temp range) ws [] log ->
  smart_reports dim colour temp info (fold_left smart_takes log d) ->
  smart_reads dim colour temp info (fold_left (granted false) ws d).
Proof.
  intros reply dim colour temp range d ws log info Sn D R.
  destruct (all_steps _ smart_takes false sensible (smart_step reply colour temp range) ws d [] log Sn D) as (rs & -> & F).
  cbn [app] in R. rewrite F in R. apply smart_read, R.
Qed.
Print Assumptions smart_reads_back_partial.
Definition fine_call (c : call) : res json := Ok (JObj []).
Example smart_reads_back_ex :
  let ws := [Turn true None; Warmth 4000 (Some 60) None; Colour 120 75 None None; Bright 0 None; Look (Some true) None None None (Some 2700) (Some 5)] in
  Forall sensible ws /\ (exists log, all_done (smart_do fine_call true true (Some (2500, 6500))) ws [] log /\ List.length log = 5%nat) /\
  fold_left (granted false) ws off_lamp = mkLamp true 120 75 2700 60.
Proof.
  split; [|split; [|reflexivity]].
  - repeat (apply Forall_cons; [cbn; first [exact I | intros z [= <-]; lia | intros z H; discriminate]|]). apply Forall_nil.
  - eexists. split; [repeat (eexists; eexists; split; [vm_compute; reflexivity|]); cbn; reflexivity|reflexivity].
Qed.
(** While an effect is active, a brightness set with a state is not the one that is read. *)
Theorem effect_brightness_refuted : exists d ws log info effect,
  Forall sensible ws /\ all_done (smart_do fine_call true true None) ws [] log /\
  smart_reports true true true info (fold_left smart_takes log d) /\
  ws = [Look None (Some 50) None None None None] /\ smart_brightness true (Some effect) info = Ok (AInt 20).
Proof.
  exists (mkLamp true 0 0 0 80), [Look None (Some 50) None None None None].
  exists [mkCall "set_device_info" [("brightness", PNum (AInt 50)); ("device_on", PBool true)]].
  exists [("device_on", PBool true); ("brightness", PNum (AInt 50)); ("hue", PNum (AInt 0)); ("saturation", PNum (AInt 0)); ("color_temp", PNum (AInt 0))].
  exists (AInt 20). split; [repeat constructor|]. split; [eexists; eexists; split; [vm_compute; reflexivity|reflexivity]|].
  split; [repeat split|]. split; reflexivity.
Qed.
Print Assumptions effect_brightness_refuted.

(** *** Dimmers *)
(** Each call is made with the brightness read by an update before it. *)
Fixpoint dimmer_history (reply : request -> res json) (d : lamp) (ws : list wish) (d' : lamp) : Prop :=
  match ws with
  | [] => d' = d
  | w :: ws => exists log r, dimmer_do reply (Some (l_bright d)) w [] = (log, Ok r) /\ dimmer_history reply (fold_left dimmer_takes log d) ws d'
  end.
Definition dimmer_reads (sys : dict pv) (d : lamp) : Prop :=
  plug_is_on sys = Ok (shines d) /\ dimmer_brightness sys = Ok (AInt (l_bright d)).
Lemma dimmer_read sys d : dimmer_reports sys d -> dimmer_reads sys d.
Proof.
  intros [H1 H2]. unfold says in *. split.
  - unfold plug_is_on, dindex. rewrite H1. destruct (shines d); reflexivity.
  - unfold dimmer_brightness, dimmer_dimmable, dmem, dindex. rewrite H2. reflexivity.
Qed.
Lemma transition_took reply v t d log' r : set_dimmer_transition reply (AInt v) t [] = (log', Ok r) ->
  fold_left dimmer_takes log' d = if v =? 0 then mkLamp false (l_hue d) (l_sat d) (l_temp d) (l_bright d) else mkLamp true (l_hue d) (l_sat d) (l_temp d) v.
Proof.
  intro E. destruct (dimmer_transition reply (AInt v) t) as [H1 H2].
  assert (D : time_ok t \/ ~ time_ok t).
  { unfold time_ok, pos_int. destruct (duration t) as [z|q]; [destruct (Z_lt_dec 0 z); [left; eauto|right; intros (z' & [= <-] & H); lia]|right; intros (z & H & _); discriminate]. }
  destruct (int_in_dec 0 100 (AInt v)) as [I|I]; [|destruct (refuses_not _ _ _ _ (H2 ltac:(tauto)) E)].
  destruct D as [D|D]; [|destruct (refuses_not _ _ _ _ (H2 ltac:(tauto)) E)].
  destruct (H1 (conj I D)) as (p & Hp & Hm). rewrite Hm in E. injection E as <- _. cbn [fold_left app].
  unfold dimmer_takes. cbn [service method params String.eqb Ascii.eqb Bool.eqb andb].
  rewrite !(field_l _ _ _ _ Hp). lf. destruct (v =? 0); reflexivity.
Qed.
Lemma relay_took reply on d log' r : send reply (relay on) [] = (log', Ok r) ->
  fold_left dimmer_takes log' d = mkLamp on (l_hue d) (l_sat d) (l_temp d) (l_bright d).
Proof. intro E. unfold send in E. injection E as <- _. destruct on; reflexivity. Qed.
Lemma transition_range reply v t log log' r : set_dimmer_transition reply (AInt v) t log = (log', Ok r) -> 0 <= v.
Proof.
  unfold set_dimmer_transition. cbn [is_int negb]. rewrite !leb_int. destruct (0 <=? v) eqn:E; [intros _; apply Z.leb_le, E|discriminate].
Qed.
Lemma dimmer_step reply w d e log r : settled w -> 1 <= l_bright d -> shines e = shines d -> l_bright e = l_bright d ->
  dimmer_do reply (Some (l_bright d)) w [] = (log, Ok r) ->
  let d' := fold_left dimmer_takes log d in
  shines (granted true e w) = shines d' /\ l_bright (granted true e w) = l_bright d' /\ 1 <= l_bright d'.
Proof.
  intros Sw Hb Hs He E d'. subst d'.
  assert (Off : forall t l, dimmer_turn_off reply (ints t) [] = (l, Ok r) ->
     fold_left dimmer_takes l d = mkLamp false (l_hue d) (l_sat d) (l_temp d) (l_bright d)).
  { intros t l. unfold dimmer_turn_off. destruct t as [t|]; cbn [ints option_map]; intro F; [apply (transition_took _ _ _ d) in F; exact F|].
    apply (relay_took _ _ d) in F. exact F. }
  assert (On : forall t l, dimmer_turn_on reply (Some (l_bright d)) (ints t) [] = (l, Ok r) ->
     fold_left dimmer_takes l d = mkLamp true (l_hue d) (l_sat d) (l_temp d) (l_bright d)).
  { intros t l. unfold dimmer_turn_on. destruct t as [t|]; cbn [ints option_map]; intro F.
    - apply (transition_took _ _ _ d) in F. rewrite F. destruct (Z.eqb_spec (l_bright d) 0); [lia|reflexivity].
    - apply (relay_took _ _ d) in F. exact F. }
  assert (St : forall on v h s k t, settled (Look on v None None None None) ->
     dimmer_set_state reply (Some (l_bright d)) (mkLight on (ints v) h s k (ints t)) [] = (log, Ok r) ->
     let d' := fold_left dimmer_takes log d in
     negb (dark on v) = shines d' /\ lit v (l_bright d) = l_bright d' /\ 1 <= l_bright d').
  { clear E w Sw. intros on v h s k t Sw E d'. subst d'. unfold dimmer_set_state in E. cbn [brightness light_on transition] in E.
    destruct v as [v|]; cbn [ints option_map] in E.
    - rewrite eqb_int in E. destruct (v =? 0) eqn:Ev.
      + apply Z.eqb_eq in Ev. subst v. cbn [orb] in E. apply Off in E. rewrite E. cbn. destruct on as [[]|]; auto.
      + apply Z.eqb_neq in Ev. destruct on as [[]|]; [|cbn in Sw; lia|]; cbn [orb] in E; pose proof (transition_range _ _ _ _ _ _ E) as Rg;
          apply (transition_took _ _ _ d) in E; rewrite E, (proj2 (Z.eqb_neq v 0) Ev); cbn [shines l_bright];
          (destruct v as [|v|v]; [lia| |lia]); repeat split; lia.
    - cbn [orb] in E. destruct on as [[]|]; [apply On in E|apply Off in E|apply On in E]; rewrite E; cbn; auto. }
  destruct w as [[] t|v t|h s v t|k v t|on v h s k t]; cbn [dimmer_do granted settled] in *.
  - apply On in E. rewrite E. cbn. rewrite He. auto.
  - apply Off in E. rewrite E. cbn. rewrite He. auto.
  - destruct (St None (Some v) None None None t I E) as (H1 & H2 & H3). rewrite <- H1, <- H2 in *. destruct v as [|v|v]; cbn in *; auto.
  - discriminate.
  - discriminate.
  - destruct (St on v (ints h) (ints s) (ints k) t) as (H1 & H2 & H3).
    + destruct on as [[]|], v; exact Sw.
    + exact E.
    + cbn [shines l_bright]. rewrite He. auto.
Qed.
(** The same for a dimmer that is updated before each call. *)
Theorem dimmer_reads_back : forall reply d ws d' sys,
  1 <= l_bright d -> Forall settled ws -> dimmer_history reply d ws d' -> dimmer_reports sys d' ->
  dimmer_reads sys (fold_left (granted true) ws d).
Proof.
  intros reply d ws d' sys Hb Sw H R. apply dimmer_read in R.
  assert (G : forall ws d e, shines e = shines d -> l_bright e = l_bright d -> 1 <= l_bright d -> Forall settled ws -> dimmer_history reply d ws d' ->
     shines (fold_left (granted true) ws e) = shines d' /\ l_bright (fold_left (granted true) ws e) = l_bright d').
  { clear. induction ws as [|w ws IH]; intros d e Hs He Hb Sw H.
    - cbn in H. subst. auto.
    - inversion_clear Sw. destruct H as (log & r & E & H). destruct (dimmer_step reply w d e log r H0 Hb Hs He E) as (S1 & S2 & S3).
      cbn [fold_left]. apply (IH _ _ S1 S2 S3 H1 H). }
  destruct (G ws d d eq_refl eq_refl Hb Sw H) as [G1 G2]. unfold dimmer_reads. rewrite G1, G2. exact R.
Qed.
Print Assumptions dimmer_reads_back.
Example dimmer_reads_back_ex :
  let ws := [Bright 40 None; Turn false (Some 500); Turn true (Some 500); Look None (Some 70) None None None None; Bright 0 (Some 10)] in
  Forall settled ws /\ (exists d', dimmer_history fine off_lamp ws d' /\ l_bright d' = 70) /\
  fold_left (granted true) ws off_lamp = mkLamp false 0 0 2700 70.
Proof.
  split; [repeat constructor|]. split; [|reflexivity].
  eexists. split; [repeat (eexists; eexists; split; [vm_compute; reflexivity|]); vm_compute; reflexivity|reflexivity].
Qed.
(** Without the update, switching on with a transition brings an old brightness back. *)
Theorem dimmer_stale_refuted : exists d, l_bright d = 10 /\
  let d1 := fold_left dimmer_takes (fst (dimmer_do fine (Some (l_bright d)) (Bright 40 None) [])) d in
  l_bright d1 = 40 /\
  l_bright (fold_left dimmer_takes (fst (dimmer_do fine (Some (l_bright d)) (Turn true (Some 500)) [])) d1) = 10.
Proof. exists off_lamp. split; [reflexivity|]. vm_compute. auto. Qed.
Print Assumptions dimmer_stale_refuted.

(** Plugs, which switch as dimmers do. *)
Theorem plug_reads_back : forall reply on d log r sys,
  send reply (relay on) [] = (log, Ok r) -> says sys "relay_state" (if shines (fold_left dimmer_takes log d) then 1 else 0) ->
  plug_is_on sys = Ok on.
Proof.
  intros reply on d log r sys E R. rewrite (relay_took _ _ d _ _ E) in R. unfold plug_is_on, dindex. unfold says in R. rewrite R.
  destruct on; reflexivity.
Qed.
Print Assumptions plug_reads_back.
Example plug_reads_back_ex : snd (send fine (relay true) []) = Ok (JObj []) /\ plug_is_on [("relay_state", PNum (AInt 0))] = Ok false.
Proof. split; reflexivity. Qed.

(** ** C122 *)
(** A brightness as lights have it. *)
Definition real (d : lamp) : Prop := 1 <= l_bright d <= 100.
Definition picked (c : bool) (z : Z) : option Z := if c then Some z else None.
Definition snapshot (dim colour temp : bool) (d : lamp) : light_state :=
  if shines d then mkLight (Some true) (ints (picked dim (l_bright d))) (ints (picked colour (l_hue d))) (ints (picked colour (l_sat d))) (ints (picked temp (l_temp d))) None
  else mkLight (Some false) None None None None None.
Definition wanted (dim colour temp : bool) (d : lamp) : wish :=
  if shines d then Look (Some true) (picked dim (l_bright d)) (picked colour (l_hue d)) (picked colour (l_sat d)) (picked temp (l_temp d)) None
  else Look (Some false) None None None None None.
Lemma again wakes dim colour temp d0 d1 : real d0 -> snapshot dim colour temp (granted wakes d1 (wanted dim colour temp d0)) = snapshot dim colour temp d0.
Proof.
  intro H. unfold real in H. unfold wanted. unfold snapshot at 2. destruct (shines d0); [|reflexivity].
  unfold snapshot. cbn [granted shines].
  assert (D : dark (Some true) (picked dim (l_bright d0)) = false) by (destruct dim; cbn; [destruct (l_bright d0); [lia| |]; reflexivity|reflexivity]).
  rewrite D. cbn [negb l_hue l_sat l_temp l_bright].
  destruct colour, temp, dim; cbn [picked given lit]; try reflexivity; destruct (l_bright d0); try reflexivity; lia.
Qed.
Lemma kept dim colour temp d v hsv t : (dim = true -> v = Ok (AInt (l_bright d))) ->
  (colour = true -> hsv = Ok (AInt (l_hue d), AInt (l_sat d), AInt (l_bright d))) -> (temp = true -> t = Ok (AInt (l_temp d))) ->
  kept_state (shines d) dim colour temp v hsv t = Ok (snapshot dim colour temp d).
Proof.
  intros H1 H2 H3. unfold kept_state, snapshot. destruct (shines d); [|reflexivity]. cbn [negb].
  destruct dim; [rewrite (H1 eq_refl)|]; cbn [bind]; (destruct colour; [rewrite (H2 eq_refl)|]); cbn [bind fst snd];
    (destruct temp; [rewrite (H3 eq_refl)|]); reflexivity.
Qed.
Lemma bulb_snapshot b sys d : (is_color b = true -> is_dimmable b = true) -> bulb_reports sys d ->
  bulb_state_read b None sys = Ok (snapshot (is_dimmable b) (is_color b) (is_variable b) d).
Proof.
  intros C R. destruct (bulb_read b sys d R) as (H1 & H2 & H3 & H4). unfold bulb_state_read. rewrite H1. cbn [bind]. apply kept; auto.
Qed.
Lemma smart_snapshot dim colour temp info d : smart_reports dim colour temp info d ->
  smart_state_read dim colour temp None info = Ok (snapshot dim colour temp d).
Proof.
  intros R. destruct (smart_read _ _ _ _ _ R) as (H1 & H2 & H3 & H4). unfold smart_state_read. rewrite H1. apply kept; auto.
Qed.
Lemma dimmer_snapshot sys d : dimmer_reports sys d -> dimmer_state_read sys = Ok (snapshot true false false d).
Proof.
  intros R. pose proof R as [_ B]. destruct (dimmer_read _ _ R) as (H1 & H2). unfold dimmer_state_read. rewrite H1. cbn [bind].
  unfold dimmer_dimmable, dmem. unfold says in B. rewrite B. apply kept; [auto|discriminate|discriminate].
Qed.
Lemma wanted_bulb reply b dim colour temp d : bulb_do reply b (wanted dim colour temp d) = bulb_set_state reply b (snapshot dim colour temp d).
Proof. unfold wanted, snapshot. destruct (shines d); reflexivity. Qed.
Lemma wanted_smart reply c t range dim colour temp d : smart_do reply c t range (wanted dim colour temp d) = set_state reply (snapshot dim colour temp d).
Proof. unfold wanted, snapshot. destruct (shines d); reflexivity. Qed.

(** The state read from a bulb can be set again on it, whatever happened meanwhile, and is then
    the state that is read. *)
Theorem bulb_restored : forall reply b d0 sys0 s d1 sys1,
  (forall q, exists x, reply q = Ok x) ->
  real d0 -> (is_color b = true -> is_dimmable b = true) ->
  bulb_reports sys0 d0 -> bulb_state_read b None sys0 = Ok s ->
  exists log x, bulb_set_state reply b s [] = (log, Ok x) /\
  (bulb_reports sys1 (fold_left (bulb_takes b) log d1) -> bulb_state_read b None sys1 = Ok s).
Proof.
  intros reply b d0 sys0 s d1 sys1 Ok_ Rl C R0 E. rewrite (bulb_snapshot b sys0 d0 C R0) in E. injection E as <-.
  set (sn := snapshot _ _ _ d0).
  assert (V : opt_ok (int_in 0 100) (brightness sn)).
  { unfold sn, snapshot. destruct (shines d0); [|exact I]. cbn. destruct (is_dimmable b); cbn; [|exact I].
    exists (l_bright d0). unfold real in Rl. split; [reflexivity|lia]. }
  destruct (proj1 (bulb_state_lemma reply b sn) (or_intror V)) as (i & _ & _ & p & _ & Hm).
  destruct (Ok_ (mkReq (light_service b) (light_method b) p)) as (x & Hx). specialize (Hm []). rewrite Hx in Hm.
  eexists. exists x. split; [exact Hm|]. unfold sn in *. rewrite <- (wanted_bulb reply b) in Hm. intro R1.
  destruct (bulb_step reply b d1 _ _ _ _ Hm) as (rs & L & F). cbn [app] in L. subst rs. cbn [app] in R1. rewrite F in R1.
  rewrite (bulb_snapshot b sys1 _ C R1). f_equal. apply again, Rl.
Qed.
Print Assumptions bulb_restored.
Example bulb_restored_ex : real off_lamp /\ exists sys s, bulb_reports sys (mkLamp true 120 75 0 50) /\ bulb_state_read kl130 None sys = Ok s /\
  s = mkLight (Some true) (Some (AInt 50)) (Some (AInt 120)) (Some (AInt 75)) (Some (AInt 0)) None.
Proof.
  split; [unfold real; cbn; lia|].
  exists [("light_state", PObj [("on_off", PNum (AInt 1)); ("mode", PNum (AInt 1)); ("hue", PNum (AInt 120));
     ("saturation", PNum (AInt 75)); ("color_temp", PNum (AInt 0)); ("brightness", PNum (AInt 50))])].
  eexists. split; [|split; reflexivity]. eexists. split; [reflexivity|]. cbn [shines]. split; [reflexivity|]. repeat split.
Qed.
(** So for a SMART light without an active effect. *)
Theorem smart_restored_partial : forall reply dim colour temp d0 info0 s d1 info1,
  (forall q, exists x, reply q = Ok x) ->
  real d0 -> smart_reports dim colour temp info0 d0 -> smart_state_read dim colour temp None info0 = Ok s ->
  exists log x, set_state reply s [] = (log, Ok x) /\
  (smart_reports dim colour temp info1 (fold_left smart_takes log d1) -> smart_state_read dim colour temp None info1 = Ok s).
Proof.
  intros reply dim colour temp d0 info0 s d1 info1 Ok_ Rl R0 E. rewrite (smart_snapshot _ _ _ info0 d0 R0) in E. injection E as <-.
  destruct (state_call_partial_lemma reply (snapshot dim colour temp d0)) as (p & _ & Hm).
  destruct (Ok_ (mkCall "set_device_info" p)) as (x & Hx). specialize (Hm []). rewrite Hx in Hm.
  eexists. exists x. split; [exact Hm|]. rewrite <- (wanted_smart reply colour temp None) in Hm. intro R1.
  assert (Sn : sensible (wanted dim colour temp d0)) by (unfold wanted; destruct (shines d0); exact I).
  destruct (smart_step reply colour temp None d1 _ _ _ _ Sn Hm) as (rs & L & F). cbn [app] in L. subst rs. cbn [app] in R1. rewrite F in R1.
  rewrite (smart_snapshot _ _ _ info1 _ R1). f_equal. apply again, Rl.
Qed.
Print Assumptions smart_restored_partial.
Example smart_restored_ex : exists info s, smart_reports true false true info (mkLamp true 1 2 2700 50) /\
  smart_state_read true false true None info = Ok s /\ s = mkLight (Some true) (Some (AInt 50)) None None (Some (AInt 2700)) None.
Proof.
  exists [("device_on", PBool true); ("brightness", PNum (AInt 50)); ("color_temp", PNum (AInt 2700))]. eexists.
  split; [|split; reflexivity]. repeat split; discriminate.
Qed.
(** And for a dimmer. *)
Theorem dimmer_restored : forall reply known d0 sys0 s d1 sys1,
  (forall q, exists x, reply q = Ok x) ->
  real d0 -> dimmer_reports sys0 d0 -> dimmer_state_read sys0 = Ok s ->
  exists log x, dimmer_set_state reply known s [] = (log, Ok x) /\
  (dimmer_reports sys1 (fold_left dimmer_takes log d1) -> dimmer_state_read sys1 = Ok s).
Proof.
  intros reply known d0 sys0 s d1 sys1 Ok_ Rl R0 E. rewrite (dimmer_snapshot sys0 d0 R0) in E. injection E as <-.
  unfold snapshot, real in *. destruct (shines d0) eqn:S.
  - assert (Eq : dimmer_set_state reply known (mkLight (Some true) (ints (picked true (l_bright d0))) (ints (picked false (l_hue d0))) (ints (picked false (l_sat d0)))
                    (ints (picked false (l_temp d0))) None) = set_dimmer_transition reply (AInt (l_bright d0)) (AInt 0)).
    { unfold dimmer_set_state. cbn [ints picked option_map brightness light_on transition]. rewrite eqb_int.
      replace (l_bright d0 =? 0) with false by (symmetry; apply Z.eqb_neq; lia). reflexivity. }
    rewrite Eq. destruct (proj1 (dimmer_transition reply (AInt (l_bright d0)) (AInt 0))) as (p & Hp & Hm).
    { split; [eexists; split; [reflexivity|lia]|]. exists 1. split; [reflexivity|lia]. }
    destruct (Ok_ (mkReq "smartlife.iot.dimmer" "set_dimmer_transition" p)) as (x & Hx). specialize (Hm []). rewrite Hx in Hm.
    eexists. exists x. split; [exact Hm|]. intro R1. rewrite (transition_took _ _ _ d1 _ _ Hm) in R1.
    replace (l_bright d0 =? 0) with false in R1 by (symmetry; apply Z.eqb_neq; lia).
    rewrite (dimmer_snapshot _ _ R1). reflexivity.
  - unfold dimmer_set_state. cbn [brightness light_on orb transition]. unfold dimmer_turn_off, send.
    destruct (Ok_ (relay false)) as (x & Hx). eexists. exists x. split; [rewrite Hx; reflexivity|]. intro R1.
    rewrite (dimmer_snapshot _ _ R1). reflexivity.
Qed.
Print Assumptions dimmer_restored.
Example dimmer_restored_ex : exists sys, dimmer_reports sys (mkLamp true 0 0 0 50) /\ dimmer_state_read sys = Ok (mkLight (Some true) (Some (AInt 50)) None None None None).
Proof. exists [("relay_state", PNum (AInt 1)); ("brightness", PNum (AInt 50))]. split; [split; reflexivity|reflexivity]. Qed.

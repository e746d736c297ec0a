(** C151: a setting takes what it advertises and shows what was set; what it showed can be put back. *)
From Coq Require Import QArith Lia.
From Verif Require Import Base Base_Lemmas Py Setting_Model Setting_Spec Setting_Proofs.
Open Scope string_scope.
Open Scope list_scope.
Open Scope Z_scope.

(** A whole number or a name that is advertised is taken, and is shown on a device that does as it
    is told; settings about other things stay as they are.  Where the setting may be fractional, so
    are fractions.  Missing: the level of the alarm (see [alarm_level_refuted]) and the fractions
    of the next theorems. *)
Theorem setting_takes_partial : forall st s v, objects st -> in_order st s -> advertised st s v ->
  plain v \/ fractions s = true -> s <> AlarmLevel ->
  exists acts w, set_value st s v = Ok acts
    /\ show (after acts st) s = Ok w /\ same (shown s v) w
    /\ forall s', ~ related s s' -> show (after acts st) s' = show st s'.
Proof.
  intros st s v Ho Hi Ha Hf Hl. destruct (setter_takes st s v Ho Hi Ha Hf Hl) as (acts & w & E & Hw & Hs).
  exists acts, w. split; [unfold set_value; rewrite (proj1 (gate_spec st s v Hi) Ha); exact E|].
  split; [exact Hw|]. split; [exact Hs|]. intros s' Hr. exact (others_keep st s v acts s' Ho E Hr).
Qed.
Print Assumptions setting_takes_partial.
(** What is not advertised is refused, and nothing is sent. *)
Theorem setting_refuses : forall st s v, in_order st s -> ~ advertised st s v -> set_value st s v = Err PyValueError.
Proof. intros st s v Hi Ha. unfold set_value. now rewrite (proj2 (gate_spec st s v Hi) Ha). Qed.
Print Assumptions setting_refuses.

(** What a setting shows is among what it advertises, unless it is shown in another form. *)
Theorem setting_shows : forall st s, in_order st s -> reshaped s = false ->
  exists v, show st s = Ok v /\ advertised st s v /\ (plain v \/ fractions s = true).
Proof.
  assert (I : forall st g k lo hi, int_field st g k lo hi -> exists z, look g k st = Ok (Int z) /\ within lo hi (Int z)).
  { intros st g k lo hi (z & H & H1 & H2). exists z. unfold look, dindex. unfold field in H. rewrite H. split; [reflexivity|].
    exists (inject_Z z). split; [constructor|]. now rewrite <- !Zle_Qle. }
  assert (S : forall st g k l, str_field st g k l -> exists x, look g k st = Ok (Str x) /\ among l (Str x)).
  { intros st g k l (x & H & Hx). exists x. unfold look, dindex. unfold field in H. rewrite H. split; [reflexivity|]. now exists x. }
  assert (H : forall st g, half_sound st g -> exists m z, field st g "max_duration" (Int m) /\
      (let! d := look g "duration" st in let! e := look g "enable" st in Ok (if truthy e then d else Int 0)) = Ok (Int z) /\ within 0 m (Int z)).
  { intros st g (m & Hm & Hm0 & Hd & b & Hb). destruct (I _ _ _ _ _ Hd) as (z & Hz & Hw). exists m.
    assert (Hb' : look g "enable" st = Ok (Bool b)) by (unfold look, dindex; unfold field in Hb; now rewrite Hb).
    rewrite Hz, Hb'. cbn [bind truthy]. destruct b; [now exists z|]. exists 0. split; [exact Hm|]. split; [reflexivity|].
    exists (inject_Z 0). split; [constructor|]. now rewrite <- !Zle_Qle. }
  intros st s Hi Hr. destruct s; cbn [in_order reshaped advertised show] in *; try discriminate;
    try (destruct (I _ _ _ _ _ Hi) as (z & Hz & Hw); exists (Int z); split; [exact Hz|split; [exact Hw|now left]]);
    try (destruct (S _ _ _ _ Hi) as (x & Hx & Hw); exists (Str x); split; [exact Hx|split; [exact Hw|now left]]).
  - (* PirThreshold *) destruct Hi as (Ha & Ht). destruct Ht as (i & Ht & H1 & H2). unfold pir_index, look, dindex. unfold field in Ht. rewrite Ht. cbn [bind].
    assert (Hc : i = 0 \/ i = 1 \/ i = 2 \/ i = 3) by lia.
    assert (Hn : exists n, name_of ranges (Int i) = Ok n /\ dget n ranges = Some i /\ In (keys_of_index i) ["0"; "1"; "2"; "3"]).
    { destruct Hc as [-> |[-> |[-> | ->]]]; [exists "Far"|exists "Mid"|exists "Near"|exists "Custom"]; cbn; intuition. }
    destruct Hn as (n & Hn & Hd & Hk). rewrite Hn. cbn [bind]. rewrite Hd. cbn [bind snd].
    unfold pir_threshold. destruct (Ha _ Hk) as (t & Hf & Hb1 & Hb2). unfold field in Hf. rewrite Hf. exists (Int t).
    split; [reflexivity|]. split; [|now left]. exists (inject_Z t). split; [constructor|]. now rewrite <- !Zle_Qle.
  - (* AlarmLevel *) destruct (S _ _ _ _ Hi) as (x & Hx & Hw). rewrite Hx. cbn [bind].
    destruct Hw as (y & Hy & Hin). injection Hy as <-.
    assert (Hd : exists z, dget x volumes = Some z /\ 0 <= z <= 3).
    { cbn in Hin. destruct Hin as [<-|[<-|[<-|[<-|[]]]]]; [exists 0|exists 1|exists 2|exists 3]; (split; [reflexivity|lia]). }
    destruct Hd as (z & Hz & H1 & H2). rewrite Hz. exists (Int z). split; [reflexivity|]. split; [|now left].
    exists (inject_Z z). split; [constructor|]. now rewrite <- !Zle_Qle.
  - (* AutoOffMinutes *) destruct Hi as (Hi & _). destruct (I _ _ _ _ _ Hi) as (z & Hz & Hw). exists (Int z). split; [exact Hz|split; [exact Hw|now left]].
  - (* FanPreset *) destruct Hi as (z & Hz & Hb). unfold look, dindex. unfold field in Hz. rewrite Hz. cbn [bind].
    assert (Hc : z = 1 \/ z = 2 \/ z = 3 \/ z = 4 \/ z = 5) by lia.
    destruct Hc as [-> |[-> |[-> |[-> | ->]]]]; cbn -[among]; eexists; (split; [reflexivity|]); (split; [eexists; (split; [reflexivity|cbn; tauto])|now left]).
  - (* DustMode *) destruct Hi as ((b & Hb) & z & Hz & Hc). unfold look, dindex. unfold field in Hb, Hz. rewrite Hb. cbn [bind].
    destruct b; [|exists (Str "Off"); split; [reflexivity|split; [exists "Off"; cbn; tauto|now left]]].
    rewrite Hz. cbn [bind]. assert (Hd : z = 0 \/ z = 1 \/ z = 2 \/ z = 3) by lia.
    destruct Hd as [-> |[-> |[-> | ->]]]; cbn -[among]; eexists; (split; [reflexivity|]); (split; [eexists; (split; [reflexivity|cbn; tauto])|now left]).
  - (* MopLevel *) destruct Hi as (z & Hz & Hb). unfold look, dindex. unfold field in Hz. rewrite Hz. cbn [bind].
    assert (Hd : z = 0 \/ z = 1 \/ z = 2 \/ z = 3) by lia.
    destruct Hd as [-> |[-> |[-> | ->]]]; cbn -[among]; eexists; (split; [reflexivity|]); (split; [eexists; (split; [reflexivity|cbn; tauto])|now left]).
  - (* FanLevel *) destruct Hi as ((b & Hb) & z & Hz & H1 & H2). unfold look, dindex. unfold field in Hb, Hz. rewrite Hb. cbn [bind].
    destruct b; [rewrite Hz; exists (Int z)|exists (Int 0)]; (split; [reflexivity|]); (split; [|now left]);
      [exists (inject_Z z)|exists (inject_Z 0)]; (split; [constructor|]); rewrite <- !Zle_Qle; lia.
  - (* SmoothOn *) destruct (H _ _ Hi) as (m & z & Hm & Hz & Hw). exists (Int z). split; [exact Hz|]. split; [now exists m|now left].
  - (* SmoothOff *) destruct (H _ _ Hi) as (m & z & Hm & Hz & Hw). exists (Int z). split; [exact Hz|]. split; [now exists m|now left].
  - (* Protection *) destruct Hi as (m & Hm & Hm0 & (b & Hb) & Hp). unfold look, dindex. unfold field in Hb. rewrite Hb. cbn [bind truthy].
    assert (Hz : exists z, (if b then match dget "protection_power" (at_ st Protect) with Some v => v | None => Int 0 end else Int 0) = Int z /\ 0 <= z <= m).
    { destruct b; [|exists 0; split; [reflexivity|lia]]. destruct Hp as [(z & Hz & Hb')|Hn].
      - unfold field in Hz. rewrite Hz. now exists z.
      - rewrite Hn. exists 0. split; [reflexivity|lia]. }
    destruct Hz as (z & -> & H1 & H2). exists (Int z). split; [reflexivity|]. split; [|now left]. exists m. split; [exact Hm|].
    exists (inject_Z z). split; [constructor|]. now rewrite <- !Zle_Qle.
  - (* Target *) destruct Hi as (lo & hi & v & Hlo & Hhi & Hv & Hw). exists v. unfold look, dindex. unfold field in Hv. rewrite Hv.
    split; [reflexivity|]. split; [now exists lo, hi|now right].
  - (* CamSound *) destruct Hi as (Hi & _). destruct (S _ _ _ _ Hi) as (x & Hx & Hw). exists (Str x). split; [exact Hx|split; [exact Hw|now left]].
  - (* CamVolume *) destruct Hi as (z & Hz & H1 & H2). unfold look, dindex. unfold field in Hz. rewrite Hz. cbn [bind to_int int_of].
    exists (Int z). split; [reflexivity|]. split; [|now left]. exists (inject_Z z). split; [constructor|]. now rewrite <- !Zle_Qle.
Qed.
Print Assumptions setting_shows.

(** So what a setting showed at one time can be put back at any later time, whatever happened to
    the device in between, as long as it still advertises it. *)
Theorem setting_restore_partial : forall st st' s v, in_order st s -> show st s = Ok v ->
  reshaped s = false -> s <> AlarmLevel ->
  objects st' -> in_order st' s -> (forall x, advertised st s x -> advertised st' s x) ->
  exists acts w, set_value st' s v = Ok acts
    /\ show (after acts st') s = Ok w /\ same v w
    /\ forall s', ~ related s s' -> show (after acts st') s' = show st' s'.
Proof.
  intros st st' s v Hi Hv Hr Hl Ho Hi' Hadv. destruct (setting_shows st s Hi Hr) as (v' & Hv' & Ha & Hp).
  assert (v' = v) by congruence. subst v'.
  destruct (setting_takes_partial st' s v Ho Hi' (Hadv v Ha) Hp Hl) as (acts & w & E & Hw & Hs & Hk).
  exists acts, w. unfold shown in Hs. rewrite Hr in Hs. now repeat split.
Qed.
Print Assumptions setting_restore_partial.
(** A setting that is shown in another form cannot: its own value is refused. *)
Theorem setting_restore_refuted : forall st s v, in_order st s -> reshaped s = true -> show st s = Ok v ->
  set_value st s v = Err PyValueError.
Proof.
  intros st s v Hi Hr Hv. apply setting_refuses; [exact Hi|].
  assert (T : forall k, (let! x := look DimmerConf k st in match x with Int z => Ok (Dur z) | _ => Err PyTypeError end) = Ok v -> exists ms, v = Dur ms).
  { intros k E. destruct (look DimmerConf k st) as [[]|]; try discriminate. cbn in E. injection E as <-. eauto. }
  assert (N : forall ms lo hi, ~ within lo hi (Dur ms)) by (intros ms lo hi (q & Hq & _); inversion Hq).
  destruct s; try discriminate; cbn [show] in Hv.
  1-4: apply T in Hv; destruct Hv as (ms & ->); apply N.
  destruct (pir_index st) as [[n i]|]; [|discriminate]. cbn [bind] in Hv. destruct (pir_threshold st _) in Hv; [|discriminate].
  cbn in Hv. injection Hv as <-. intros (n' & k & t & E & _). discriminate.
Qed.
Print Assumptions setting_restore_refuted.

(** The level of a SMART alarm: every advertised number is sent as it is, not as the name the
    device uses, and on a device that keeps it neither feature can be read afterwards. *)
Theorem alarm_level_refuted : forall st z, objects st -> 0 <= z <= 3 ->
  advertised st AlarmLevel (Int z) /\
  exists acts, set_value st AlarmLevel (Int z) = Ok acts
    /\ show (after acts st) AlarmLevel = Err PyKeyError
    /\ exists w, show (after acts st) AlarmVolume = Ok w /\ ~ advertised st AlarmVolume w.
Proof.
  intros st z Ho Hz.
  assert (Ha : within 0 3 (Int z)) by (exists (inject_Z z); split; [constructor|]; rewrite <- !Zle_Qle; lia).
  split; [exact Ha|]. exists [Send "set_alarm_configure" "" (dset "volume" (Int z) (at_ st AlarmConf))]. split.
  - unfold set_value. rewrite (proj1 (gate_number st AlarmLevel (Some (0, 3)) (Int z) eq_refl) Ha). cbn [bind setter].
    unfold set_alarm_volume. cbn [int_of].
    assert (Hc : z = 0 \/ z = 1 \/ z = 2 \/ z = 3) by lia. destruct Hc as [-> |[-> |[-> | ->]]]; reflexivity.
  - change (after _ st) with (put AlarmConf (dset "volume" (Int z) (at_ st AlarmConf)) st). cbn [show].
    rewrite (look_put _ _ _ "volume" (Int z)); [|apply dwf_dset, Ho|apply dget_dset_same]. split; [reflexivity|].
    exists (Int z). split; [reflexivity|]. intros (x & E & _). discriminate.
Qed.
Print Assumptions alarm_level_refuted.

(** Fractions: the features let them pass, but the volume of a camera's siren cannot be read once
    one was set, a motion threshold loses its fraction, and the times of a dimmer fail with a type
    error (nothing is sent). *)
Theorem fraction_refuted : forall st s q,
  (s = CamVolume /\ (0 <= q <= 10)%Q ->
     exists acts, set_value st s (Flt q) = Ok acts /\ show (after acts st) s = Err PyValueError) /\
  (s = PirThreshold /\ (0 <= q <= 100)%Q ->
     exists acts, set_value st s (Flt q) = Ok acts /\ show (after acts st) s = Ok (Int (Qnum q / Zpos (Qden q)))) /\
  (In s [FadeOff; FadeOn; GentleOff; GentleOn] /\ (0 <= q <= 10000)%Q ->
     advertised st s (Flt q) /\ set_value st s (Flt q) = Err PyTypeError).
Proof.
  intros st s q. split; [|split].
  - intros (-> & H1 & H2). exists [Send "setSirenConfig" "siren" [("volume", Digits (Flt q))]].
    assert (Ha : within 0 10 (Flt q)) by (exists q; split; [constructor|easy]).
    unfold set_value. rewrite (proj1 (gate_number st CamVolume (Some (0, 10)) _ eq_refl) Ha). cbn [bind setter]. rewrite check_in by exact Ha.
    split; [reflexivity|]. change (after _ st) with (put Siren [("volume", Digits (Flt q))] st). cbn [show].
    rewrite (look_put _ _ _ "volume" (Digits (Flt q))); [reflexivity|apply dwf1|reflexivity].
  - intros (-> & H1 & H2). exists [Send "set_trigger_sens" "" [("index", Int 3); ("value", Flt q)]].
    assert (Ha : within 0 100 (Flt q)) by (exists q; split; [constructor|easy]).
    unfold set_value. rewrite (proj1 (gate_number st PirThreshold (Some (0, 100)) _ eq_refl) Ha). cbn [bind setter].
    split; [reflexivity|].
    change (after _ st) with (put PirArray [("3", Flt q)] (put Pir [("trigger_index", Int 3)] st)).
    cbn [show]. unfold pir_index, look, dindex. rewrite dget_put by apply dwf1. cbn [sec_eqb].
    rewrite dget_put by apply dwf1. cbn [sec_eqb dget]. rewrite seqb_refl. cbn [bind name_of num].
    change (find _ ranges) with (Some ("Custom", 3)). cbn [bind]. change (dget "Custom" ranges) with (Some 3). cbn [bind fst snd].
    unfold pir_threshold. change (keys_of_index 3) with "3". rewrite dget_put by apply dwf1. cbn [sec_eqb dget]. rewrite seqb_refl.
    cbn [to_int]. rewrite Z.quot_div_nonneg; [reflexivity| |reflexivity]. unfold Qle in H1. cbn in H1. lia.
  - intros (Hs & H1 & H2).
    assert (Ha : within 0 10000 (Flt q)) by (exists q; split; [constructor|easy]).
    assert (Hb : within 0 120000 (Flt q)).
    { exists q; split; [constructor|]. split; [easy|]. eapply Qle_trans; [exact H2|]. unfold Qle. cbn. lia. }
    cbn in Hs. destruct Hs as [<-|[<-|[<-|[<-|[]]]]]; cbn [advertised]; (split; [assumption|]); unfold set_value;
      [rewrite (proj1 (gate_number st FadeOff (Some (0, 10000)) _ eq_refl) Ha)|rewrite (proj1 (gate_number st FadeOn (Some (0, 10000)) _ eq_refl) Ha)
      |rewrite (proj1 (gate_number st GentleOff (Some (0, 120000)) _ eq_refl) Hb)|rewrite (proj1 (gate_number st GentleOn (Some (0, 120000)) _ eq_refl) Hb)]; reflexivity.
Qed.
Print Assumptions fraction_refuted.

(** A wall switch with motion sensor (its values are those of the ES20M in tests/fixtures/iot) that
    is also a hub, a thermostat, a vacuum, a plug and a camera *)
Definition all_ : state := mkState (fun g => match g with
  | DimmerConf => [("fadeOffTime", Int 2000); ("fadeOnTime", Int 1000); ("gentleOffTime", Int 10000); ("gentleOnTime", Int 3000); ("minThreshold", Int 14); ("rampRate", Int 30)]
  | Pir => [("trigger_index", Int 0)]
  | PirArray => [("0", Int 80); ("1", Int 50); ("2", Int 20); ("3", Int 0)]
  | AlarmConf => [("type", Str "Alarm 1"); ("volume", Str "low"); ("duration", Int 300)]
  | AutoOff => [("delay_min", Int 120); ("enable", Bool false)]
  | CleanAttr => [("cistern", Int 2); ("clean_number", Int 1); ("suction", Int 2)]
  | DustInfo => [("auto_dust_collection", Bool true); ("dust_collection_mode", Int 0)]
  | Speaker => [("volume", Int 84)]
  | Info => [("device_on", Bool true); ("fan_speed_level", Int 2); ("min_control_temp", Int 5); ("max_control_temp", Int 30);
             ("target_temp", Flt (43 # 2)); ("temp_offset", Int (-2)); ("temp_unit", Str "celsius"); ("frost_protection_on", Bool false)]
  | OnHalf => [("duration", Int 1); ("enable", Bool true); ("max_duration", Int 60)]
  | OffHalf => [("duration", Int 5); ("enable", Bool false); ("max_duration", Int 60)]
  | Protect => [("enabled", Bool false); ("protection_power", Int 0)]
  | MaxPower => [("max_power", Int 3904)]
  | Siren => [("siren_type", Str "Tone 1"); ("volume", Digits (Int 6)); ("duration", Int 30)]
  | Own => [("_pan_step", Int 30); ("_tilt_step", Int 10)]
  end) ["Alarm 1"; "Alarm 2"] ["Siren"; "Tone 1"].
Example all_in_order : objects all_ /\ forall s, in_order all_ s.
Proof.
  split; [intros []; cbn [all_ at_]; repeat (constructor; [cbn; intuition discriminate|]); constructor|].
  assert (W : within 5 30 (Flt (43 # 2))) by (exists (43 # 2)%Q; split; [constructor|]; split; unfold Qle; cbn; lia).
  intros s; destruct s; cbn [in_order];
    try (eexists; split; [reflexivity|lia]); try (eexists; split; [reflexivity|cbn; tauto]).
  - split; [|eexists; split; [reflexivity|lia]]. intros k Hk. cbn in Hk. destruct Hk as [<-|[<-|[<-|[<-|[]]]]]; eexists; (split; [reflexivity|lia]).
  - split; [|eexists; split; [reflexivity|lia]]. intros k Hk. cbn in Hk. destruct Hk as [<-|[<-|[<-|[<-|[]]]]]; eexists; (split; [reflexivity|lia]).
  - split; [eexists; split; [reflexivity|lia]|eexists; reflexivity].
  - split; [eexists; reflexivity|eexists; split; [reflexivity|lia]].
  - split; [eexists; reflexivity|eexists; split; [reflexivity|lia]].
  - exists 60. split; [reflexivity|]. split; [lia|]. split; [eexists; split; [reflexivity|lia]|eexists; reflexivity].
  - exists 60. split; [reflexivity|]. split; [lia|]. split; [eexists; split; [reflexivity|lia]|eexists; reflexivity].
  - exists 3904. split; [reflexivity|]. split; [lia|]. split; [eexists; reflexivity|]. left. eexists; split; [reflexivity|lia].
  - exists 5, 30, (Flt (43 # 2)). now repeat split.
  - split; [eexists; split; [reflexivity|cbn; tauto]|cbn; intuition discriminate].
Qed.
Example set_target_ex : set_value all_ Target (Flt (37 # 2)) =
  Ok [Send "set_device_info" "" [("target_temp", Flt (37 # 2)); ("frost_protection_on", Bool false)]].
Proof. vm_compute. reflexivity. Qed.
Example protect_zero_ex : set_value all_ Protection (Int 0) = Ok [Send "set_protection_power" "" [("enabled", Bool false); ("protection_power", Int 0)]].
Proof. vm_compute. reflexivity. Qed.
Example pir_ex : show all_ PirRange = Ok (Enum "Far") /\ set_value all_ PirRange (Enum "Far") = Err PyValueError
  /\ set_value all_ PirRange (Str "Near") = Ok [Send "set_trigger_sens" "" [("index", Int 2)]].
Proof. vm_compute. now repeat split. Qed.

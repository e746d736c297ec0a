(** C142: several settings made one after another. *)
From Verif Require Import Base Py Base_Lemmas Series_Model Series_Spec Series_Proofs.
Open Scope string_scope.
Open Scope list_scope.
Open Scope Z_scope.

Definition seen (s : store) : view := fun g k => dget k (s g).
(** A plug with auto-off and power protection, a hub's alarm and a vacuum, in one store *)
Definition sample : store := fun g =>
  match g with
  | AutoOff => [("enable", JBool false); ("delay_min", JInt 120)]
  | LedInfo => [("led_rule", JStr "always"); ("night_mode", JObj [("start_time", JInt 1200)])]
  | Protection => [("enabled", JBool false); ("protection_power", JInt 0)]
  | AlarmConf => [("duration", JInt 10); ("type", JStr "Alarm 1"); ("volume", JStr "low")]
  | CleanAttr => [("suction", JInt 2); ("cistern", JInt 1); ("clean_number", JInt 1)]
  | DustInfo => [("auto_dust_collection", JBool true); ("dust_collection_mode", JInt 0)]
  | SpeakerVol => [("volume", JInt 50)]
  | CarpetInfo => [("carpet_clean_prefer", JStr "normal")]
  | AutoUpdate => [("enable", JBool true); ("random_range", JInt 120); ("time", JInt 180)]
  | LockInfo => [("child_lock_status", JBool false)]
  | DevInfo => [("device_on", JBool true); ("temp_unit", JStr "celsius")]
  | OnState | OffState => [("duration", JInt 3); ("enable", JBool false)]
  end.
Definition sample_facts : facts := mkFacts 3600 ["Alarm 1"; "Doorbell Ring 1"] 60 60.
Lemma sample_sound : sound sample.
Proof.
  split; [intros g; unfold dwf; destruct g; cbn; repeat (constructor; [cbn; intuition discriminate|]); constructor|].
  split; [reflexivity|]. split; [reflexivity|]. split.
  - intros g [-> | ->]; (split; [exists 3|exists false]; reflexivity).
  - intros v E. inversion E. exists 0. reflexivity.
Qed.

(** Once updates have shown every record that a call sends back since it last changed, each setting
    is as it was last set, by this object or by anyone, and an update shows it: valid calls take
    effect, invalid ones do nothing, nothing else changes. *)
Theorem series_partial f s h gs : 0 <= f_max_power f -> sound s -> careful [] h -> Forall sane h ->
  forall g k, In g gs ->
    dget k (shown (run f (start s) (h ++ [Update gs])) g) = settled f (seen s) h g k.
Proof.
  intros Hm S C N g k G. unfold run. rewrite fold_left_app. cbn [fold_left step shown].
  rewrite (proj2 (existsb_group g gs) G).
  assert (I : inv (start s) (seen s) []) by (constructor; [exact S|exact S|apply agrees_refl|reflexivity]).
  exact (inv_run f h Hm (start s) (seen s) [] I C N g k).
Qed.
Print Assumptions series_partial.
(** A sequence with updates in between, on the sample *)
Definition two_by_two : list event :=
  [Set_ (AutoOffSwitch true); Set_ (FanPreset "Max"); Update [AutoOff; CleanAttr]; Set_ (AutoOffDelay 30); Set_ (MopLevel "High");
   Other LedInfo "led_rule" (JStr "night_mode"); Set_ (ProtectFeature 2000); Set_ (SmoothOn 10); Set_ (Volume 70)].
Example series_sample : careful [] two_by_two /\ Forall sane two_by_two
  /\ settled sample_facts (seen sample) two_by_two AutoOff "enable" = Some (JBool true)
  /\ settled sample_facts (seen sample) two_by_two AutoOff "delay_min" = Some (JInt 30)
  /\ settled sample_facts (seen sample) two_by_two CleanAttr "suction" = Some (JInt 4)
  /\ settled sample_facts (seen sample) two_by_two CleanAttr "cistern" = Some (JInt 3).
Proof. cbn. repeat split; try (intros g [<-|[]]; intuition discriminate); try (intros g []); repeat constructor. Qed.

(** Settings that are sent on their own need no care: any order, any updates, anyone else. *)
Theorem series_own f s h gs : 0 <= f_max_power f -> sound s -> Forall sane h ->
  (forall c, In (Set_ c) h -> carries c = []) ->
  forall g k, In g gs -> dget k (shown (run f (start s) (h ++ [Update gs])) g) = settled f (seen s) h g k.
Proof.
  intros Hm S N O. apply series_partial; auto. generalize (@nil group). induction h as [|e h IH]; intros changed; [exact I|].
  inversion N; subst. assert (IHc : forall ch, careful ch h) by (intros ch; apply IH; [assumption|intros c Hc; apply O; right; exact Hc]).
  destruct e as [c|us|g k y]; cbn [careful]; [|apply IHc|apply IHc].
  split; [rewrite (O c) by (left; reflexivity); intros g []|apply IHc].
Qed.
Print Assumptions series_own.
Example series_own_sample : forall c, In (Set_ c) [Set_ (FanPreset "Turbo"); Set_ (CleanCount 2); Other CleanAttr "cistern" (JInt 0); Set_ (Volume 10)] -> carries c = [].
Proof. intros c [E|[E|[E|[E|[]]]]]; inversion E; reflexivity. Qed.

(** The other calls put back everything the last update showed, whatever has been set since. *)
Theorem whole_puts_back f s h c g v ws k : (forall g, dwf (s g)) -> whole c = Some g -> asks f v c = Some ws ->
  (forall y, ~ In (g, k, y) ws) -> (g = CleanAttr -> k <> "type") ->
  let x := run f (start s) h in
  dget k (kept (step f x (Set_ c)) g) = match dget k (shown x g) with Some y => Some y | None => dget k (kept x g) end.
Proof.
  intros W Wh A N Nt. cbn [step kept]. apply (whole_restores f _ _ c g v ws k); auto. apply run_wf; intros g'; apply W.
Qed.
Print Assumptions whole_puts_back.

(** So settings made in a row undo each other: switching auto-off on and then choosing its delay
    leaves it off. *)
Theorem auto_off_row_refuted :
  let h := [Set_ (AutoOffSwitch true); Set_ (AutoOffDelay 30)] in
  sound sample
  /\ settled sample_facts (seen sample) h AutoOff "enable" = Some (JBool true)
  /\ dget "enable" (shown (run sample_facts (start sample) (h ++ [Update [AutoOff]])) AutoOff) = Some (JBool false)
  /\ dget "delay_min" (shown (run sample_facts (start sample) (h ++ [Update [AutoOff]])) AutoOff) = Some (JInt 30).
Proof. split; [exact sample_sound|]. vm_compute. repeat split. Qed.
Print Assumptions auto_off_row_refuted.

(** Choosing the water level of the mop takes back the fan speed chosen before. *)
Theorem mop_row_refuted :
  let h := [Set_ (FanPreset "Max"); Set_ (MopLevel "High")] in
  settled sample_facts (seen sample) h CleanAttr "suction" = Some (JInt 4)
  /\ dget "suction" (shown (run sample_facts (start sample) (h ++ [Update [CleanAttr]])) CleanAttr) = Some (JInt 2).
Proof. vm_compute. split; reflexivity. Qed.
Print Assumptions mop_row_refuted.

(** Enabling power protection and then setting its threshold leaves it disabled; an alarm's sound is
    lost when its volume is set next; a transition time is lost when transitions are enabled. *)
Theorem other_rows_refuted :
  let after h g k := dget k (shown (run sample_facts (start sample) (h ++ [Update [g]])) g) in
  after [Set_ (ProtectSwitch true (Some 1000)); Set_ (ProtectThreshold 2000)] Protection "enabled" = Some (JBool false)
  /\ after [Set_ (AlarmSound "Doorbell Ring 1"); Set_ (AlarmVolume "high")] AlarmConf "type" = Some (JStr "Alarm 1")
  /\ after [Set_ (DustMode "Max"); Set_ (DustAuto true)] DustInfo "dust_collection_mode" = Some (JInt 0)
  /\ after [Set_ (SmoothOn 10); Set_ (Smooth true)] OnState "duration" = Some (JInt 3).
Proof. vm_compute. repeat split. Qed.
Print Assumptions other_rows_refuted.

(** What someone else changed in the meantime is taken back too, even after an update, when the
    module of the LED was not due. *)
Theorem led_others_refuted :
  let h := [Other LedInfo "night_mode" (JObj [("start_time", JInt 1300)]); Update [DevInfo]; Set_ (LedSwitch false)] in
  settled sample_facts (seen sample) h LedInfo "night_mode" = Some (JObj [("start_time", JInt 1300)])
  /\ dget "night_mode" (shown (run sample_facts (start sample) (h ++ [Update [LedInfo]])) LedInfo) = Some (JObj [("start_time", JInt 1200)]).
Proof. vm_compute. split; reflexivity. Qed.
Print Assumptions led_others_refuted.

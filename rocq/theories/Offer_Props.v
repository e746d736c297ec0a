(** C163: every feature a device offers has an id of its own and shows the field it is named for. *)
From Verif Require Import Base Py Base_Lemmas Smod_Model Feats_Model Feats_Spec Feats_Props Gadget_Model CamMod_Model WholeCam_Spec Read_Model Read_Spec Read_Proofs Read_Props
  CamRead_Model CamRead_Spec CamRead_Proofs CamRead_Props Offer_Model Offer_Spec Offer_Proofs Offer_Proofs2.
Open Scope string_scope.
Open Scope list_scope.
Open Scope Z_scope.

(** ** SMART devices *)

Definition only (t : list (string * string)) (n : string) (cs : list string) : bool :=
  forallb (fun p : string * string => negb (String.eqb (fst p) n) || smem (snd p) cs) t.
Lemma only_ok t n cs c : only t n cs = true -> In (n, c) t -> In c cs.
Proof.
  unfold only. rewrite forallb_forall. intros H I. specialize (H _ I). cbn [fst snd] in H. rewrite String.eqb_refl in H. apply smem_In. exact H.
Qed.
Lemma plain_offers_one e r n c :
  n <> "Light" -> n <> "Thermostat" -> n <> "Time" -> n <> "ColorTemperature" ->
  only component_for n [c] = true -> only field_for n [] = true -> only also_needs n [] = true -> smem n parent_only = false ->
  In (n, c) component_for -> (offers e r n <-> In c (e_components e)).
Proof.
  intros N1 N2 N3 N4 T1 T2 T3 T4 Y. unfold offers, offers_one. split.
  - intros [(A & _)|[(X & _)|(X & _)]]; try contradiction. destruct A as [(c' & I & J)|(k & v & I & _)].
    + apply (only_ok _ _ _ _ T1) in I. destruct I as [<-|[]]. exact J.
    + apply (only_ok _ _ _ _ T2) in I. destruct I.
  - intros J. left. split; [left; exists c; split; assumption|]. split; [|split; [|split]].
    + intros k I. apply (only_ok _ _ _ _ T3) in I. destruct I.
    + intros I. apply smem_false in T4. contradiction.
    + intros X. contradiction.
    + intros X. contradiction.
Qed.
Lemma plain_offers e r n c :
  In (n, c) [("ChildLock", "button_and_led"); ("ChildProtection", "child_protection"); ("BatterySensor", "battery_detect"); ("Clean", "clean");
             ("TemperatureControl", "temp_control")] -> (offers e r n <-> In c (e_components e)).
Proof.
  intros N. cbn [In] in N.
  repeat (destruct N as [N|N];
    [injection N as <- <-; apply plain_offers_one; try discriminate; try reflexivity; unfold component_for; cbn [In]; tauto|]).
  destruct N.
Qed.

Section First.
Variables (f : facts) (smooth : Z) (w : answers) (own : dict reply) (parent : option (dict reply)) (e : env) (r : option (Z * Z)) (unpair : bool) (ms : list string).
Hypothesis (S : settled f w own parent e r) (M : init_modules e [] = (ms, Ok tt)).
Notation info := (e_info e).

Lemma ms_ok : NoDup ms /\ forall n, In n ms <-> offers e r n.
Proof.
  destruct (smart_modules e r (s_range _ _ _ _ _ _ S)) as (ms' & E & D & H & _). rewrite M in E. injection E as <-. split; assumption.
Qed.
Lemma worn_ok : exists worn, (forall n, In n ms -> module_features f smooth own parent info n = Ok (feats f smooth own parent info worn n))
  /\ forall n id, In n ms -> (In id (map fst (feats f smooth own parent info worn n)) <-> gives f smooth w n id).
Proof.
  destruct ms_ok as (D & O).
  assert (X : exists worn, (In "Consumables" ms -> wear own parent info = Ok worn
                            /\ forall k, dmem k worn = true <-> fld w "getConsumablesInfo" [k] <> None)).
  { destruct (in_dec string_dec "Consumables" ms) as [I|I].
    - destruct (s_wear _ _ _ _ _ _ S) as (U & A); [apply O; exact I|].
      destruct (wear_told own parent info w (s_proper _ _ _ _ _ _ S) U A) as (worn & E & G). exists worn. auto.
    - exists []. intros J. contradiction. }
  destruct X as (worn & X). exists worn. split.
  - apply features_ok. intros I. apply X. exact I.
  - intros n id I. apply ids_gives; [exact (s_info _ _ _ _ _ _ S)| |].
    + intros ->. apply volts_told; [exact (s_proper _ _ _ _ _ _ S)|]. apply (s_energy _ _ _ _ _ _ S). apply O. exact I.
    + intros ->. apply X. exact I.
Qed.
Lemma clear_iff worn : (forall n id, In n ms -> (In id (map fst (feats f smooth own parent info worn n)) <-> gives f smooth w n id)) ->
  clear_of_clashes f smooth own parent info worn ms <-> ~ named_twice e.
Proof.
  intros G. destruct ms_ok as (D & O). unfold clear_of_clashes, named_twice.
  rewrite !O, state_own. unfold dmem.
  rewrite !(plain_offers e r "ChildLock" "button_and_led"), !(plain_offers e r "ChildProtection" "child_protection"),
    !(plain_offers e r "BatterySensor" "battery_detect"), !(plain_offers e r "Clean" "clean"), !(plain_offers e r "TemperatureControl" "temp_control") by (cbn [In]; tauto).
  assert (B : In "battery_detect" (e_components e) ->
              (In "battery_level" (map fst (feats f smooth own parent info worn "BatterySensor")) <-> dget "battery_percentage" info <> None)).
  { intros I. rewrite G by (apply O; apply (plain_offers e r "BatterySensor" "battery_detect"); [cbn [In]; tauto|exact I]).
    assert (T : fld w "get_device_info" ["battery_percentage"] <> None <-> dget "battery_percentage" info <> None).
    { unfold fld. rewrite (s_info _ _ _ _ _ _ S), follow1. reflexivity. }
    rewrite <- T. unfold gives, always. cbv zeta. cbn [In]. split.
    - intros H. destruct H as [(l & I' & _)|[(_ & [(X & _)|(_ & X)])|[(X & _)|[(X & _)|[(X & _)|[(X & _)|(X & _)]]]]]]; try discriminate X; [|exact X].
      repeat (destruct I' as [I'|I']; [discriminate I'|]). destruct I'.
    - intros H. right. left. split; [reflexivity|]. right. split; [reflexivity|exact H]. }
  assert (Dv : match dget "device_on" info with Some _ => true | None => false end = true <-> dget "device_on" info <> None).
  { destruct (dget "device_on" info); intuition congruence. }
  rewrite Dv. tauto.
Qed.

(** Unless a device is told to have one of three things twice, its first update gives it exactly the
    features it should have, no two under one id. *)
Theorem features_distinct_partial : ~ named_twice e ->
  exists fs, first_features f smooth own parent info unpair ms = Ok fs /\ NoDup (map fst fs)
    /\ forall id, In id (map fst fs) <-> gives_itself unpair w id \/ exists n, offers e r n /\ gives f smooth w n id.
Proof.
  intros N. destruct ms_ok as (D & O). destruct worn_ok as (worn & H & G).
  destruct (first_ok f smooth own parent info worn ms unpair H D) as (F & X); [apply clear_iff; assumption|].
  eexists. split; [exact F|]. split; [exact X|]. intros id. rewrite map_app, concat_fst, in_app_iff.
  rewrite (own_gives info w (s_info _ _ _ _ _ _ S) unpair id).
  assert (Y : In id (concat (map (fun n => map fst (feats f smooth own parent info worn n)) ms)) <-> exists n, offers e r n /\ gives f smooth w n id).
  { rewrite in_concat. split.
    - intros (l & L & I). apply in_map_iff in L. destruct L as (n & <- & J). exists n. split; [exact (proj1 (O n) J)|]. exact (proj1 (G n id J) I).
    - intros (n & J & I). apply (proj2 (O n)) in J. apply (proj2 (G n id J)) in I. eexists. split; [apply in_map_iff; exists n; split; [reflexivity|exact J]|exact I]. }
  rewrite Y. reflexivity.
Qed.

(** With one of them twice, the first update fails. *)
Theorem features_named_twice_refuted : named_twice e -> first_features f smooth own parent info unpair ms = Err KKasa.
Proof.
  intros N. destruct worn_ok as (worn & H & G). apply (first_clash f smooth own parent info worn ms unpair H).
  rewrite (clear_iff worn G). tauto.
Qed.

(** A feature shows what the device says in the field it is named for: it reads as a value exactly if
    the device gives that one. *)
Theorem features_show_partial : ~ named_twice e -> forall n id o,
  In (n, id, o) (meanings f w) -> offers e r n -> gives f smooth w n id -> complete f w own parent n ->
  exists fs g x, first_features f smooth own parent info unpair ms = Ok fs /\ dget id fs = Some g
    /\ value_of_feature f own parent info g = Some x /\ forall v, x = Ok v <-> o = Some v.
Proof.
  intros N n id o I J V C. destruct ms_ok as (D & O). destruct worn_ok as (worn & H & G).
  destruct (first_ok f smooth own parent info worn ms unpair H D) as (F & X); [apply clear_iff; assumption|].
  apply (proj2 (O n)) in J. apply (proj2 (G n id J)) in V. apply in_map_iff in V. destruct V as ((i & g) & E & V). cbn [fst] in E. subst i.
  destruct (meanings_agree f smooth own parent info w (s_proper _ _ _ _ _ _ S) (s_info _ _ _ _ _ _ S) worn n id o g I V C) as (x & Ex & A).
  eexists. exists g, x. split; [exact F|]. split; [|split; [exact Ex|exact A]].
  apply In_dget; [exact X|]. apply in_or_app. right. apply in_concat. exists (feats f smooth own parent info worn n). split; [|exact V]. apply in_map. exact J.
Qed.
Theorem own_features_show_partial : ~ named_twice e -> forall id o,
  In (id, o) (own_meanings w) -> gives_itself unpair w id ->
  exists fs g x, first_features f smooth own parent info unpair ms = Ok fs /\ dget id fs = Some g
    /\ value_of_feature f own parent info g = Some x /\ forall v, x = Ok v <-> o = Some v.
Proof.
  intros N id o I V. destruct ms_ok as (D & O). destruct worn_ok as (worn & H & G).
  destruct (first_ok f smooth own parent info worn ms unpair H D) as (F & X); [apply clear_iff; assumption|].
  apply (proj2 (own_gives info w (s_info _ _ _ _ _ _ S) unpair id)) in V. apply in_map_iff in V. destruct V as ((i & g) & E & V). cbn [fst] in E. subst i.
  destruct (own_agree f own parent info w (s_info _ _ _ _ _ _ S) unpair id o g I V) as (x & Ex & A).
  eexists. exists g, x. split; [exact F|]. split; [|split; [exact Ex|exact A]].
  apply In_dget; [exact X|]. apply in_or_app. left. exact V.
Qed.
End First.
Print Assumptions features_distinct_partial.
Print Assumptions features_named_twice_refuted.
Print Assumptions features_show_partial.
Print Assumptions own_features_show_partial.

(** ** Cameras: no two things are named alike. *)
Theorem camera_features_distinct : forall hub own info w b components hubdev,
  cproper w b -> same_info b (JObj info) -> cam_complete hub w own "devicemodule" ->
  exists fs, cam_first_features hub own info (cam_modules components hubdev) = Ok fs /\ NoDup (map fst fs)
    /\ forall id, In id (map fst fs) <->
         exists n, cam_offers components hubdev n
           /\ cam_gives components (hub = false /\ exists v, fld w "getConnectionType" ["rssiValue"] = Some v /\ v <> JNull) n id.
Proof.
  intros hub own info w b components hubdev P S C. destruct (signal_told hub own info w b P S C) as (s & Es & Hs).
  destruct (cam_modules_exact components hubdev) as (D & O).
  destruct (cam_first_ok hub own info _ s Es D) as (F & X). eexists. split; [exact F|]. split; [exact X|].
  intros id. rewrite concat_fst, in_concat.
  pose proof (fun n => cam_ids_gives (cam_modules components hubdev) components _ s n id (cam_offers_mask _ components hubdev eq_refl) Hs) as G. split.
  - intros (l & L & I). apply in_map_iff in L. destruct L as (n & <- & J). exists n. split; [exact (proj1 (O n) J)|]. exact (proj1 (G n) I).
  - intros (n & J & I). apply (proj2 (O n)) in J. apply (proj2 (G n)) in I. eexists. split; [apply in_map_iff; exists n; split; [reflexivity|exact J]|exact I].
Qed.
Print Assumptions camera_features_distinct.

Theorem camera_features_show : forall hub own info w b components hubdev n id o,
  cproper w b -> same_info b (JObj info) -> cam_complete hub w own "devicemodule" ->
  In (n, id, o) (cam_meanings w b) -> cam_offers components hubdev n ->
  cam_gives components (hub = false /\ exists v, fld w "getConnectionType" ["rssiValue"] = Some v /\ v <> JNull) n id ->
  cam_complete hub w own n ->
  exists fs g x, cam_first_features hub own info (cam_modules components hubdev) = Ok fs /\ dget id fs = Some g
    /\ cam_value hub own info g = Some x /\ forall v, x = Ok v <-> o = Some v.
Proof.
  intros hub own info w b components hubdev n id o P S C I J V Cn. destruct (signal_told hub own info w b P S C) as (s & Es & Hs).
  destruct (cam_modules_exact components hubdev) as (D & O). set (ms := cam_modules components hubdev) in *.
  destruct (cam_first_ok hub own info ms s Es D) as (F & X).
  apply (proj2 (cam_ids_gives ms components _ s n id (cam_offers_mask _ components hubdev eq_refl) Hs)) in V.
  apply in_map_iff in V. destruct V as ((i & g) & E & V). cbn [fst] in E. subst i.
  destruct (cam_meanings_agree hub own info ms w b P S s n id o g I V) as (x & Ex & A); [intros Z; apply Hs in Z; apply Z|exact Cn|].
  eexists. exists g, x. split; [exact F|]. split; [|split; [exact Ex|exact A]].
  apply In_dget; [exact X|]. apply in_concat. exists (cam_feats ms (sig s n) n). split; [|exact V]. apply (in_map (fun n => cam_feats ms (sig s n) n)). exact (proj2 (O n) J).
Qed.
Print Assumptions camera_features_show.

(** A plug with a meter *)
Definition p110_info : dict json :=
  [("device_id", JStr "8022"); ("device_on", JBool true); ("rssi", JInt (-40)); ("auto_off_status", JStr "off")].
Definition p110 : answers := fun k =>
  if String.eqb k "get_device_info" then RVal (JObj p110_info)
  else if String.eqb k "get_energy_usage" then RVal (JObj [("today_energy", JInt 100)])
  else if String.eqb k "get_emeter_data" then RVal (JObj [("voltage_mv", JInt 230000); ("current_ma", JInt 50); ("power_mw", JInt 1200)])
  else if String.eqb k "get_led_info" then RVal (JObj [("led_rule", JStr "always")])
  else RVal (JObj []).
Definition p110_env : env := mkEnv ["device"; "energy_monitoring"; "led"; "auto_off"] p110_info None.
Definition p110_own : dict reply :=
  map (fun k => (k, p110 k)) ["get_device_info"; "get_energy_usage"; "get_current_power"; "get_emeter_data"; "get_emeter_vgain_igain"; "get_led_info"; "get_auto_off_config"].
Definition versions : facts := mkFacts 2 1.
Lemma p110_answered q opt : answered p110 q opt.
Proof.
  intros k _ _. unfold p110. destruct (String.eqb k "get_device_info"), (String.eqb k "get_energy_usage"), (String.eqb k "get_emeter_data"), (String.eqb k "get_led_info"); eauto.
Qed.
Example p110_settled : settled versions p110 p110_own None p110_env None /\ ~ named_twice p110_env
  /\ complete versions p110 p110_own None "Energy" /\ offers p110_env None "Energy" /\ gives versions 1 p110 "Energy" "voltage"
  /\ In ("Energy", "voltage", Some (Thousandths (JInt 230000))) (meanings versions p110).
Proof.
  assert (P : proper p110).
  { constructor.
    - intros k v E. unfold p110 in E.
      destruct (String.eqb k "get_device_info"), (String.eqb k "get_energy_usage"), (String.eqb k "get_emeter_data"), (String.eqb k "get_led_info"); injection E as <-; eauto.
    - intros k [<-|[<-|[<-|[]]]]; reflexivity.
    - reflexivity.
    - discriminate. }
  assert (C : complete versions p110 p110_own None "Energy").
  { intros c I. unfold class_of in I. cbn [In] in I. repeat (destruct I as [I|I]; [try discriminate I; injection I as <-|]); [|destruct I].
    split; [|apply p110_answered]. left. split; [repeat constructor; cbn; intuition discriminate|].
    intros k K. cbn in K. destruct K as [<-|[<-|[<-|[<-|[]]]]]; reflexivity. }
  assert (O : offers p110_env None "Energy").
  { left. split; [left; exists "energy_monitoring"; split; [unfold component_for; cbn [In]; tauto|cbn; tauto]|].
    split; [|split; [|split; discriminate]].
    - intros k K. unfold also_needs in K. cbn [In] in K. repeat (destruct K as [K|K]; [try discriminate K; injection K as <-; discriminate|]). destruct K.
    - intros K. unfold parent_only in K. cbn [In] in K. repeat (destruct K as [K|K]; [discriminate K|]). destruct K. }
  split; [|split; [|split; [exact C|split; [exact O|split]]]].
  - constructor; auto; [left; reflexivity|]. intros X. exfalso. unfold offers in X. destruct X as [(X & _)|[(X & _)|(X & _)]]; try discriminate X.
    destruct X as [(c & I & J)|(k & v & I & _)].
    + apply (only_ok component_for "Consumables" ["consumables"] c eq_refl) in I. destruct I as [<-|[]]. cbn in J. intuition discriminate.
    + apply (only_ok field_for "Consumables" [] k eq_refl) in I. destruct I.
  - unfold named_twice. cbn. intuition discriminate.
  - do 3 right. left. split; [reflexivity|]. split; [reflexivity|]. split; [discriminate|left; reflexivity].
  - assert (E : existsb (fun x => match x with (n, id, Some (Thousandths (JInt z))) => String.eqb n "Energy" && String.eqb id "voltage" && Z.eqb z 230000 | _ => false end)
                        (meanings versions p110) = true) by (vm_compute; reflexivity).
    apply existsb_exists in E. destruct E as (((n & id) & o) & I & E).
    destruct o as [[j|j|j]|]; try discriminate E. destruct j as [|b|z|l|s|l|d]; try discriminate E.
    apply Bool.andb_true_iff in E. destruct E as (E & E3). apply Bool.andb_true_iff in E. destruct E as (E1 & E2).
    apply String.eqb_eq in E1, E2. apply Z.eqb_eq in E3. subst n id z. exact I.
Qed.
Example p110_features :
  first_features versions 1 p110_own None p110_info false (fst (init_modules p110_env []))
  = Ok [("device_id", Other); ("state", Truth "device_on"); ("rssi", Info "rssi"); ("reboot", Other);
        ("auto_off_enabled", Reads AutoOffEnabled); ("auto_off_minutes", Reads AutoOffDelay); ("auto_off_at", Other);
        ("current_consumption", Reads EnergyNow); ("consumption_today", Reads EnergyToday); ("consumption_this_month", Reads EnergyMonth);
        ("voltage", Reads EnergyVoltage); ("current", Reads EnergyCurrent); ("led", Reads LedOn)].
Proof. vm_compute. reflexivity. Qed.
(** A thermostat whose information has a switch, too *)
Definition heater_env : env := mkEnv ["temp_control"; "temperature"] [("device_on", JBool true)] (Some true).
Example heater_twice : named_twice heater_env /\ first_features versions 1 [] None (e_info heater_env) false (fst (init_modules heater_env [])) = Err KKasa.
Proof. split; [right; right; split; [cbn; auto|discriminate]|vm_compute; reflexivity]. Qed.
(** A camera with a mask *)
Definition c210 : answers := fun k =>
  if String.eqb k "getConnectionType" then RVal (JObj [("rssiValue", JInt (-50)); ("rssi", JStr "3")])
  else if String.eqb k "getLensMaskConfig" then RVal (JObj [("lens_mask", JObj [("lens_mask_info", JObj [("enabled", JStr "on")])])])
  else RVal (JObj [("device_info", JObj [])]).
Definition c210_own : dict reply := map (fun k => (k, c210 k)) ["getDeviceInfo"; "getConnectionType"; "getLensMaskConfig"].
Example c210_complete : cproper c210 [] /\ same_info [] (JObj []) /\ cam_complete false c210 c210_own "devicemodule" /\ cam_complete false c210 c210_own "Camera"
  /\ In ("Camera", "state", Some (Plain (JBool false))) (cam_meanings c210 []).
Proof.
  assert (A : forall q, answered c210 q []).
  { intros q k _ _. unfold c210. destruct (String.eqb k "getConnectionType"), (String.eqb k "getLensMaskConfig"); eauto. }
  split; [|split; [|split; [|split]]].
  - constructor; try discriminate; auto.
    intros k v E. unfold c210 in E. destruct (String.eqb k "getConnectionType"), (String.eqb k "getLensMaskConfig"); injection E as <-; eauto.
  - exists []. split; [reflexivity|]. split; [constructor|]. split; intros k v E; discriminate E.
  - intros c I. unfold cam_class_of in I. cbn [In] in I. repeat (destruct I as [I|I]; [try discriminate I; injection I as <-|]); [|destruct I].
    split; [|apply A]. split; [repeat constructor; cbn; intuition discriminate|]. intros k K. cbn in K. destruct K as [<-|[<-|[]]]; reflexivity.
  - intros c I. unfold cam_class_of in I. cbn [In] in I. repeat (destruct I as [I|I]; [try discriminate I; injection I as <-|]); [|destruct I].
    split; [|apply A]. split; [repeat constructor; cbn; intuition discriminate|]. intros k K. cbn in K. destruct K as [<-|[]]; reflexivity.
  - unfold cam_meanings. do 9 right. left. reflexivity.
Qed.
Example c210_features :
  cam_first_features false c210_own [] (cam_modules ["video"; "lensMask"; "ptz"] false)
  = Ok [("state", NotMasked); ("device_id", COther); ("rssi", CReads Rssi); ("signal_level", CReads SignalLevel);
        ("pan_right", COther); ("pan_left", COther); ("pan_step", COther); ("tilt_up", COther); ("tilt_down", COther); ("tilt_step", COther); ("device_time", COther)].
Proof. vm_compute. reflexivity. Qed.

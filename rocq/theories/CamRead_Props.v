(** Property C161: every reading of a camera's module is the field in which the camera keeps it. *)
From Verif Require Import Base Py Base_Lemmas Smod_Model CamMod_Model Read_Model Read_Spec Read_Proofs CamRead_Model CamRead_Spec CamRead_Proofs.
From Verif Require Import Retry_Model Smart_Model Smart_Spec CamQuery_Model CamQuery_Spec CamQuery_Props Stack_Spec Whole_Model Whole_Spec WholeCam_Model WholeCam_Spec WholeCam_Proofs WholeCam_Props.
Open Scope string_scope.
Open Scope list_scope.
Open Scope Z_scope.

(** A camera none of whose answers to the module is a refusal: a reading gives a value exactly if the
    camera reports it, and then that one.  Whether the battery is charging and the signal of a hub's
    camera are excepted; see below. *)
Theorem camera_readings_show_partial : forall hub w own b info r,
  cproper w b -> same_info b (JObj info) ->
  (forall s, r = SwitchOn s -> In s switches) -> r <> Charging -> (r = Rssi -> hub = false \/ dget "rssi" b = None) ->
  holds w (cquery hub (cmodule_of r)) own -> answered w (cquery hub (cmodule_of r)) [] ->
  forall v, cread hub own info r = Ok v <-> cmeans hub w b r = Some v.
Proof.
  intros hub w own b info r P S HS N R (W & G) A. apply agree_iff. apply cread_agrees; auto.
Qed.
Print Assumptions camera_readings_show_partial.

(** What comes with the basic information is shown whatever the object has of other answers. *)
Theorem camera_basic_readings_show_partial : forall hub w own b info r,
  cproper w b -> same_info b (JObj info) -> basic hub r = true -> r <> Charging -> (r = Rssi -> hub = false \/ dget "rssi" b = None) ->
  forall v, cread hub own info r = Ok v <-> cmeans hub w b r = Some v.
Proof. intros hub w own b info r P S B N R. apply agree_iff. now apply basic_agrees. Qed.
Print Assumptions camera_basic_readings_show_partial.

(** A refused method: the other readings of the module raise the code of a refused one.  A method that
    was never asked for: they raise an error of the library. *)
Theorem camera_readings_refused : forall hub own info r (w : answers),
  basic hub r = false -> (forall s, r = SwitchOn s -> In s switches) ->
  let q := cquery hub (cmodule_of r) in
  (forall k c, (forall k, In k q -> dget k own = Some (w k)) -> In k q -> w k = RErr c ->
     exists k' c', In k' q /\ w k' = RErr c' /\ cread hub own info r = Err (KDevice (Some c')))
  /\ (forall k, (forall k c, In k q -> dget k own <> Some (RErr c)) -> In k q -> dget k own = None -> cread hub own info r = Err KKasa).
Proof.
  intros hub own info r w B HS q.
  assert (Hg : forall g, q = [g] -> g = getter (cmodule_of r)).
  { unfold q. destruct r; cbn [cmodule_of cquery]; try discriminate; try (intros g E; injection E as <-; reflexivity); destruct hub; discriminate. }
  assert (X : forall e, cdt hub own info (cmodule_of r) = Err e -> cread hub own info r = Err e).
  { intros e E. destruct r; try discriminate B; cbn [cmodule_of] in E; cbn [cread]; unfold cat_, ctop, connection; rewrite E; reflexivity. }
  split.
  - intros k c G I V. destruct (cdt_refused hub w own info (cmodule_of r) k c Hg G I V) as (k' & c' & I' & V' & E).
    exists k', c'. split; [exact I'|]. split; [exact V'|]. now apply X.
  - intros k G I V. apply X. exact (cdt_missing hub own info (cmodule_of r) k Hg G I V).
Qed.
Print Assumptions camera_readings_refused.

(** ** Cameras of hubs tell the strength of their signal; none is shown. *)
Theorem hub_camera_signal_refuted : forall w own b info v,
  cproper w b -> same_info b (JObj info) -> v <> JNull -> dget "rssi" b = Some v ->
  cmeans true w b Rssi = Some (Plain v) /\ cread true own info Rssi = Ok (Plain JNull).
Proof.
  intros w own b info v P S _ R. split; [cbn [cmeans]; rewrite R; reflexivity|].
  cbn [cread]. unfold connection, cdt. cbn [cquery cam_data bind Read_Model.whole sub].
  rewrite (info_get b info "getConnectionType" S) by (cbn; intuition discriminate). rewrite (cp_basic _ _ P). reflexivity.
Qed.
Print Assumptions hub_camera_signal_refuted.

(** ** Whether the battery is charging: a camera that says it is not is shown as charging if it
    tells its voltage; if it does not, reading fails. *)
Theorem camera_charging_refuted : forall w hub own b info,
  same_info b (JObj info) -> dget "battery_charging" b = Some (JStr "NO") ->
  cmeans hub w b Charging = Some (Plain (JBool false))
  /\ (forall mv, dget "battery_voltage" b = Some (JInt mv) -> cread hub own info Charging = Ok (Plain (JBool true)))
  /\ (dget "battery_voltage" b = None -> cread hub own info Charging = Err PyKeyError).
Proof.
  intros w hub own b info S C. cbn [cmeans cread]. unfold battery_charging, dindex.
  rewrite (info_get b info "battery_voltage" S) by (cbn; intuition discriminate). rewrite C. split; [reflexivity|].
  split; [intros mv E|intros E]; rewrite E; reflexivity.
Qed.
Print Assumptions camera_charging_refuted.

(** ** Over a protocol: after an update of a camera that does not change its answers meanwhile, the
    readings of every module that was asked for. *)
Theorem camera_readings_after_update_partial : forall D (dev_send : D -> Smart_Model.request + dict json -> D * res (dict json)) ans treset str int init val now d w w' d' r out
    req p b i x,
  (let smart := fun d r => dev_send d (inl r) in honest smart ans /\ live smart /\ complete smart /\ explicit smart) ->
  2 <= wbatch w -> k_started d = true -> dwf (k_lu d) ->
  perform (cam_ask dev_send treset) (c_update str int init now d Ret) w = (w', (d', r, out)) ->
  (forall req k p, r = Some req -> dget k req = Some p -> cam_known ans k p (val k p)) ->
  r = Some req -> dget gdi req = Some p -> tells (val gdi p) b -> dwf b -> k_info d' = JObj i ->
  let told k := match dget k req with Some p => shown (dkeys req) (val k p) | None => RErr INTERNAL end in
  cproper told b -> (forall s, x = SwitchOn s -> In s switches) -> x <> Charging ->
  (forall k, In k (cquery false (cmodule_of x)) -> dget k req <> None) ->
  answered told (cquery false (cmodule_of x)) [] ->
  forall v, cread false (k_lu d') i x = Ok v <-> cmeans false told b x = Some v.
Proof.
  intros D dev_send ans treset str int init val now d w w' d' r out req p b i x Hs Hb Hk Hd H Hv Hr Hp Ht Hw Hi told P HS N Q A.
  destruct (cam_update_shows_camera D dev_send ans treset str int init val now d w w' d' r out Hs Hb Hk Hd H Hv)
    as (req' & Q' & _ & W & _ & G & O & J).
  assert (req' = req) by congruence. subst req'.
  assert (Ho : out = Ok tt) by (apply O; eauto).
  specialize (J Ho p b Hp Ht Hw). rewrite Hi in J.
  apply camera_readings_show_partial; auto.
  split; [exact W|]. intros k K. rewrite G. unfold has_after, told. specialize (Q k K). destruct (dget k req); [reflexivity|congruence].
Qed.
Print Assumptions camera_readings_after_update_partial.

(** ** A hub with a siren, and a doorbell with a battery that is its child *)
Definition h200 : answers := fun k =>
  if String.eqb k "getSirenConfig" then RVal (JObj [("duration", JInt 30); ("siren_type", JStr "Doorbell Ring 3"); ("volume", JStr "10")])
  else if String.eqb k "getSirenStatus" then RVal (JObj [("status", JStr "off"); ("time_left", JInt 0)])
  else if String.eqb k "getSirenTypeList" then RVal (JObj [("siren_type_list", JArr [JStr "Doorbell Ring 1"])])
  else if String.eqb k "getConnectionType" then RVal (JObj [("link_type", JStr "ethernet")])
  else if String.eqb k "getLedStatus" then RVal (JObj [("led", JObj [("config", JObj [("enabled", JStr "on")])])])
  else if String.eqb k "getMatterSetupInfo" then RVal (JObj [("setup_code", JStr "00000000000"); ("setup_payload", JStr "00:0")])
  else if String.eqb k "getSupportChildDeviceCategory" then
    RVal (JObj [("device_category_list", JArr [JObj [("category", JStr "ipcamera")]; JObj [("category", JStr "subg.trv")]])])
  else RVal (JObj []).
Definition h200_state : dict reply :=
  map (fun k => (k, h200 k)) ["getDeviceInfo"; "getConnectionType"; "getSirenConfig"; "getSirenStatus"; "getSirenTypeList"; "getLedStatus"; "getMatterSetupInfo"; "getSupportChildDeviceCategory"].
Definition d230 : dict json :=
  [("battery_charging", JStr "NO"); ("battery_percent", JInt 90); ("dev_id", JStr "ID1"); ("low_battery", JBool false); ("rssi", JInt (-43))].
Definition d230_info : dict json :=
  [("battery_charging", JStr "NO"); ("battery_percent", JInt 90); ("device_id", JStr "ID1"); ("low_battery", JBool false); ("rssi", JInt (-43))].
Lemma occurs_char p s : occurs p s -> exists t, p = "" \/ exists c p', p = String c p' /\ t = s /\ In c (list_ascii_of_string s).
Proof.
  intros (a & b & ->). exists (a ++ p ++ b)%string. destruct p as [|c p]; [left; reflexivity|]. right. exists c, p. split; [reflexivity|]. split; [reflexivity|].
  induction a as [|x a IH]; cbn; auto.
Qed.
Example h200_proper : cproper h200 d230.
Proof.
  constructor.
  - intros k v. unfold h200. repeat match goal with |- context [String.eqb k ?x] => destruct (String.eqb k x) end; intros E; injection E as <-; eauto.
  - discriminate.
  - intros v E. vm_compute in E. injection E as <-. eexists. split; [reflexivity|]. intros c s [<-|[<-|[]]] H; vm_compute in H; injection H as <-; [left; reflexivity|].
    right. intros O. apply occurs_char in O. destruct O as (t & [O|(c & p & Hp & _ & I)]); [discriminate O|]. injection Hp as <- _. cbn in I. intuition discriminate.
  - right. reflexivity.
  - reflexivity.
Qed.
Example d230_same : same_info d230 (JObj d230_info).
Proof.
  exists d230_info. split; [reflexivity|]. split; [repeat constructor; cbn; intuition discriminate|]. split.
  - intros n v E. apply dget_In in E. cbn in E.
    destruct E as [E|[E|[E|[E|[E|[]]]]]]; injection E as <- <-;
      [exists "battery_charging"|exists "battery_percent"|exists "dev_id"|exists "low_battery"|exists "rssi"]; split; reflexivity.
  - intros k v E. apply dget_In in E. cbn in E.
    destruct E as [E|[E|[E|[E|[E|[]]]]]]; injection E as <- <-; eexists; (split; [reflexivity|auto]).
Qed.
Example h200_holds : forall hub m, In m [GAlarm; GMatter; GDevice; GSetup; GSwitch led] ->
  holds h200 (cquery hub m) h200_state /\ answered h200 (cquery hub m) [].
Proof.
  intros hub m Hm. split.
  - split; [repeat constructor; cbn; intuition discriminate|].
    intros k K. destruct Hm as [<-|[<-|[<-|[<-|[<-|[]]]]]]; destruct hub; cbn in K; repeat (destruct K as [<-|K]; [reflexivity|]); destruct K.
  - intros k K _. destruct Hm as [<-|[<-|[<-|[<-|[<-|[]]]]]]; destruct hub; cbn in K; repeat (destruct K as [<-|K]; [eexists; reflexivity|]); destruct K.
Qed.
Example h200_reads :
  cread false h200_state d230_info SirenVolume = Ok (Plain (JInt 10))
  /\ cread false h200_state d230_info SirenActive = Ok (Plain (JBool false))
  /\ cread false h200_state d230_info (SwitchOn led) = Ok (Plain (JBool true))
  /\ cread false h200_state d230_info Rssi = Ok (Plain JNull)
  /\ cread false h200_state d230_info Categories = Ok (Plain (JArr [JStr "camera"; JStr "subg.trv"]))
  /\ cread true h200_state d230_info Percent = Ok (Plain (JInt 90))
  /\ cread true h200_state d230_info BatteryTemperature = Err PyKeyError
  /\ cread true h200_state d230_info Id = Ok (Plain (JStr "ID1"))
  /\ cread true h200_state d230_info Rssi = Ok (Plain JNull)
  /\ cread true h200_state d230_info Charging = Err PyKeyError.
Proof. repeat split. Qed.
(** Refused, and never asked for *)
Example camera_refused :
  cread false [("getSirenStatus", RVal (JObj [("status", JStr "on")])); ("getSirenConfig", RErr (-40106)); ("getSirenTypeList", RVal (JObj []))] [] SirenActive
    = Err (KDevice (Some (-40106)))
  /\ cread false [] [] SirenActive = Err KKasa /\ cread false [] [] (SwitchOn person) = Err KKasa.
Proof. repeat split. Qed.
(** The camera of WholeCam_Props, that says nothing about its light: after the first update and another *)
Example camera_update_reads : exists w1 d1 r1 w2 d2 req2,
  perform (cam_ask (xw_send "") (fun d => d)) (c_update xw_str xw_int xw_init SEC xw_new Ret) (Smart_Model.mkW tt 5 []) = (w1, (d1, r1, Ok tt)) /\
  k_started d1 = true /\
  perform (cam_ask (xw_send "") (fun d => d)) (c_update xw_str xw_int xw_init (61 * SEC) d1 Ret) w1 = (w2, (d2, Some req2, Ok tt)) /\
  (forall k, In k (cquery false GDevice ++ cquery false (GSwitch led)) -> dget k req2 <> None) /\
  k_info d2 = JObj [("model", JStr "C100"); ("alias", JStr "Door"); ("mac", JStr "AA")] /\
  cread false (k_lu d2) [("model", JStr "C100"); ("alias", JStr "Door"); ("mac", JStr "AA")] Rssi = Ok (Plain JNull) /\
  cread false (k_lu d2) [("model", JStr "C100"); ("alias", JStr "Door"); ("mac", JStr "AA")] (SwitchOn led) = Err PyKeyError.
Proof.
  do 6 eexists. split; [vm_compute; reflexivity|]. split; [reflexivity|]. split; [vm_compute; reflexivity|].
  split; [intros k K; cbn in K; repeat (destruct K as [<-|K]; [vm_compute; discriminate|]); destruct K|].
  repeat split; vm_compute; reflexivity.
Qed.

(** Device types (C58) and the device info (C78, C79). *)
From Coq Require Import Lia Permutation.
From Verif Require Import Base Base_Lemmas Py Factory_Model Gadget_Props DevType_Model.
Open Scope string_scope.
Open Scope list_scope.

(** ** C58 *)
(** [x] occurs in [s]; [s] ends with [x] *)
Definition has (x s : string) : Prop := exists a b, s = (a ++ x ++ b)%string.
Definition ending (x s : string) : Prop := exists a, s = (a ++ x)%string.
(** The first rule whose condition holds decides. *)
Fixpoint decided {A} (rules : list (Prop * A)) (t : A) : Prop :=
  match rules with
  | [] => False
  | (P, u) :: l => P /\ t = u \/ ~ P /\ decided l t
  end.
Lemma prefix_app : forall x s, String.prefix x s = true <-> exists b, s = (x ++ b)%string.
Proof.
  induction x as [|c x IH]; intro s.
  - destruct s; (split; [intros _; eexists; reflexivity|reflexivity]).
  - destruct s as [|d s]; [split; [discriminate|intros [b E]; discriminate]|].
    change (String.prefix (String c x) (String d s)) with (if ascii_dec c d then String.prefix x s else false). destruct (ascii_dec c d) as [->|N].
    + rewrite IH. split; intros [b E]; exists b; [rewrite E; reflexivity|injection E as E; exact E].
    + split; [discriminate|]. intros [b E]. injection E as E _. congruence.
Qed.
Lemma sin_has : forall x s, sin x s = true <-> has x s.
Proof.
  intros x s. unfold sin. induction s as [|c s IH].
  - destruct x as [|d x]; cbn; [split; [intros _; exists "", ""; reflexivity|reflexivity]|].
    split; [discriminate|]. intros (a & b & E). destruct a; discriminate.
  - assert (E : String.index 0 x (String c s) = if String.prefix x (String c s) then Some O else match String.index 0 x s with Some n => Some (S n) | None => None end) by (destruct x; reflexivity).
    rewrite E. clear E. destruct (String.prefix x (String c s)) eqn:P.
    + apply prefix_app in P as [b E]. split; [intros _; exists "", b; exact E|reflexivity].
    + destruct (String.index 0 x s) as [n|].
      * split; [intros _|reflexivity]. destruct IH as [(a & b & E) _]; [reflexivity|]. exists (String c a), b. rewrite E. reflexivity.
      * split; [discriminate|]. intros (a & b & E). destruct a as [|d a].
        -- assert (Q : String.prefix x (String c s) = true) by (apply prefix_app; exists b; exact E). congruence.
        -- injection E as _ E. destruct IH as [_ IH]. apply IH. exists a, b. exact E.
Qed.
Lemma rule_yes : forall A (P : Prop) (u : A) l t, P -> t = u -> decided ((P, u) :: l) t.
Proof. intros. left. split; assumption. Qed.
Lemma rule_no : forall A (P : Prop) (u : A) l t, ~ P -> decided l t -> decided ((P, u) :: l) t.
Proof. intros. right. split; assumption. Qed.
Lemma decided_unique : forall A (rules : list (Prop * A)) t u, decided rules t -> decided rules u -> t = u.
Proof.
  intros A rules t u. induction rules as [|[P v] l IH]; [contradiction|]. intros [[Hp ->]|[Hp H]] [[Hp' ->]|[Hp' H']]; try reflexivity; try contradiction. exact (IH H H').
Qed.
Lemma sin_no : forall x s, sin x s = false -> ~ has x s.
Proof. intros x s H C. apply sin_has in C. congruence. Qed.
(** The types of SMART devices, by their family and components *)
Definition smart_rules (family : string) (components : list string) : list (Prop * dtype) :=
  [(has "HUB" family, THub);
   (has "PLUG" family /\ In "child_device" components, TStrip);
   (has "PLUG" family, TPlug);
   (In "light_strip" components, TLightStrip);
   (has "SWITCH" family /\ In "child_device" components, TWallSwitch);
   (In "dimmer_calibration" components, TDimmer);
   (In "brightness" components, TBulb);
   (has "SWITCH" family, TWallSwitch);
   (has "SENSOR" family, TSensor);
   (has "ENERGY" family, TThermostat);
   (has "ROBOVAC" family, TVacuum);
   (has "TAPOCHIME" family, TChime);
   (True, TPlug)].
Ltac by_rules :=
  match goal with
  | |- decided ((True, _) :: _) _ => apply rule_yes; [exact I|reflexivity]
  | |- decided ((?P, _) :: _) _ =>
      first [apply rule_yes; [solve [repeat split; first [apply sin_has; assumption|apply smem_in; assumption]]|reflexivity]
            |apply rule_no; [solve [first [apply sin_no; assumption|apply smem_no; assumption
               |intros [Hx _]; revert Hx; apply sin_no; assumption|intros [_ Hx]; revert Hx; apply smem_no; assumption]]|by_rules]]
  end.
Theorem smart_type_rules : forall family components t,
  decided (smart_rules family components) t <-> type_from_components components family = t.
Proof.
  intros f c t.
  assert (E : decided (smart_rules f c) (type_from_components c f)).
  { unfold smart_rules, type_from_components.
    destruct (sin "HUB" f) eqn:E1; [by_rules|]. destruct (sin "PLUG" f) eqn:E2; [destruct (smem "child_device" c) eqn:E3; by_rules|].
    destruct (smem "light_strip" c) eqn:E3; [by_rules|]. destruct (sin "SWITCH" f) eqn:E4, (smem "child_device" c) eqn:E5; cbn [andb]; try solve [by_rules];
    (destruct (smem "dimmer_calibration" c) eqn:E6; [by_rules|]); (destruct (smem "brightness" c) eqn:E7; [by_rules|]); try solve [by_rules];
    (destruct (sin "SENSOR" f) eqn:E8; [by_rules|]); (destruct (sin "ENERGY" f) eqn:E9; [by_rules|]);
    (destruct (sin "ROBOVAC" f) eqn:E10; [by_rules|]); (destruct (sin "TAPOCHIME" f) eqn:E11; by_rules). }
  split; [intro H; exact (decided_unique _ _ _ _ E H)|intros <-; exact E].
Qed.
Print Assumptions smart_type_rules.
(** The order of the components, and repeated ones, do not matter; a type is always found. *)
Theorem smart_type_found : forall family c c', (forall x, In x c <-> In x c') ->
  type_from_components c family = type_from_components c' family /\
  ~ In (type_from_components c family) [TUnknown; TCamera; TDoorbell; TStripSocket; TFan].
Proof.
  intros f c c' H.
  assert (M : forall x, smem x c = smem x c') by (intro x; apply Bool.eq_iff_eq_true; rewrite !smem_in; apply H).
  split; [unfold type_from_components; rewrite !M; reflexivity|]. unfold type_from_components.
  repeat match goal with |- context [if ?b then _ else _] => destruct b end; cbn; intuition discriminate.
Qed.
Print Assumptions smart_type_found.
(** A device keeps the type it once had, and has none before its components and family are known. *)
Theorem smart_type_kept : forall known info components,
  (known <> TUnknown -> smart_type known info components = known) /\
  (smart_type TUnknown info components = TUnknown <-> components = [] \/ dget "type" info = Some "" \/
     dget "type" info = None /\ (dget "device_type" info = None \/ dget "device_type" info = Some "")) /\
  smart_type (smart_type known info components) info components = smart_type known info components.
Proof.
  intros known info c.
  assert (K : forall k, k <> TUnknown -> forall i l, smart_type k i l = k).
  { intros k Hk i l. unfold smart_type. destruct k; try reflexivity. contradiction. }
  split; [intro H; apply K; exact H|]. split.
  - unfold smart_type. cbn [is_unknown negb]. set (s := match dget "type" info with Some t => t | None => _ end).
    assert (S : s = "" <-> dget "type" info = Some "" \/ dget "type" info = None /\ (dget "device_type" info = None \/ dget "device_type" info = Some "")).
    { subst s. destruct (dget "type" info) as [t|]; [|destruct (dget "device_type" info) as [t|]].
      - split; [intros ->; tauto|]. intros [E|[E _]]; congruence.
      - split; [intros ->; tauto|]. intros [E|[_ [E|E]]]; congruence.
      - tauto. }
    rewrite <- S. destruct (String.eqb_spec s ""); cbn [orb]; [tauto|]. destruct c as [|x l]; [tauto|].
    pose proof (proj2 (smart_type_found s (x :: l) (x :: l) (fun y => iff_refl _))) as N. split.
    + intro E. exfalso. apply N. rewrite E. left. reflexivity.
    + intros [E|E]; [discriminate|contradiction].
  - destruct (is_unknown (smart_type known info c)) eqn:U.
    + destruct (smart_type known info c) eqn:E; try discriminate. destruct known; try (rewrite K in E by discriminate; discriminate). exact E.
    + apply K. intro E. rewrite E in U. discriminate.
Qed.
Print Assumptions smart_type_kept.
Example smart_type_ex : smart_type TUnknown [("type", "SMART.TAPOBULB")] ["device"; "brightness"] = TBulb /\
  smart_type TUnknown [("type", "SMART.TAPOBULB")] [] = TUnknown /\ decided (smart_rules "SMART.KASAPLUG" ["child_device"]) TStrip.
Proof. split; [reflexivity|]. split; [reflexivity|]. apply smart_type_rules. reflexivity. Qed.
(** A family nobody knows is a plug, not an error. *)
Theorem smart_unknown_refuted : type_from_components ["device"] "SMART.TAPOTOASTER" = TPlug /\ type_from_components [] "" = TPlug.
Proof. split; reflexivity. Qed.
Print Assumptions smart_unknown_refuted.

(** Children are told apart by their category. *)
Definition child_rules (category : string) : list (Prop * dtype) :=
  [(category = "plug.powerstrip.sub-plug", TPlug); (category = "subg.plugswitch.switch", TWallSwitch);
   (In category ["subg.trigger.contact-sensor"; "subg.trigger.temp-hmdt-sensor"; "subg.trigger.water-leak-sensor"; "subg.trigger.motion-sensor"; "subg.trigger.button"], TSensor);
   (category = "kasa.switch.outlet.sub-fan", TFan); (category = "kasa.switch.outlet.sub-dimmer", TDimmer); (category = "subg.trv", TThermostat);
   (True, TUnknown)].
Theorem child_type_rules : forall known category,
  (known <> TUnknown -> child_type known category = known) /\
  (category = None -> child_type TUnknown category = TUnknown) /\
  (forall c, category = Some c -> decided (child_rules c) (child_type TUnknown category)).
Proof.
  intros known category. split; [destruct known; try reflexivity; contradiction|]. split; [intros ->; reflexivity|]. intros c ->.
  unfold child_type, child_types. cbn [is_unknown negb dget]. unfold child_rules.
  destruct (String.eqb_spec c "") as [->|N0].
  { repeat (apply rule_no; [cbn; intuition discriminate|]). apply rule_yes; [exact I|reflexivity]. }
  repeat match goal with |- context [String.eqb c ?s] => destruct (String.eqb_spec c s);
    [subst c; repeat first [apply rule_yes; [cbn; tauto|reflexivity]|apply rule_no; [cbn; intuition discriminate|]]|] end.
  repeat (apply rule_no; [cbn; intuition congruence|]). apply rule_yes; [exact I|reflexivity].
Qed.
Print Assumptions child_type_rules.
Example child_type_ex : child_type TUnknown (Some "subg.trv") = TThermostat /\ child_type TUnknown (Some "toaster") = TUnknown.
Proof. split; reflexivity. Qed.

(** Cameras, doorbells and camera hubs *)
Lemma sdrop_app : forall a b, sdrop (String.length a) (a ++ b)%string = b.
Proof. induction a as [|c a IH]; intro b; [destruct b; reflexivity|exact (IH b)]. Qed.
Lemma stake_sdrop : forall n s, s = (stake n s ++ sdrop n s)%string.
Proof. induction n as [|n IH]; intros [|c s]; try reflexivity. cbn. f_equal. apply IH. Qed.
Lemma append_length : forall a b, String.length (a ++ b)%string = (String.length a + String.length b)%nat.
Proof. induction a as [|c a IH]; intro b; [reflexivity|]. cbn. f_equal. apply IH. Qed.
Lemma ends_with_spec : forall x s, ends_with x s = true <-> ending x s.
Proof.
  intros x s. unfold ends_with. rewrite andb_true_iff, String.eqb_eq. split.
  - intros [_ E]. exists (stake (String.length s - String.length x) s). rewrite <- E at 2. apply stake_sdrop.
  - intros [a ->]. rewrite append_length. split; [apply Nat.leb_le; lia|].
    replace (String.length a + String.length x - String.length x)%nat with (String.length a) by lia. apply sdrop_app.
Qed.
Definition cam_rules (device_type : string) : list (Prop * dtype) :=
  [(device_type = "", TUnknown); (ending "HUB" device_type, THub); (has "DOORBELL" device_type, TDoorbell); (True, TCamera)].
Theorem cam_type_rules : forall known info,
  (known <> TUnknown -> cam_type known info = known) /\
  (dget "device_type" info = None -> cam_type TUnknown info = TUnknown) /\
  (forall d, dget "device_type" info = Some d -> decided (cam_rules d) (cam_type TUnknown info)).
Proof.
  intros known info. split; [destruct known; try reflexivity; contradiction|]. unfold cam_type. cbn [is_unknown andb].
  split; [intros ->; destruct info; reflexivity|]. intros d H. destruct info as [|kv info]; [discriminate|]. rewrite H. unfold cam_type_of, cam_rules.
  destruct (String.eqb_spec d ""); [apply rule_yes; [assumption|reflexivity]|]. apply rule_no; [assumption|].
  destruct (ends_with "HUB" d) eqn:E1; [apply rule_yes; [apply ends_with_spec; assumption|reflexivity]|].
  apply rule_no; [intro C; apply ends_with_spec in C; congruence|].
  destruct (sin "DOORBELL" d) eqn:E2; by_rules.
Qed.
Print Assumptions cam_type_rules.
Example cam_type_ex : cam_type TUnknown [("device_type", "SMART.TAPOHUB")] = THub /\ cam_type TUnknown [("device_type", "SMART.IPCAMERA")] = TCamera.
Proof. split; reflexivity. Qed.
(** Every type has a name of its own, which gives it back. *)
Theorem type_names : forall t, (exists n, In (t, n) dtypes /\ dtype_from_value n = t) /\
  (forall n n', In (t, n) dtypes -> In (t, n') dtypes -> n = n') /\
  forall s, (forall t' n, In (t', n) dtypes -> s <> n) -> dtype_from_value s = TUnknown.
Proof.
  intro t. split; [|split].
  - destruct t; (eexists; split; [cbn; tauto|reflexivity]).
  - intros n n' H H'. destruct t; cbn in H, H'; intuition congruence.
  - intros s H. unfold dtype_from_value. destruct (find _ _) as [[u n]|] eqn:F; [|reflexivity]. apply find_some in F as [I E]. apply String.eqb_eq in E. cbn in E. subst s. exfalso. exact (H u n I eq_refl).
Qed.
Print Assumptions type_names.

(** Legacy devices: the system info, and the texts in it *)
Definition sys_info_of (info : json) (sys : dict json) : Prop :=
  exists i s, info = JObj i /\ dget "system" i = Some (JObj s) /\ dget "get_sysinfo" s = Some (JObj sys) /\ dget "system" sys = None.
Definition iot_type_field (sys : dict json) (v : option json) : Prop :=
  match dget "type" sys with Some x => v = Some x | None => v = dget "mic_type" sys end.
Definition iot_name (sys : dict json) (n : option string) : Prop := dget "dev_name" sys = option_map JStr n.
Definition named_with (x : string) (f : string -> string) (n : option string) : Prop := match n with Some s => has x (f s) | None => False end.
Definition iot_rules (type : string) (name : option string) (sys : dict json) : list (Prop * device_type) :=
  [(named_with "Dimmer" (fun s => s) name, Dimmer);
   (has "smartplug" (lower type) /\ dget "children" sys <> None, Strip);
   (has "smartplug" (lower type) /\ named_with "light" lower name, WallSwitch);
   (has "smartplug" (lower type), Plug);
   (has "smartbulb" (lower type) /\ dget "length" sys <> None, LightStrip);
   (has "smartbulb" (lower type), Bulb);
   (True, Plug)].
Definition iot_classes : list (device_type * device_class) :=
  [(Bulb, IotBulb); (Plug, IotPlug); (Dimmer, IotDimmer); (Strip, IotStrip); (WallSwitch, IotWallSwitch); (LightStrip, IotLightStrip)].
Lemma dmem_spec : forall A k (d : dict A), dmem k d = true <-> dget k d <> None.
Proof. intros A k d. unfold dmem. destruct (dget k d); split; intro H; try reflexivity; try discriminate; congruence. Qed.
Lemma iot_type_found : forall info sys, sys_info_of info sys -> forall t n, iot_type_field sys (Some (JStr t)) -> iot_name sys n ->
  exists d, type_from_sys_info info = Ok d /\ decided (iot_rules t n sys) d.
Proof.
  intros info sys (i & s & -> & Hi & Hs & Hn) t n Ht Nm. unfold iot_name in Nm.
  assert (E : type_from_sys_info (JObj i) =
     let dimmer := match n with Some x => sin "Dimmer" x | None => false end in
     if dimmer then Ok Dimmer
     else if sin "smartplug" (lower t) then
       if dmem "children" sys then Ok Strip else Ok (if match n with Some x => sin "light" (lower x) | None => false end then WallSwitch else Plug)
     else if sin "smartbulb" (lower t) then Ok (if dmem "length" sys then LightStrip else Bulb) else Ok Plug).
  { assert (X : extract_sys_info (JObj i) = Ok (JObj sys)).
    { unfold extract_sys_info. cbn [jget_or_empty bind]. rewrite Hi. cbn [jget_or_empty bind]. rewrite Hs. cbn [jget_or_empty bind]. rewrite Hn.
      cbn [jlen bind List.length]. destruct (List.length sys); reflexivity. }
    assert (G : get_either "type" "mic_type" (JObj sys) = Ok (JStr t)).
    { unfold get_either, iot_type_field in *. destruct (dget "type" sys); [congruence|]. rewrite <- Ht. reflexivity. }
    assert (Mn : dmem "system" sys = false) by (unfold dmem; rewrite Hn; reflexivity).
    assert (Mi : dmem "system" i = true) by (unfold dmem; rewrite Hi; reflexivity).
    assert (Ms : dmem "get_sysinfo" s = true) by (unfold dmem; rewrite Hs; reflexivity).
    assert (Di : dindex "system" i = Ok (JObj s)) by (unfold dindex; rewrite Hi; reflexivity).
    unfold type_from_sys_info. repeat (progress (cbn [jget_or_empty bind jcontains jitem andb negb]; rewrite ?Hi, ?Hs, ?Mn, ?Mi, ?Ms, ?Di)).
    rewrite X. cbn [bind]. rewrite G. cbn [bind jcontains jitem]. unfold dmem at 1. rewrite Nm. destruct n as [x|]; cbn [option_map bind].
    - unfold dindex. rewrite Nm. cbn [bind option_map]. change (jcontains "Dimmer" (JStr x)) with (Ok (sin "Dimmer" x)). cbn [bind].
      destruct (sin "Dimmer" x); [reflexivity|].
      cbn [jlower bind jget]. rewrite Nm. destruct (sin "smartplug" (lower t)).
      + destruct (dmem "children" sys); cbn [bind]; [reflexivity|]. cbn [option_map truthy]. destruct (String.eqb_spec x ""); cbn [negb bind jlower]; [subst x|]; reflexivity.
      + destruct (sin "smartbulb" (lower t)); reflexivity.
    - cbn [jlower bind jget]. rewrite Nm. destruct (sin "smartplug" (lower t)).
      + destruct (dmem "children" sys); reflexivity.
      + destruct (sin "smartbulb" (lower t)); reflexivity. }
  rewrite E. cbv zeta. clear E. unfold iot_rules.
  assert (D : forall x f, (match n with Some y => sin x (f y) | None => false end) = true <-> named_with x f n).
  { intros x f. unfold named_with. destruct n; [apply sin_has|split; [discriminate|contradiction]]. }
  destruct (match n with Some x => sin "Dimmer" x | None => false end) eqn:E1.
  { eexists. split; [reflexivity|]. apply rule_yes; [apply (D "Dimmer" (fun s => s)); exact E1|reflexivity]. }
  assert (N1 : ~ named_with "Dimmer" (fun s => s) n) by (intro C; apply D in C; congruence).
  destruct (sin "smartplug" (lower t)) eqn:E2; [|assert (N2 := sin_no _ _ E2)].
  - apply sin_has in E2. destruct (dmem "children" sys) eqn:E3.
    + apply dmem_spec in E3. eexists. split; [reflexivity|]. apply rule_no; [exact N1|]. apply rule_yes; [split; assumption|reflexivity].
    + assert (N3 : ~ dget "children" sys <> None) by (intro C; apply dmem_spec in C; congruence).
      eexists. split; [reflexivity|]. apply rule_no; [exact N1|]. apply rule_no; [tauto|].
      destruct (match n with Some x => sin "light" (lower x) | None => false end) eqn:E4.
      * apply D in E4. apply rule_yes; [split; assumption|reflexivity].
      * apply rule_no; [intros [_ C]; apply D in C; congruence|]. apply rule_yes; [exact E2|reflexivity].
  - destruct (sin "smartbulb" (lower t)) eqn:E3; [|assert (N3 := sin_no _ _ E3)].
    + apply sin_has in E3. eexists. split; [reflexivity|]. apply rule_no; [exact N1|]. do 3 (apply rule_no; [tauto|]).
      destruct (dmem "length" sys) eqn:E4.
      * apply dmem_spec in E4. apply rule_yes; [split; assumption|reflexivity].
      * apply rule_no; [intros [_ C]; apply dmem_spec in C; congruence|]. apply rule_yes; [exact E3|reflexivity].
    + eexists. split; [reflexivity|]. apply rule_no; [exact N1|]. do 5 (apply rule_no; [tauto|]). apply rule_yes; [exact I|reflexivity].
Qed.
(** The class of a legacy device follows from its type and name; without a type it is a
    library error. *)
Theorem iot_class_rules : forall info sys, sys_info_of info sys ->
  (forall t n d, iot_type_field sys (Some (JStr t)) -> iot_name sys n -> decided (iot_rules t n sys) d ->
     exists c, In (d, c) iot_classes /\ class_from_sys_info info = Ok c) /\
  (iot_type_field sys None \/ iot_type_field sys (Some JNull) -> class_from_sys_info info = Err KKasa).
Proof.
  intros info sys S. split.
  - intros t n d Ht Hn Hd. destruct (iot_type_found info sys S t n Ht Hn) as (d' & E & D'). pose proof (decided_unique _ _ _ _ Hd D') as <-.
    unfold class_from_sys_info. rewrite E. cbn [bind].
    assert (C : d <> Camera).
    { intros ->. unfold iot_rules in Hd. cbn in Hd. decompose [or and] Hd; try discriminate; contradiction. }
    destruct d; try contradiction; eexists; (split; [|reflexivity]); cbn; tauto.
  - intro H. destruct S as (i & s & -> & Hi & Hs & Hn).
    assert (X : extract_sys_info (JObj i) = Ok (JObj sys)).
    { unfold extract_sys_info. cbn [jget_or_empty bind]. rewrite Hi. cbn [jget_or_empty bind]. rewrite Hs. cbn [jget_or_empty bind]. rewrite Hn.
      cbn [jlen bind List.length]. destruct (List.length sys); reflexivity. }
    assert (G : get_either "type" "mic_type" (JObj sys) = Ok JNull).
    { unfold get_either, iot_type_field in *. destruct (dget "type" sys); [destruct H as [H|H]; congruence|]. destruct H as [H|H]; rewrite <- H; reflexivity. }
    assert (Mn : dmem "system" sys = false) by (unfold dmem; rewrite Hn; reflexivity).
    assert (Mi : dmem "system" i = true) by (unfold dmem; rewrite Hi; reflexivity).
    assert (Ms : dmem "get_sysinfo" s = true) by (unfold dmem; rewrite Hs; reflexivity).
    assert (Di : dindex "system" i = Ok (JObj s)) by (unfold dindex; rewrite Hi; reflexivity).
    unfold class_from_sys_info, type_from_sys_info. repeat (progress (cbn [jget_or_empty bind jcontains jitem andb negb]; rewrite ?Hi, ?Hs, ?Mn, ?Mi, ?Ms, ?Di)).
    rewrite X. cbn [bind]. rewrite G. reflexivity.
Qed.
Print Assumptions iot_class_rules.
Example iot_class_ex : let sys := [("mic_type", JStr "IOT.SMARTBULB"); ("length", JInt 16)] in
  sys_info_of (JObj [("system", JObj [("get_sysinfo", JObj sys)])]) sys /\
  class_from_sys_info (JObj [("system", JObj [("get_sysinfo", JObj sys)])]) = Ok IotLightStrip /\ iot_name sys None.
Proof. split; [|split; reflexivity]. do 2 eexists. repeat split. Qed.
(** An unheard-of type is taken for a plug; a camera has no class and the error is not the
    library's. *)
Theorem iot_unknown_refuted :
  class_from_sys_info (JObj [("system", JObj [("get_sysinfo", JObj [("type", JStr "IOT.TOASTER")])])]) = Ok IotPlug /\
  class_from_sys_info (JObj [("system", JObj [("get_sysinfo", JObj [("system", JObj [("type", JStr "IOT.IPCAMERA")])])])]) = Err PyKeyError.
Proof. split; reflexivity. Qed.
Print Assumptions iot_unknown_refuted.

(** ** C78 *)
Definition lacks (c : ascii) (s : string) : Prop := smem_char c s = false.
Lemma partition_at : forall c a b, lacks c a -> partition c (a ++ String c b)%string = (a, b).
Proof.
  intros c a b. unfold lacks. induction a as [|d a IH]; intro H; cbn in *.
  - rewrite Ascii.eqb_refl. reflexivity.
  - apply orb_false_iff in H as [H1 H2]. rewrite H1, (IH H2). reflexivity.
Qed.
Lemma partition_none : forall c a, lacks c a -> partition c a = (a, "").
Proof.
  intros c a. unfold lacks. induction a as [|d a IH]; intro H; cbn in *; [reflexivity|].
  apply orb_false_iff in H as [H1 H2]. rewrite H1, (IH H2). reflexivity.
Qed.
Lemma remove_none : forall c a, lacks c a -> remove c a = a.
Proof.
  intros c a. unfold lacks. induction a as [|d a IH]; intro H; cbn in *; [reflexivity|].
  apply orb_false_iff in H as [H1 H2]. rewrite H1, (IH H2). reflexivity.
Qed.
Lemma remove_end : forall c a, lacks c a -> remove c (a ++ String c "")%string = a.
Proof.
  intros c a. unfold lacks. induction a as [|d a IH]; intro H; cbn in *; [rewrite Ascii.eqb_refl; reflexivity|].
  apply orb_false_iff in H as [H1 H2]. rewrite H1, (IH H2). reflexivity.
Qed.
Lemma smem_app : forall c a b, smem_char c (a ++ b)%string = smem_char c a || smem_char c b.
Proof. induction a as [|d a IH]; intro b; cbn; [reflexivity|]. rewrite IH, orb_assoc. reflexivity. Qed.
(** [full] is the version and, after a space, the build. *)
Definition versions (full v : string) (b : option string) : Prop :=
  lacks " " v /\ full = match b with Some x => (v ++ " " ++ x)%string | None => v end.
Lemma firmware_versions : forall full v b, versions full v b <-> firmware full = (v, b).
Proof.
  intros full v b. unfold versions, firmware. split.
  - intros [L ->]. destruct b as [x|].
    + rewrite smem_app. cbn [smem_char append]. rewrite Ascii.eqb_refl, orb_true_r.
      rewrite (partition_at " " v x L). reflexivity.
    + rewrite L. reflexivity.
  - destruct (smem_char " " full) eqn:S.
    + intro E. revert v b E. induction full as [|d f IH]; intros v b E; [discriminate|]. cbn [smem_char] in S. cbn [partition] in E. destruct (Ascii.eqb " " d) eqn:D.
      * injection E as <- <-. apply Ascii.eqb_eq in D. subst d. split; reflexivity.
      * cbn [orb] in S. destruct (partition " " f) as [p q] eqn:P. injection E as <- <-. destruct (IH S p (Some q) eq_refl) as [L ->].
        split; [unfold lacks in *; cbn [smem_char]; rewrite D; exact L|reflexivity].
    + intro E. injection E as <- <-. split; [exact S|reflexivity].
Qed.
(** A model is a name, and possibly a region in parentheses. *)
Definition model_of (m name : string) (region : option string) : Prop :=
  lacks "(" name /\ match region with
                    | Some r => r <> "" /\ lacks ")" r /\ m = (name ++ "(" ++ r ++ ")")%string
                    | None => m = name
                    end.
Lemma model_parts : forall m name region, model_of m name region ->
  let (l, r) := partition "(" m in l = name /\ (if String.eqb r "" then r else remove ")" r) = match region with Some r => r | None => "" end.
Proof.
  intros m name [r|] [L H].
  - destruct H as (Nr & Lr & ->). cbn [append]. rewrite (partition_at "(" name _ L). split; [reflexivity|].
    destruct (String.eqb_spec (r ++ ")")%string "") as [E|_]; [destruct r; discriminate|]. apply remove_end. exact Lr.
  - subst m. rewrite (partition_none _ _ L). split; reflexivity.
Qed.
Lemma split_dot : forall a b, lacks "." a -> lacks "." b -> split "." (a ++ "." ++ b)%string = [a; b].
Proof.
  assert (N : forall b, lacks "." b -> split "." b = [b]).
  { unfold lacks. induction b as [|d b IH]; intro H; [reflexivity|]. cbn [smem_char] in H. apply orb_false_iff in H as [H1 H2]. cbn [split]. rewrite H1, (IH H2). reflexivity. }
  intros a b La Lb. unfold lacks in La. induction a as [|d a IH].
  - cbn. rewrite (N b Lb). reflexivity.
  - cbn [smem_char] in La. apply orb_false_iff in La as [H1 H2]. change ((String d a ++ "." ++ b)%string) with (String d (a ++ "." ++ b)%string). cbn [split]. rewrite H1. rewrite (IH H2). reflexivity.
Qed.
(** What a legacy device is said to be *)
Theorem iot_device_info : forall sys type auth m name region full v b hw t,
  dget "model" sys = Some m -> model_of m name region -> dget "sw_ver" sys = Some full -> versions full v b ->
  dget "hw_ver" sys = Some hw -> type = Ok t ->
  iot_info sys type auth = Ok (mkInfo name name "kasa" (match dget "type" sys with Some t => Some t | None => dget "mic_type" sys end) t hw v b auth
    (Some (match region with Some r => r | None => "" end))).
Proof.
  intros sys type auth m name region full v b hw t Hm M Hf V Hh ->. unfold iot_info, dindex. rewrite Hm, Hf, Hh. cbn [bind].
  apply model_parts in M. destruct (partition "(" m) as [l r]. destruct M as [-> ->]. apply firmware_versions in V. rewrite V. reflexivity.
Qed.
Print Assumptions iot_device_info.
Example iot_device_info_ex : model_of "HS100(UK)" "HS100" (Some "UK") /\ versions "1.2.5 Build 171213" "1.2.5" (Some "Build 171213") /\
  model_of "HS100" "HS100" None.
Proof. repeat split; discriminate. Qed.
(** What a SMART device is said to be; [discovered] is the model it gave when discovered. *)
Theorem smart_device_info : forall di components discovered m full v b hw p d,
  dget "model" di = Some m -> dget "fw_ver" di = Some full -> versions full v b -> dget "hw_ver" di = Some hw ->
  dget "type" di = Some (p ++ "." ++ d)%string -> lacks "." p -> lacks "." d ->
  exists i, smart_info di components discovered = Ok i /\
    (forall name region, match discovered with Some x => model_of x name region | None => name = m /\ region = None end ->
      i_long i = name /\ i_region i = match region with Some r => Some r | None => dget "specs" di end) /\
    i_short i = m /\ i_brand i = lower (stake 4 d) /\ i_family i = Some (p ++ "." ++ d)%string /\
    decided (smart_rules (p ++ "." ++ d) components) (i_type i) /\ i_hw i = hw /\ i_fw i = v /\ i_build i = b /\ i_auth i = true.
Proof.
  intros di c disc m full v b hw p d Hm Hf V Hh Ht Lp Ld. unfold smart_info, dindex. rewrite Hm, Hf, Hh, Ht. cbn [bind].
  apply firmware_versions in V. rewrite V, (split_dot p d Lp Ld). cbn [bind].
  destruct disc as [x|].
  - destruct (partition "(" x) as [l r] eqn:P. eexists. split; [reflexivity|]. split; [|do 3 (split; [reflexivity|]); split; [apply smart_type_rules; reflexivity|]; repeat (split; [reflexivity|]); reflexivity].
    cbn [i_long i_region]. intros name region M. pose proof M as N. apply model_parts in M. rewrite P in M. destruct M as [-> ->]. split; [reflexivity|].
    destruct region as [r'|]; [|reflexivity]. destruct N as [_ [N _]]. destruct (String.eqb_spec r' ""); [contradiction|reflexivity].
  - eexists. split; [reflexivity|]. split; [|do 3 (split; [reflexivity|]); split; [apply smart_type_rules; reflexivity|]; repeat (split; [reflexivity|]); reflexivity]. intros name region [-> ->]. split; reflexivity.
Qed.
Print Assumptions smart_device_info.
Example smart_device_info_ex : exists i, smart_info [("model", "P100"); ("fw_ver", "1.0 Build 2"); ("hw_ver", "1"); ("type", "SMART.TAPOPLUG"); ("specs", "EU")] [] (Some "P100(US)") = Ok i /\
  i_brand i = "tapo" /\ i_region i = Some "US" /\ i_build i = Some "Build 2".
Proof. eexists. repeat split. Qed.
(** A family without exactly one dot makes the whole info unavailable. *)
Theorem smart_device_info_refuted : forall components disc, exists di,
  dget "type" di = Some "SMART.TAPO.PLUG" /\ smart_info di components disc = Err PyValueError.
Proof.
  intros c disc. exists [("model", "m"); ("fw_ver", "1"); ("hw_ver", "1"); ("type", "SMART.TAPO.PLUG")]. split; [reflexivity|].
  unfold smart_info, dindex. cbn [dget String.eqb Ascii.eqb Bool.eqb bind]. destruct disc as [x|]; [destruct (partition "(" x)|]; reflexivity.
Qed.
Print Assumptions smart_device_info_refuted.
(** Cameras: a child described by its parent is said to be what it says itself. *)
Theorem cam_device_info : forall basic discovered m full v b hw d,
  dget "device_model" basic = Some m -> dget "sw_version" basic = Some full -> versions full v b -> dget "hw_version" basic = Some hw ->
  dget "device_type" basic = Some d ->
  exists t, decided (cam_rules d) t /\
    cam_info basic discovered = Ok (mkInfo m (match discovered with Some x => x | None => m end) "tapo" (Some d) t hw v b true (dget "region" basic)) /\
    forall cifp, dget "device_model" cifp = Some m -> dget "sw_ver" cifp = Some full -> dget "hw_ver" cifp = Some hw ->
      dget "device_type" cifp = Some d -> dget "region" cifp = dget "region" basic -> cam_child_info cifp = cam_info basic None.
Proof.
  intros basic disc m full v b hw d Hm Hf V Hh Hd. exists (cam_type_of (Some d)). split; [|split].
  - assert (E : cam_type TUnknown [("device_type", d)] = cam_type_of (Some d)) by reflexivity. rewrite <- E.
    exact (proj2 (proj2 (cam_type_rules TUnknown [("device_type", d)])) d eq_refl).
  - unfold cam_info, dindex. rewrite Hm, Hf, Hh, Hd. cbn [bind]. apply firmware_versions in V. rewrite V. reflexivity.
  - intros c Cm Cf Ch Cd Cr. unfold cam_child_info, cam_info, dindex. rewrite Hm, Hf, Hh, Hd, Cm, Cf, Ch, Cd, Cr. reflexivity.
Qed.
Print Assumptions cam_device_info.
Example cam_device_info_ex : exists i, cam_info [("device_model", "C210"); ("sw_version", "1.4"); ("hw_version", "2"); ("device_type", "SMART.IPCAMERA")] None = Ok i /\ i_build i = None.
Proof. eexists. split; reflexivity. Qed.

(** ** C79 *)
(** The keys of a camera's info are renamed one to one: each value is found under the new name
    of its key, provided no key already has that name. *)
Definition new_name (names : list (string * string)) (k : string) : string := match dget k names with Some k' => k' | None => k end.
Lemma renamed_acc : forall A names (d acc : dict A) k,
  dget k (fold_left (fun acc kv => dset (match dget (fst kv) names with Some k => k | None => fst kv end) (snd kv) acc) d acc) =
  match dget k (map (fun kv => (new_name names (fst kv), snd kv)) (rev d)) with Some v => Some v | None => dget k acc end.
Proof.
  intros A names d. induction d as [|[k0 v0] d IH]; intros acc k; [reflexivity|]. cbn [fold_left fst snd]. rewrite IH. cbn [rev]. rewrite map_app. cbn [map fst snd].
  assert (G : forall (l m : dict A), dget k (l ++ m) = match dget k l with Some v => Some v | None => dget k m end).
  { induction l as [|[a b] l IHl]; intro m; [reflexivity|]. cbn. destruct (String.eqb k a); [reflexivity|apply IHl]. }
  rewrite G. destruct (dget k _); [reflexivity|]. rewrite dget_dset. cbn [dget]. unfold new_name. destruct (String.eqb k _); reflexivity.
Qed.
Lemma dget_renamed_in : forall A names k v (d : dict A), dwf d -> dget k d = Some v ->
  (forall k', In k' (dkeys d) -> new_name names k' = new_name names k -> k' = k) ->
  dget (new_name names k) (renamed names d) = Some v.
Proof.
  intros A names k v d W H U. unfold renamed. rewrite renamed_acc. cbn [dget].
  assert (R : forall l : dict A, (forall x, In x l -> In x d) -> In (k, v) l -> dget (new_name names k) (map (fun kv => (new_name names (fst kv), snd kv)) l) = Some v).
  { induction l as [|[a b] l IH]; intros S I0; [contradiction|]. cbn [map fst snd dget]. destruct (String.eqb_spec (new_name names k) (new_name names a)) as [E|E].
    - assert (a = k) by (apply U; [apply (in_map fst d (a, b)); apply S; left; reflexivity|congruence]). subst a.
      assert (D : dget k d = Some b) by (apply In_dget; [exact W|apply S; left; reflexivity]). congruence.
    - destruct I0 as [I0|I0]; [injection I0 as -> ->; contradiction|]. apply IH; [intros x Hx; apply S; right; exact Hx|exact I0]. }
  rewrite R; [reflexivity|intros x Hx; apply in_rev; exact Hx|]. apply -> in_rev. apply dget_In. exact H.
Qed.
Definition cam_names : list (string * string) :=
  [("device_model", "model"); ("device_alias", "alias"); ("sw_version", "fw_ver"); ("hw_version", "hw_ver"); ("hw_id", "hwId"); ("dev_id", "device_id")].
Definition cam_child_names : list (string * string) := [("device_model", "model"); ("sw_ver", "fw_ver"); ("hw_id", "hwId")].
Lemma new_name_inj : forall names k k', NoDup (map snd names) -> (forall old new, In (old, new) names -> new <> k /\ new <> k') ->
  new_name names k' = new_name names k -> k' = k.
Proof.
  intros names k k' N F E. unfold new_name in E. destruct (dget k names) as [a|] eqn:A, (dget k' names) as [b|] eqn:B.
  - subst b. apply dget_In in A. apply dget_In in B. clear F. induction names as [|[x y] l IH]; [contradiction|].
    cbn in N. inversion N as [|? ? N1 N2]; subst. destruct A as [A|A], B as [B|B].
    + congruence.
    + injection A as -> ->. exfalso. apply N1. apply (in_map snd l (k', a)). exact B.
    + injection B as -> ->. exfalso. apply N1. apply (in_map snd l (k, a)). exact A.
    + exact (IH N2 A B).
  - apply dget_In in A. destruct (F _ _ A). congruence.
  - apply dget_In in B. destruct (F _ _ B). congruence.
  - congruence.
Qed.
Theorem cam_keys_renamed : forall A (d : dict A) names table,
  In (names, table) [(cam_names, cam_keys); (cam_child_names, cam_child_keys)] -> dwf d ->
  (forall old new, In (old, new) names -> dget new d = None) ->
  forall k v, dget k d = Some v -> dget (new_name names k) (renamed table d) = Some v.
Proof.
  intros A d names table Hn W Free k v H.
  assert (E : table = names /\ NoDup (map snd names)).
  { destruct Hn as [E|[E|[]]]; injection E as <- <-; (split; [reflexivity|]); repeat constructor; cbn; intuition discriminate. }
  destruct E as [-> N]. apply dget_renamed_in; try assumption. intros k' Hk' Q. apply (new_name_inj names); try assumption.
  intros old new I0. specialize (Free old new I0). apply dget_None in Free. apply dget_Some_key in H. split; intros ->; contradiction.
Qed.
Print Assumptions cam_keys_renamed.
Example cam_keys_ex : renamed cam_keys [("device_model", 1); ("mac", 2); ("sw_version", 3)] = [("model", 1); ("mac", 2); ("fw_ver", 3)].
Proof. reflexivity. Qed.

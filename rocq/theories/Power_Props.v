(** Switching devices with the tool (C149). *)
From Coq Require Import Lia.
From Verif Require Import Base Base_Lemmas Py IotLight_Model SmartLight_Model Gadget_Model CamMod_Model Scene_Model Scene_Spec
  Factory_Model OnSince_Model Strip_Model Strip_Props Power_Model Power_Spec Power_Proofs.
Open Scope string_scope.
Open Scope list_scope.
Open Scope Z_scope.

(** ** C149 *)
(** An object that has seen its device tells whether it is on. *)
Theorem power_told : forall v d, sees v d -> is_on v = Ok (powered v d).
Proof. exact sees_on. Qed.
Print Assumptions power_told.

(** On, off and toggle do what they say, and no more: if the command succeeds, the device, once it has taken
    what was sent, is as wanted, and nothing else about it has changed; if not, a message failed, and
    whichever messages arrived, nothing was switched the wrong way. *)
Theorem power_obeyed : forall reply v d c t log, sees v d -> able d (wanted c (powered v d)) -> timely d t ->
  exists ss r, power reply v c t log = (log ++ ss, r) /\
    match r with
    | Ok _ => let d' := fold_left takes ss d in
              powered v d' = wanted c (powered v d) /\ otherwise_same v d d' (wanted c (powered v d))
    | Err e => exists s, In s ss /\ reply s = Err e
    end /\
    forall arrived, incl arrived ss -> steady v d (fold_left takes arrived d) (wanted c (powered v d)).
Proof. intros reply v d c t log S A T. exact (power_ok reply v d c t log S A T). Qed.
Print Assumptions power_obeyed.

(** A device that answers is switched. *)
Theorem power_accepted : forall reply v d c t log, sees v d -> able d (wanted c (powered v d)) -> timely d t ->
  (forall s, exists j, reply s = Ok j) ->
  exists ss, power reply v c t log = (log ++ ss, Ok tt) /\ powered v (fold_left takes ss d) = wanted c (powered v d).
Proof.
  intros reply v d c t log S A T R. destruct (power_ok reply v d c t log S A T) as (ss & r & E & H & _). exists ss. destruct r as [[]|e].
  - split; [exact E|apply H].
  - destruct H as (s & _ & H). destruct (R s) as (j & Hj). congruence.
Qed.
Print Assumptions power_accepted.

Definition strip_infos := [mkChild "s1" true None; mkChild "s2" false None].
Definition strip_things : dict bool := [("s1", true); ("s2", false)].
Lemma strip_seen : sees (VStrip strip_infos ["s1"; "s2"]) (TStrip strip_things).
Proof.
  cbn [sees]. split; [reflexivity|]. split; [reflexivity|]. unfold dwf. cbn.
  constructor; [intros [H|[]]; discriminate|]. constructor; [intros []|constructor].
Qed.
Definition all_well (s : sent) : res json := Ok (JObj []).
Definition dim_sys : dict pv := [("relay_state", PNum (AInt 0)); ("brightness", PNum (AInt 40))].
Example power_ex :
  (sees (VDimmer dim_sys) (TDimmer (mkLamp false 0 0 0 40)) /\ timely (TDimmer (mkLamp false 0 0 0 40)) (Some (AInt 500)) /\
   power all_well (VDimmer dim_sys) Toggle (Some (AInt 500)) [] =
     ([SIot (mkReq "smartlife.iot.dimmer" "set_dimmer_transition" [("brightness", AInt 40); ("duration", AInt 500)])], Ok tt)) /\
  (sees (VCamera (Some false) (Some (Ok true))) (TCamera (Some true)) /\
   power all_well (VCamera (Some false) (Some (Ok true))) Toggle None [] =
     ([SCam (mkCmd "setLensMaskConfig" [("lens_mask", JObj [("lens_mask_info", JObj [("enabled", JStr "off")])])])], Ok tt)) /\
  (able (TStrip strip_things) true /\
   power all_well (VStrip strip_infos ["s1"; "s2"]) On None [] = ([SSocket ("s2", 1)], Ok tt)).
Proof.
  split; [split; [split; reflexivity|split; [cbn; split; [lia|exists 500; split; [reflexivity|lia]]|reflexivity]]|].
  split; [split; [split; reflexivity|reflexivity]|]. split; [exact I|reflexivity].
Qed.

(** ** The child of a strip *)
(** With a child's id or index the command is for that socket: it is as wanted in the end, and no other is
    touched. *)
Theorem power_child : forall reply infos plugs ss kids o index id c t log,
  sees (VStrip infos plugs) (TStrip ss) -> map v_id kids = dkeys ss ->
  (o = CName id /\ index = None /\ In id (dkeys ss) \/
   exists i k, o = CNone /\ index = Some i /\ 0 <= i /\ nth_error kids (Z.to_nat i) = Some k /\ v_id k = id) ->
  (forall s, exists j, reply s = Ok j) ->
  exists b m ss', dget id ss = Some b /\
    tool_power reply (VStrip infos plugs) kids (VSocket infos) o index c t log = (log ++ m, Ok tt) /\
    fold_left takes m (TStrip ss) = TStrip ss' /\ dkeys ss' = dkeys ss /\
    dget id ss' = Some (wanted c b) /\ forall x, x <> id -> dget x ss' = dget x ss.
Proof.
  intros reply infos plugs ss kids o index id c t log (E & _ & W) Ek Ho R.
  assert (C : exists k, cli_child o index kids = Ok (Some k) /\ v_id k = id /\ In id (dkeys ss)).
  { destruct Ho as [(-> & -> & I)|(i & k & -> & -> & Hi & Hk & Hid)].
    - rewrite <- Ek in I. apply in_map_iff in I as (k & Hid & I).
      assert (F : exists k', find (fun x => String.eqb (v_id x) id) kids = Some k' /\ v_id k' = id).
      { destruct (find (fun x => String.eqb (v_id x) id) kids) as [k'|] eqn:F.
        - exists k'. split; [reflexivity|]. apply find_some in F as [_ F]. apply String.eqb_eq, F.
        - pose proof (find_none _ _ F k I) as X. cbn in X. rewrite Hid, seqb_refl in X. discriminate. }
      destruct F as (k' & F & Hid'). exists k'. unfold cli_child, get_child_device. rewrite F.
      destruct kids; [destruct I|]. split; [reflexivity|]. split; [exact Hid'|].
      rewrite <- Ek. apply find_some in F as [F _]. rewrite <- Hid'. apply in_map, F.
    - exists k. assert (L : (Z.to_nat i < List.length kids)%nat) by (apply nth_error_Some; congruence).
      unfold cli_child. destruct kids as [|k0 l]; [destruct (Z.to_nat i); discriminate|].
      replace ((Z.of_nat (List.length (k0 :: l)) <? i + 1) || (i <? 0)) with false
        by (symmetry; apply orb_false_iff; split; apply Z.ltb_ge; lia).
      rewrite Hk. split; [reflexivity|]. split; [exact Hid|]. rewrite <- Ek, <- Hid. apply in_map. apply nth_error_In in Hk. exact Hk. }
  destruct C as (k & Ec & Hid & I).
  assert (S : sees (VSocket infos id) (TStrip ss)) by (split; [exact E|split; assumption]).
  destruct (dkeys_dget _ _ I) as (b & Hb).
  assert (Pb : powered (VSocket infos id) (TStrip ss) = b) by (cbn; rewrite Hb; reflexivity).
  assert (A : able (TStrip ss) (wanted c b)) by (destruct ss; [discriminate Hb|exact Logic.I]).
  rewrite <- Pb in A.
  destruct (power_ok reply (VSocket infos id) (TStrip ss) c t log S A Logic.I) as (m & r & Em & H & _). rewrite Pb in H.
  destruct r as [[]|e].
  2:{ destruct H as (s & _ & H). destruct (R s) as (j & Hj). congruence. }
  destruct H as [P O]. destruct (fold_left takes m (TStrip ss)) as [| | | | |ss'] eqn:Ef; try contradiction.
  destruct O as [K O]. exists b, m, ss'. split; [exact Hb|]. split; [unfold tool_power; rewrite Ec, Hid; exact Em|].
  split; [exact Ef|]. split; [exact K|]. split; [|exact O].
  cbn [powered] in P. destruct (dkeys_dget ss' id) as (b' & Hb'); [rewrite K; exact I|]. rewrite Hb' in P |- *. congruence.
Qed.
Print Assumptions power_child.
Example power_child_ex :
  tool_power all_well (VStrip strip_infos ["s1"; "s2"]) [mkDev "s1" (Some "Lamp"); mkDev "s2" None] (VSocket strip_infos) (CName "s1") None Toggle None []
  = ([SSocket ("s1", 0)], Ok tt) /\
  tool_power all_well (VStrip strip_infos ["s1"; "s2"]) [mkDev "s1" (Some "Lamp"); mkDev "s2" None] (VSocket strip_infos) CNone (Some 1) Toggle None []
  = ([SSocket ("s2", 1)], Ok tt).
Proof. split; reflexivity. Qed.
(** When there is no such child the command fails and nothing is sent. *)
Theorem power_no_child : forall reply v kids kid o index c t log,
  (exists s, o = CName s /\ (forall k, In k kids -> v_id k <> s) /\ (forall k a, In k kids -> v_alias k = Some a -> lower a <> lower s)) \/
  (exists i, o = CNone /\ index = Some i /\ (i < 0 \/ Z.of_nat (List.length kids) <= i)) ->
  exists e, tool_power reply v kids kid o index c t log = (log, Err e).
Proof.
  intros reply v kids kid o index c t log H. unfold tool_power.
  assert (C : exists e, cli_child o index kids = Err e).
  { destruct H as [(s & -> & N1 & N2)|(i & -> & -> & Hi)]; unfold cli_child.
    - destruct kids as [|k0 l] eqn:Ek; [destruct index; eexists; reflexivity|]. rewrite <- Ek in *.
      destruct index; [eexists; reflexivity|]. unfold get_child_device.
      destruct (find (fun x => String.eqb (v_id x) s) kids) as [k|] eqn:F.
      { apply find_some in F as [I F]. destruct (N1 k I). apply String.eqb_eq, F. }
      destruct (find (alias_is (lower s)) kids) as [k|] eqn:G; [|eexists; reflexivity].
      apply find_some in G as [I G]. unfold alias_is in G. destruct (v_alias k) as [a|] eqn:Ea; [|discriminate].
      apply andb_true_iff in G as [_ G]. destruct (N2 k a I Ea). apply String.eqb_eq, G.
    - destruct kids as [|k0 l] eqn:Ek; [eexists; reflexivity|]. rewrite <- Ek in *.
      replace ((Z.of_nat (List.length kids) <? i + 1) || (i <? 0)) with true; [eexists; reflexivity|].
      symmetry. apply orb_true_iff. destruct Hi; [right|left]; apply Z.ltb_lt; lia. }
  destruct C as (e & ->). exists e. reflexivity.
Qed.
Print Assumptions power_no_child.

(** ** Toggling twice *)
(** With an update in between, toggling twice leaves the device exactly as it was, unless it is a strip whose
    sockets differ. *)
Definition uniform (v : view) (d : thing) : Prop :=
  match v, d with
  | VStrip _ _, TStrip ss => forall x y b b', dget x ss = Some b -> dget y ss = Some b' -> b = b'
  | _, _ => True
  end.
(** The same object, after another update *)
Definition same_object (v v' : view) : Prop :=
  match v, v' with
  | VSocket _ a, VSocket _ b => a = b
  | VSocket _ _, _ | _, VSocket _ _ => False
  | _, _ => True
  end.
Theorem toggle_twice : forall reply v d t log v' log1 ss1, sees v d -> able d true -> able d false -> timely d t -> uniform v d ->
  power reply v Toggle t log = (log ++ ss1, Ok tt) -> same_object v v' -> sees v' (fold_left takes ss1 d) ->
  (forall s, exists j, reply s = Ok j) ->
  exists ss2, power reply v' Toggle t log1 = (log1 ++ ss2, Ok tt) /\ fold_left takes ss2 (fold_left takes ss1 d) = d.
Proof.
  intros reply v d t log v' log1 ss1 S A1 A0 T U E SO S' R.
  assert (A : forall b, able d b) by (intros []; assumption).
  destruct (power_ok reply v d Toggle t log S (A _) T) as (ss & r & E' & H & _).
  rewrite E in E'. injection E' as E1 <-. apply app_inv_head in E1. subst ss. destruct H as [P O]. set (d1 := fold_left takes ss1 d) in *.
  assert (PV : forall x, powered v' x = powered v x).
  { intro x. destruct x; try reflexivity. destruct v, v'; try contradiction; try reflexivity. cbn in SO. subst. reflexivity. }
  assert (OV : forall x y b, otherwise_same v' x y b -> otherwise_same v x y b).
  { intros x y b. destruct x, y; auto. destruct v, v'; try contradiction; auto. cbn in SO. subst. auto. }
  assert (A' : forall b, able d1 b).
  { intro b. specialize (A b). destruct d, d1; try contradiction; try (destruct mask; contradiction); try exact I; cbn in O, A |- *.
    - destruct mask, mask0; try contradiction; assumption.
    - destruct O as [K _]. destruct sockets0 as [|[] l0]; [|exact I]. destruct sockets; [exact A|discriminate]. }
  assert (T' : timely d1 t).
  { destruct d, d1; try contradiction; try (destruct mask; contradiction); try exact I. cbn in O, T |- *. destruct O as (_ & _ & _ & O). rewrite <- O. exact T. }
  destruct (power_ok reply v' d1 Toggle t log1 S' (A' _) T') as (ss2 & r & E2 & H & _). exists ss2.
  destruct r as [[]|e]; [|destruct H as (s & _ & H); destruct (R s) as (j & Hj); congruence].
  split; [exact E2|]. destruct H as [P2 O2]. cbn [wanted] in *. rewrite !PV, P, negb_involutive in P2. rewrite PV, P, negb_involutive in O2. apply OV in O2.
  apply (restored v d d1 _ (powered v d)); try assumption; try reflexivity.
  - destruct v, d; try contradiction; try exact I; apply S.
  - destruct v, d; try contradiction; try exact I. intros x b Hx. cbn [powered]. destruct S as (_ & _ & W). cbn in U.
    destruct b.
    + symmetry. apply (existsb_dget _ W). eauto.
    + destruct (existsb snd sockets) eqn:Ex; [|reflexivity]. apply (existsb_dget _ W) in Ex as (y & Hy). exact (U _ _ _ _ Hx Hy).
  - destruct v, d; try contradiction; try exact I; apply S.
Qed.
Print Assumptions toggle_twice.
Example toggle_twice_ex :
  let v := VSocket strip_infos "s2" in
  let v' := VSocket [mkChild "s1" true None; mkChild "s2" true None] "s2" in
  sees v (TStrip strip_things) /\ uniform v (TStrip strip_things) /\ power all_well v Toggle None [] = ([SSocket ("s2", 1)], Ok tt) /\
  same_object v v' /\ sees v' (takes (TStrip strip_things) (SSocket ("s2", 1))) /\ power all_well v' Toggle None [] = ([SSocket ("s2", 0)], Ok tt).
Proof.
  destruct strip_seen as (_ & _ & W). cbn zeta. split; [split; [reflexivity|split; [right; left; reflexivity|exact W]]|].
  split; [exact I|]. split; [reflexivity|]. split; [reflexivity|]. split; [|reflexivity].
  split; [reflexivity|]. split; [right; left; reflexivity|exact W].
Qed.
(** A strip with one socket on and one off: toggled off, then on, and now both are on. *)
Theorem toggle_mixed_refuted : exists v d ss1 v' ss2, sees v d /\ power all_well v Toggle None [] = (ss1, Ok tt) /\
  sees v' (fold_left takes ss1 d) /\ power all_well v' Toggle None [] = (ss2, Ok tt) /\
  d = TStrip [("s1", true); ("s2", false)] /\ fold_left takes ss2 (fold_left takes ss1 d) = TStrip [("s1", true); ("s2", true)].
Proof.
  exists (VStrip strip_infos ["s1"; "s2"]), (TStrip strip_things), [SSocket ("s1", 0)],
    (VStrip [mkChild "s1" false None; mkChild "s2" false None] ["s1"; "s2"]), [SSocket ("s1", 1); SSocket ("s2", 1)].
  split; [exact strip_seen|]. split; [reflexivity|]. split; [split; [reflexivity|split; [reflexivity|exact (proj2 (proj2 strip_seen))]]|].
  repeat split; reflexivity.
Qed.
Print Assumptions toggle_mixed_refuted.

(** ** Where commands are not obeyed *)
(** A camera without privacy mask: off succeeds, nothing is sent, and it stays on. *)
Theorem camera_off_refuted : forall reply v t log, sees v (TCamera None) ->
  power reply v Off t log = (log, Ok tt) /\ powered v (TCamera None) = true.
Proof.
  intros reply v t log S. destruct v; try contradiction. destruct S as [-> ->]. split; [|reflexivity].
  cbn [power turn option_map]. unfold relabel. cbn. rewrite app_nil_r. reflexivity.
Qed.
Print Assumptions camera_off_refuted.
Example camera_off_ex : sees (VCamera (Some false) None) (TCamera None).
Proof. split; reflexivity. Qed.
(** Only bulbs and dimmers heed --transition: for every other device any value, negative ones too, is
    accepted and changes nothing about what is sent. *)
Theorem transition_ignored_refuted : forall reply v c t log, match v with VBulb _ _ | VDimmer _ => False | _ => True end ->
  power reply v c (Some t) log = power reply v c None log.
Proof. intros reply v c t log H. destruct v; try contradiction; destruct c; reflexivity. Qed.
Print Assumptions transition_ignored_refuted.
(** A dimmer at brightness 0 that is switched on with a transition succeeds, and is off afterwards. *)
Theorem dimmer_zero_refuted : exists v l ss, sees v (TDimmer l) /\ power all_well v On (Some (AInt 500)) [] = (ss, Ok tt) /\
  powered v (fold_left takes ss (TDimmer l)) = false.
Proof.
  exists (VDimmer [("relay_state", PNum (AInt 1)); ("brightness", PNum (AInt 0))]), (mkLamp true 0 0 0 0). eexists.
  split; [split; reflexivity|]. split; reflexivity.
Qed.
Print Assumptions dimmer_zero_refuted.
(** A SMART device that does not report device_on, as the strip P300 itself, is taken to be off: toggle is on,
    and never turns it off. *)
Theorem silent_toggle_refuted : forall reply info t log, dget "device_on" info = None ->
  is_on (VSmart info) = Ok false /\ power reply (VSmart info) Toggle t log = power reply (VSmart info) On t log.
Proof. intros reply info t log H. cbn [is_on power]. unfold mbind, mlift. cbn [is_on]. unfold smart_is_on. rewrite H. split; reflexivity. Qed.
Print Assumptions silent_toggle_refuted.
Example silent_toggle_ex : dget "device_on" [("brightness", PNum (AInt 1))] = @None pv.
Proof. reflexivity. Qed.

(** Robot vacuums (C53, C54, C55, C75). *)
From Coq Require Import Lia.
From Verif Require Import Base Base_Lemmas Py Gadget_Model Gadget_Props Vacuum_Model.
Open Scope string_scope.
Open Scope list_scope.
Open Scope Z_scope.

(** ** C53 *)
(** A reply lists these error codes and this status. *)
Definition lists_errors (r : dict json) (codes : list Z) : Prop :=
  dget "err_status" r = Some (JArr (map JInt codes)) \/ codes = [] /\ (dget "err_status" r = None \/ dget "err_status" r = Some JNull).
Definition known_errors : list Z := [0; 2; 3; 4; 6; 7; 14; 15; 16; 21; 22; -1000].
Definition known_status : list Z := [0; 1; 2; 4; 5; 6; 7; 8; 100; -1000].
(** The code itself when it is known, -1000 otherwise. *)
Definition named (known : list Z) (z : Z) (name : Z) : Prop := In z known /\ name = z \/ ~ In z known /\ name = -1000.
Lemma enum_spec : forall l z, named l z (match enum l (JInt z) with Some c => c | None => -1000 end).
Proof.
  intros l z. unfold enum, named. cbn [as_int]. destruct (existsb (Z.eqb z) l) eqn:E.
  - left. apply existsb_exists in E as (y & Hy & E). apply Z.eqb_eq in E. subst y. auto.
  - right. split; [|reflexivity]. intro H. rewrite <- not_true_iff_false in E. apply E, existsb_exists. exists z. split; [exact H|apply Z.eqb_refl].
Qed.
(** After a reply, whatever came before, the error is the first one listed, and the status is
    Error for a nonzero error and the reported one otherwise. *)
Theorem vacuum_status_partial : forall st r codes s, lists_errors r codes -> dget "status" r = Some (JInt s) ->
  exists st' e n, clean_update r st = (st', Ok tt) /\
    vac_error st' = e /\ vac_status st' = Ok n /\
    match codes with
    | [] => e = 0
    | c :: _ => named known_errors c e
    end /\
    (e <> 0 -> n = 100) /\ (e = 0 -> named known_status s n).
Proof.
  intros st r codes s H Hs. unfold clean_update, clean_hook. cbn [v_status v_error].
  assert (S : forall d, dget "status" d = Some (JInt s) -> forall e, exists n, vac_status (mkVac d e) = Ok n /\ (e <> 0 -> n = 100) /\ (e = 0 -> named known_status s n)).
  { intros d Hd e. unfold vac_status, dindex. cbn [v_error v_status]. rewrite Hd. destruct (Z.eqb_spec e 0) as [->|N]; cbn [negb].
    - exists (match enum known_status (JInt s) with Some c => c | None => -1000 end). cbn [bind hashable].
      split; [|split; [lia|intros _; apply enum_spec]]. unfold status_values, STATUS_ERROR, UNKNOWN_INTERNAL. fold known_status.
      destruct (enum known_status (JInt s)); reflexivity.
    - exists 100. split; [reflexivity|]. split; [reflexivity|contradiction]. }
  assert (Empty : codes = [] -> negb (truthy (match dget "err_status" r with Some v => v | None => JNull end)) = true).
  { intros ->. destruct H as [->|[_ [->| ->]]]; reflexivity. }
  destruct codes as [|c codes].
  - rewrite (Empty eq_refl). destruct (S r Hs 0) as (n & Hn & Hn'). exists (mkVac r 0), 0, n. repeat split; try assumption; apply Hn'.
  - destruct H as [H|[H _]]; [|discriminate]. rewrite H. cbn [map truthy negb].
    destruct (S (dset "err_status" (JArr (map JInt codes)) r)) with (e := match enum known_errors (JInt c) with Some e => e | None => -1000 end) as (n & Hn & Hn').
    { rewrite dget_dset. exact Hs. }
    exists (mkVac (dset "err_status" (JArr (map JInt codes)) r) (match enum known_errors (JInt c) with Some e => e | None => -1000 end)).
    eexists. exists n. split; [|split; [reflexivity|split; [exact Hn|split; [apply enum_spec|exact Hn']]]].
    unfold error_values, UNKNOWN_INTERNAL. fold known_errors. cbn [hashable]. destruct (enum known_errors (JInt c)); reflexivity.
Qed.
Print Assumptions vacuum_status_partial.
Example vacuum_status_ex :
  let r := [("status", JInt 1); ("err_status", JArr [JInt 15])] in
  lists_errors r [15] /\ vac_status (fst (clean_update r (mkVac [] 3))) = Ok 100 /\ vac_error (fst (clean_update r (mkVac [] 3))) = 15.
Proof. split; [left; reflexivity|]. split; reflexivity. Qed.
(** Processing the same reply again forgets its only error. *)
Theorem vacuum_again_refuted : forall st r c, lists_errors r [c] ->
  exists st', clean_hook (fst (clean_update r st)) = (st', Ok tt) /\ vac_error st' = 0.
Proof.
  intros st r c [H|[H _]]; [|discriminate]. unfold clean_update, clean_hook at 2. cbn [v_status v_error]. rewrite H. cbn [map truthy negb].
  assert (E : forall e, clean_hook (mkVac (dset "err_status" (JArr []) r) e) = (mkVac (dset "err_status" (JArr []) r) 0, Ok tt)).
  { intro e. unfold clean_hook. cbn [v_status]. rewrite dget_dset. reflexivity. }
  destruct (enum error_values (JInt c)); cbn [hashable fst]; rewrite E; eexists; split; reflexivity.
Qed.
Print Assumptions vacuum_again_refuted.
(** An error listed after a zero goes unnoticed. *)
Theorem vacuum_second_refuted : exists r, lists_errors r [0; 2] /\ forall st, vac_status (fst (clean_update r st)) = Ok 1.
Proof. exists [("status", JInt 1); ("err_status", JArr [JInt 0; JInt 2])]. split; [left; reflexivity|]. intro st. reflexivity. Qed.
Print Assumptions vacuum_second_refuted.

(** ** C75 *)
Definition one (m : M (list cmd) json) (reply : cmd -> res json) (method : string) (params : list (string * json)) : Prop :=
  forall log, m log = (log ++ [mkCmd method params], reply (mkCmd method params)).
Theorem vacuum_start : forall reply st s, vac_status st = Ok s ->
  (s = 7 -> one (start reply st) reply "setRobotPause" [("pause", JBool false)]) /\
  (s <> 7 -> one (start reply st) reply "setSwitchClean"
               [("clean_mode", JInt 0); ("clean_on", JBool true); ("clean_order", JBool true); ("force_clean", JBool false)]) /\
  (s = 4 -> one (pause reply st) reply "setSwitchCharge" [("switch_charge", JBool false)]) /\
  (s <> 4 -> one (pause reply st) reply "setRobotPause" [("pause", JBool true)]) /\
  one (resume reply) reply "setRobotPause" [("pause", JBool false)] /\
  one (return_home reply) reply "setSwitchCharge" [("switch_charge", JBool true)].
Proof.
  intros reply st s H. unfold start, pause, one, mbind, mlift. rewrite H. split; [|split; [|split; [|split; [|split]]]].
  - intros ->. reflexivity.
  - intros N log. replace (s =? 7) with false by (symmetry; apply Z.eqb_neq, N). reflexivity.
  - intros ->. reflexivity.
  - intros N log. replace (s =? 4) with false by (symmetry; apply Z.eqb_neq, N). reflexivity.
  - reflexivity.
  - reflexivity.
Qed.
Print Assumptions vacuum_start.
Example vacuum_start_ex : vac_status (mkVac [("status", JInt 7)] 0) = Ok 7.
Proof. reflexivity. Qed.
(** A fan speed that is set is the one read back from a device that keeps what it is sent;
    other names are rejected. *)
Definition speeds : list (string * Z) := [("Quiet", 1); ("Standard", 2); ("Turbo", 3); ("Max", 4); ("Ultra", 5)].
Theorem fan_speed_round_trip : forall reply name log,
  (forall v, In (name, v) speeds -> exists d, set_fan_speed reply name log = (log ++ [mkCmd "setCleanAttr" d], reply (mkCmd "setCleanAttr" d)) /\
     dget "type" d = Some (JStr "global") /\ dget "suction" d = Some (JInt v) /\ fan_speed d = Ok name) /\
  (~ In name (map fst speeds) -> set_fan_speed reply name log = (log, Err PyValueError)).
Proof.
  intros reply name log. split.
  - intros v H. cbn in H. repeat (destruct H as [[= <- <-]|H]; [eexists; split; [reflexivity|]; split; [reflexivity|split; reflexivity]|]). destruct H.
  - intro N. unfold set_fan_speed. destruct (dget name fan_speeds) eqn:E; [|reflexivity]. apply dget_Some_key in E. contradiction.
Qed.
Print Assumptions fan_speed_round_trip.

(** ** C54 *)
(** How a device writes a record, and the four values of the latest one. *)
Definition record_json (r : crecord) : json :=
  JObj [("clean_time", JInt (r_time r)); ("clean_area", JInt (r_area r)); ("dust_collection", JBool (r_dust r)); ("timestamp", JInt (r_stamp r))].
Definition reply_of (d : dict json) (rs : crecords) : Prop :=
  dget "total_time" d = Some (JInt (t_time rs)) /\ dget "total_area" d = Some (JInt (t_area rs)) /\
  dget "total_number" d = Some (JInt (t_count rs)) /\ dget "record_list" d = Some (JArr (map record_json (t_list rs))) /\
  dget "lastest_day_record" d =
    Some (JArr [JInt (r_stamp (t_last rs)); JInt (r_time (t_last rs)); JInt (r_area (t_last rs)); JBool (r_dust (t_last rs))]).
Lemma records_ok : forall l, records_of (map record_json l) = Ok l.
Proof. induction l as [|[t a c s] l IH]; [reflexivity|]. cbn [map records_of]. rewrite IH. reflexivity. Qed.
Lemma first_pass : forall d rs old, reply_of d rs ->
  exists d', records_hook d old = ((d', Some rs), Ok tt) /\ exists o, dget "lastest_day_record" d' = Some (JObj o) /\ o <> [].
Proof.
  intros d [t a n l [lt la lc ls]] old (H1 & H2 & H3 & H4 & H5). cbn [t_time t_area t_count t_list t_last r_stamp r_time r_area r_dust] in *.
  unfold records_hook, pre_deserialize. rewrite H5. cbn [truthy index nth_error bind]. unfold parse_records, field_int.
  rewrite !dget_dset. cbn [String.eqb Ascii.eqb Bool.eqb]. rewrite H1, H2, H3, H4, records_ok. cbn. eexists. split; [reflexivity|].
  rewrite dget_dset. eexists. split; [reflexivity|discriminate].
Qed.
(** A fresh reply is read as it is, whatever was kept before. *)
Theorem clean_records_partial : forall d rs old, reply_of d rs -> exists d', records_hook d old = ((d', Some rs), Ok tt).
Proof. intros d rs old H. destruct (first_pass d rs old H) as (d' & E & _). eauto. Qed.
Print Assumptions clean_records_partial.
(** Processing it again raises; the records read before stay. *)
Theorem clean_records_refuted : forall d rs old, reply_of d rs ->
  exists d' d'', records_hook d old = ((d', Some rs), Ok tt) /\ records_hook d' (Some rs) = ((d'', Some rs), Err PyKeyError).
Proof.
  intros d rs old H. destruct (first_pass d rs old H) as (d' & E & o & Ho & N). exists d', d'. split; [exact E|].
  unfold records_hook, pre_deserialize. rewrite Ho. cbn [truthy]. destruct o; [congruence|]. reflexivity.
Qed.
Print Assumptions clean_records_refuted.
Example clean_records_ex : reply_of
  [("total_time", JInt 77); ("total_area", JInt 47); ("total_number", JInt 1);
   ("record_list", JArr [record_json (mkRec 27 17 true 1736599835)]); ("lastest_day_record", JArr [JInt 1736797545; JInt 25; JInt 16; JBool true])]
  (mkRecs 77 47 1 [mkRec 27 17 true 1736599835] (mkRec 25 16 true 1736797545)).
Proof. repeat split. Qed.

(** ** C55 *)
(** The consumables: id, key in the reply, lifetime in minutes, name used to reset it. *)
Definition consumable_table : list (string * string * Z * string) :=
  [("main_brush", "roll_brush_time", 24000, "roll_brush"); ("side_brush", "edge_brush_time", 12000, "edge_brush");
   ("filter", "filter_time", 12000, "filter"); ("sensor", "sensor_time", 1800, "sensor"); ("charging_contacts", "charge_contact_time", 1800, "charge_contact")].
Definition keys_of_table : list string := map (fun t => snd (fst (fst t))) consumable_table.
(** Two replies mention the same consumables. *)
Definition same_keys (r r' : creply) : Prop := forall k, In k keys_of_table -> (dget k r = None <-> dget k r' = None).
(** What is shown is what this reply says. *)
Definition shows (shown : dict consumable) (r : creply) : Prop :=
  forall i k life n, In (i, k, life, n) consumable_table ->
    dget i shown = match dget k r with Some u => Some (mkCons k life u (life - u)) | None => None end.
Lemma refresh_fill : forall r r', same_keys r r' -> refresh r (fill r' metas []) = (fill r metas [], Ok tt).
Proof.
  intros r r' H. unfold fill, metas. cbn [fold_left].
  assert (K : forall k, In k keys_of_table -> match dget k r with Some _ => exists v, dget k r' = Some v | None => dget k r' = None end).
  { intros k Hk. specialize (H k Hk). destruct (dget k r), (dget k r'); [eauto| | |reflexivity]; exfalso; intuition discriminate. }
  unfold keys_of_table in K. cbn [map consumable_table fst snd] in K.
  pose proof (K "roll_brush_time" ltac:(cbn; tauto)) as K1. pose proof (K "edge_brush_time" ltac:(cbn; tauto)) as K2.
  pose proof (K "filter_time" ltac:(cbn; tauto)) as K3. pose proof (K "sensor_time" ltac:(cbn; tauto)) as K4.
  pose proof (K "charge_contact_time" ltac:(cbn; tauto)) as K5. clear K H.
  destruct (dget "roll_brush_time" r) eqn:E1; [destruct K1 as [v1 K1]|]; rewrite K1; clear K1;
  (destruct (dget "edge_brush_time" r) eqn:E2; [destruct K2 as [v2 K2]|]; rewrite K2; clear K2);
  (destruct (dget "filter_time" r) eqn:E3; [destruct K3 as [v3 K3]|]; rewrite K3; clear K3);
  (destruct (dget "sensor_time" r) eqn:E4; [destruct K4 as [v4 K4]|]; rewrite K4; clear K4);
  (destruct (dget "charge_contact_time" r) eqn:E5; [destruct K5 as [v5 K5]|]; rewrite K5; clear K5);
  cbn [dset String.eqb Ascii.eqb Bool.eqb refresh c_key c_lifetime]; rewrite ?E1, ?E2, ?E3, ?E4, ?E5; reflexivity.
Qed.
Lemma fill_shows : forall r, shows (fill r metas []) r.
Proof.
  intros r i k life n H. unfold fill, metas. cbn [fold_left].
  cbn in H. repeat (destruct H as [[= <- <- <- <-]|H]; [
    destruct (dget "roll_brush_time" r), (dget "edge_brush_time" r), (dget "filter_time" r), (dget "sensor_time" r), (dget "charge_contact_time" r); reflexivity|]).
  destruct H.
Qed.
Lemma hook_fill : forall r r', same_keys r r' -> fst (consumables_hook r (fill r' metas [])) = fill r metas [].
Proof.
  intros r r' H. unfold consumables_hook. pose proof (refresh_fill r r' H) as R. destruct (fill r' metas []); [reflexivity|]. rewrite R. reflexivity.
Qed.
Lemma same_trans : forall a b c, same_keys a b -> same_keys a c -> same_keys b c.
Proof. intros a b c H G k Hk. specialize (H k Hk). specialize (G k Hk). tauto. Qed.
(** Whatever was updated before, right after its own update a device shows its own values. *)
Theorem consumables_partial : forall ups i r, (forall u, In u ups -> same_keys r (snd u)) ->
  shows (history (ups ++ [(i, r)])) r.
Proof.
  intros ups i r H. unfold history. rewrite fold_left_app. cbn [fold_left snd].
  assert (Inv : forall (us : list (nat * creply)) s0, (s0 = [] \/ exists r', same_keys r r' /\ s0 = fill r' metas []) -> (forall u, In u us -> same_keys r (snd u)) ->
     let s := fold_left (fun shared u => fst (consumables_hook (snd u) shared)) us s0 in s = [] \/ exists r', same_keys r r' /\ s = fill r' metas []).
  { clear. induction us as [|u us IH]; intros s0 H0 Hu; [exact H0|]. cbn [fold_left]. apply IH; [|intros; apply Hu; right; assumption].
    right. exists (snd u). split; [apply Hu; left; reflexivity|]. destruct H0 as [->|(r' & Hr & ->)]; [reflexivity|].
    apply hook_fill. apply (same_trans r); [apply Hu; left; reflexivity|exact Hr]. }
  destruct (Inv ups [] (or_introl eq_refl) H) as [->|(r' & Hr & ->)].
  - cbn [consumables_hook fst]. apply fill_shows.
  - rewrite (hook_fill r r' Hr). apply fill_shows.
Qed.
Print Assumptions consumables_partial.
(** But any other vacuum's update replaces them. *)
Theorem consumables_refuted : forall ups i j ri rj, i <> j -> same_keys rj ri -> (forall u, In u ups -> same_keys rj (snd u)) ->
  shows (history (ups ++ [(i, ri)] ++ [(j, rj)])) rj.
Proof.
  intros ups i j ri rj _ Hs H. rewrite app_assoc. apply consumables_partial. intros u Hu. apply in_app_or in Hu as [Hu|[<-|[]]]; [apply H, Hu|exact Hs].
Qed.
Print Assumptions consumables_refuted.
Example consumables_ex : let a := [("filter_time", 10)] in let b := [("filter_time", 700)] in
  same_keys b a /\ dget "filter" (history [(0%nat, a)]) = Some (mkCons "filter_time" 12000 10 11990) /\
  dget "filter" (history [(0%nat, a); (1%nat, b)]) = Some (mkCons "filter_time" 12000 700 11300).
Proof.
  split; [|split; reflexivity]. intros k Hk. cbn in Hk.
  repeat (destruct Hk as [<-|Hk]; [split; intro E; cbn in E |- *; try discriminate; reflexivity|]). destruct Hk.
Qed.
(** Resetting one names it to the device. *)
Theorem consumable_reset : forall reply r i k life n u, In (i, k, life, n) consumable_table -> dget k r = Some u ->
  one (reset_consumable reply (history [(0%nat, r)]) i) reply "resetConsumablesTime" [("reset_list", JArr [JStr n])].
Proof.
  intros reply r i k life n u H E log. pose proof (consumables_partial [] 0%nat r (fun _ F => match F with end) i k life n H) as S.
  cbn [app] in S. rewrite E in S. unfold reset_consumable. set (h := history _) in *. change (dget i h = Some (mkCons k life u (life - u))) in S.
  unfold mbind, mlift, dindex. rewrite S. cbn [c_key]. unfold send.
  cbn in H. repeat (destruct H as [[= <- <- <- <-]|H]; [reflexivity|]). destruct H.
Qed.
Print Assumptions consumable_reset.

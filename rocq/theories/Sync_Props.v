(** C133: setting the clock from the command line. *)
From Coq Require Import Lia.
From Verif Require Import Base Base_Lemmas Py Gadget_Model Gadget_Props Small_Props Clock_Model CamMod_Spec Clock_Props Cli_Model Sync_Model.
From Verif Require TimeZone_Model TimeZone_Props.
Open Scope string_scope.
Open Scope list_scope.
Open Scope Z_scope.

(** What the device ends up with: [dt] was passed to a SMART device that is in zone [z], and [d] is what
    it then reports. *)
Definition told (off_wall : string -> Z -> bool -> Z) (z : zone) (dt : moment) (seconds : Z) : Prop :=
  forall reply, exists params, does reply (smart_set_time off_wall reply z dt) (mkCmd "set_device_time" params)
    /\ dget "timestamp" params = Some (JInt seconds).
Lemma told_timestamp off_wall z dt : told off_wall z dt (Z.quot (timestamp off_wall (match tzinfo dt with None => z | Some y => y end) dt) 1000000).
Proof.
  intros reply. eexists. split; [intros log; reflexivity|].
  destruct (region_of (tzinfo dt)) as [r|]; [|reflexivity]. destruct (String.eqb r ""); reflexivity.
Qed.
Lemma set_twice outcome dt : (forall o, outcome o = Ok tt) -> set_and_update outcome dt = ([SetTime dt; UpdateDev], Go tt).
Proof. intros O. unfold set_and_update. now rewrite !O. Qed.

Section Commands.
Variable known : string -> bool.
Variable off_wall : string -> Z -> bool -> Z.
Variable host : Z -> Z.
Variable host_fold : Z -> bool.
Variable matches : string -> res (list string).
Variable confirm : bool.
Variable outcome : top -> res unit.
Notation sync := (time_sync known off_wall host host_fold matches confirm outcome).
Notation set := (time_set known matches confirm outcome).
Notation now := (now_at host host_fold).

Lemma get_zone_same legacy skip key : snd (get_zone known matches confirm legacy skip key) = Go key
  \/ exists e, snd (get_zone known matches confirm legacy skip key) = Stop e.
Proof.
  unfold get_zone. destruct (negb (known key)); [right; eexists; reflexivity|]. destruct (negb skip && legacy); [|left; reflexivity].
  destruct (matches key) as [[|x l]|e]; [right; eexists; reflexivity| |right; eexists; reflexivity].
  destruct confirm; [left|right; eexists]; reflexivity.
Qed.
Lemma done_ops dt ops : set_and_update outcome dt = (ops, Go tt) -> ops = [SetTime dt; UpdateDev].
Proof.
  unfold set_and_update. destruct (outcome (SetTime dt)); [|discriminate]. destruct (outcome UpdateDev); [|discriminate].
  intros E. now injection E as <-.
Qed.

(** After a sync the clock of the device is at the present second, if a zone was given, or if the device
    is in a zone with the computer's offset. *)
Theorem sync_instant_partial legacy skip z zone t ops :
  zone <> Some "" -> (zone = None -> utcoffset off_wall z (now t) = host t) ->
  sync true legacy skip zone t = (ops, Go tt) ->
  exists dt, ops = [SetTime dt; UpdateDev] /\ told off_wall z dt (Z.quot t 1000000)
    /\ tzinfo dt = match zone with Some k => Some (Region k) | None => None end.
Proof.
  intros N A H. unfold time_sync in H. cbn [negb] in H.
  destruct zone as [key|].
  - destruct (String.eqb_spec key "") as [->|N']; [contradiction|].
    exists (mkMoment (wall (now t)) (fold (now t)) (Some (Region key))).
    destruct (get_zone_same legacy skip key) as [K|[e K]]; rewrite K in H; [|discriminate].
    destruct (Z.eqb_spec (utcoffset off_wall (Region key) (now t)) (host t)) as [E|E]; cbn [negb] in H; [|discriminate].
    split; [now apply done_ops|]. split; [|reflexivity].
    pose proof (told_timestamp off_wall z (mkMoment (wall (now t)) (fold (now t)) (Some (Region key)))) as T.
    cbn [tzinfo] in T. unfold timestamp in T. cbn [wall] in T.
    replace (utcoffset off_wall (Region key) (mkMoment (wall (now t)) (fold (now t)) (Some (Region key)))) with (host t) in T by (symmetry; exact E).
    replace (wall (now t) - million * host t) with t in T by (cbn [now_at wall]; lia). exact T.
  - exists (now t). split; [now apply done_ops|]. split; [|reflexivity].
    pose proof (told_timestamp off_wall z (now t)) as T. change (tzinfo (now t)) with (@None zone) in T. cbn match in T.
    unfold timestamp in T. rewrite A in T by reflexivity.
    replace (wall (now t) - million * host t) with t in T by (cbn [now_at wall]; lia). exact T.
Qed.

(** A device elsewhere is set wrong, by the difference of the offsets, and nothing is said. *)
Theorem sync_elsewhere_refuted legacy skip z t :
  (forall o, outcome o = Ok tt) -> 0 <= t -> 0 <= t + 1000000 * (host t - utcoffset off_wall z (now t)) ->
  utcoffset off_wall z (now t) <> host t ->
  exists dt seconds, sync true legacy skip None t = ([SetTime dt; UpdateDev], Go tt) /\ told off_wall z dt seconds
    /\ seconds = Z.quot t 1000000 + (host t - utcoffset off_wall z (now t)) /\ seconds <> Z.quot t 1000000.
Proof.
  intros O P1 P2 D. exists (now t). eexists. split; [apply set_twice; exact O|]. split; [apply told_timestamp|].
  change (tzinfo (now t)) with (@None zone). cbn match. unfold timestamp.
  replace (wall (now t) - million * utcoffset off_wall z (now t)) with (t + (host t - utcoffset off_wall z (now t)) * 1000000)
    by (cbn [now_at wall]; unfold million; lia).
  rewrite !Z.quot_div_nonneg by lia. rewrite Z.div_add by lia. split; [reflexivity|lia].
Qed.

(** A zone that does not exist, or has another offset than the computer, is refused and nothing is set. *)
Theorem sync_refused legacy skip key t : key <> "" ->
  known key = false \/ (legacy = false /\ utcoffset off_wall (Region key) (now t) <> host t) ->
  sync true legacy skip (Some key) t = ([], Stop Exit1).
Proof.
  intros N H. unfold time_sync. cbn [negb]. destruct (String.eqb_spec key ""); [contradiction|]. unfold get_zone.
  destruct (known key); cbn [negb]; [|reflexivity]. destruct H as [H|[-> D]]; [discriminate|].
  rewrite Bool.andb_false_r. cbn [snd]. destruct (Z.eqb_spec (utcoffset off_wall (Region key) (now t)) (host t)); [contradiction|reflexivity].
Qed.

(** Setting a time passes exactly that time, in the zone given or else none, once. *)
Theorem set_as_given legacy skip zone w : (forall o, outcome o = Ok tt) ->
  (forall k, zone = Some k -> k <> "" /\ known k = true /\ (legacy = false \/ skip = true)) ->
  set true legacy skip zone (Ok w)
    = ([SetTime (mkMoment w false (match zone with Some k => Some (Region k) | None => None end)); UpdateDev], Go tt).
Proof.
  intros O K. unfold time_set. cbn [negb]. destruct zone as [key|]; [|now apply set_twice].
  destruct (K key eq_refl) as (N & Kn & L). destruct (String.eqb_spec key ""); [contradiction|]. unfold get_zone. rewrite Kn. cbn [negb].
  replace (negb skip && legacy) with false by (destruct L as [-> | ->]; [now rewrite Bool.andb_false_r|reflexivity]).
  cbn [snd]. now apply set_twice.
Qed.
Theorem set_refused legacy skip zone civil :
  (exists k, zone = Some k /\ k <> "" /\ known k = false) \/ (exists e, civil = Err e) ->
  fst (set true legacy skip zone civil) = [] /\ snd (set true legacy skip zone civil) <> Go tt.
Proof.
  intros H. unfold time_set. cbn [negb]. destruct zone as [key|].
  - destruct (String.eqb_spec key "") as [->|N].
    + destruct H as [(k & E & F & _)|[e ->]]; [congruence|]. split; [reflexivity|discriminate].
    + destruct H as [(k & E & _ & F)|[e ->]].
      * injection E as <-. unfold get_zone. rewrite F. split; [reflexivity|discriminate].
      * destruct (get_zone_same legacy skip key) as [->|[x ->]]; (split; [reflexivity|discriminate]).
  - destruct H as [(k & E & _)|[e ->]]; [discriminate|]. split; [reflexivity|discriminate].
Qed.
(** A refused question sets nothing. *)
Theorem declined_sets_nothing key civil t : confirm = false -> key <> "" ->
  fst (sync true true false (Some key) t) = [] /\ fst (set true true false (Some key) civil) = [].
Proof.
  intros C N. unfold time_sync, time_set. cbn [negb]. destruct (String.eqb_spec key ""); [contradiction|].
  unfold get_zone. cbn [negb andb]. destruct (known key); cbn [negb]; [|split; reflexivity].
  destruct (matches key) as [[|x l]|e]; try (split; reflexivity). rewrite C. split; reflexivity.
Qed.
End Commands.
Print Assumptions sync_instant_partial.
Print Assumptions sync_elsewhere_refuted.
Print Assumptions sync_refused.
Print Assumptions set_as_given.
Print Assumptions set_refused.
Print Assumptions declined_sets_nothing.

(** The question is to be asked when there is no exact match; it is asked for every zone the device has. *)
Theorem exact_match_asked_refuted : forall known offset confirm i n, TimeZone_Props.zone_name i n -> known n = true ->
  fst (get_zone known (fun k => TimeZone_Model.get_matching_timezones offset (TimeZone_Model.Zone k)) confirm true false n) = true.
Proof.
  intros known offset confirm i n Z K. unfold get_zone. rewrite K. cbn [negb andb].
  destruct (TimeZone_Props.matching_zones offset (TimeZone_Model.Zone n)) as (l & E & _ & I). rewrite E.
  destruct l as [|x l]; [|reflexivity]. exfalso. apply (I n). eauto.
Qed.
Print Assumptions exact_match_asked_refuted.

(** A time set in a zone of the database reads back exactly as given. *)
Theorem set_reads_back : forall known off_at fold_at off_wall matches confirm outcome legacy skip reply z k s d,
  consistent off_at fold_at off_wall -> (forall o, outcome o = Ok tt) -> known k = true -> k <> "" -> (legacy = false \/ skip = true) ->
  fold_at k (1000000 * s) = false ->
  let w := 1000000 * s + 1000000 * off_at k (1000000 * s) in
  exists dt params, time_set known matches confirm outcome true legacy skip (Some k) (Ok w) = ([SetTime dt; UpdateDev], Go tt)
    /\ does reply (smart_set_time off_wall reply z dt) (mkCmd "set_device_time" params)
    /\ forall d', kept d params d' -> smart_zone known d' = Ok (Region k) /\ smart_time off_at fold_at (Region k) d' = Ok dt.
Proof.
  intros known off_at fold_at off_wall matches confirm outcome legacy skip reply z k s d C O K N L F w.
  destruct (clock_set_region known off_at fold_at off_wall reply z (mkMoment w false (Some (Region k))) k s d C K N) as (params & D & R).
  { split; [reflexivity|]. split; [reflexivity|]. symmetry. exact F. }
  exists (mkMoment w false (Some (Region k))), params. split; [|split; [exact D|exact R]].
  apply set_as_given; [exact O|]. intros k' E. injection E as <-. auto.
Qed.
Print Assumptions set_reads_back.

(** The computer is an hour ahead of UTC, the device keeps UTC. *)
Example sync_ex : let off_wall (k : string) (_ : Z) (_ : bool) := if String.eqb k "Europe/Paris" then 3600 else 0 in
  time_sync (fun _ => true) off_wall (fun _ => 3600) (fun _ => false) (fun _ => Ok []) true (fun _ => Ok tt) true false false (Some "Europe/Paris") 1700000000000000
    = ([SetTime (mkMoment 1700003600000000 false (Some (Region "Europe/Paris"))); UpdateDev], Go tt)
  /\ time_sync (fun _ => true) off_wall (fun _ => 3600) (fun _ => false) (fun _ => Ok []) true (fun _ => Ok tt) true false false (Some "Etc/UTC") 1700000000000000
    = ([], Stop Exit1)
  /\ utcoffset off_wall (Region "Etc/UTC") (now_at (fun _ => 3600) (fun _ => false) 1700000000000000) <> 3600.
Proof. split; [reflexivity|]. split; [reflexivity|]. discriminate. Qed.
Example exact_ex : TimeZone_Props.zone_name 39 "GB".
Proof. split; [lia|reflexivity]. Qed.

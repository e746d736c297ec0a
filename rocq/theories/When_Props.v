(** C168: since when a device has been on, and when it will switch itself off. *)
From Coq Require Import Lia.
From Verif Require Import Base Base_Lemmas Py Clock_Model Clock_Props When_Model.
Open Scope string_scope.
Open Scope list_scope.
Open Scope Z_scope.

Section Database.
Variable off_at : string -> Z -> Z.
Variable fold_at : string -> Z -> bool.
Variable off_wall : string -> Z -> bool -> Z.
Notation consistent := (consistent off_at fold_at off_wall).
Notation is_at := (is_at off_at fold_at).
Notation offset_of := (offset_of off_at).
Notation second_time := (second_time fold_at).
Notation readings := (readings off_wall).

(** A reading of a device that is on, has been so for [n] seconds, and whose clock is right: it shows
    the instant [t] in the zone [z]. *)
Definition on_reading (k : kind) (r : reading) (z : zone) (t n : Z) : Prop :=
  match k with
  | Smart => exists v, dget "device_on" (r_info r) = Some v /\ truthy v = true
  | _ => r_on r = true
  end
  /\ dget "on_time" (r_info r) = Some (JInt n)
  /\ exists dt, r_time r = Ok dt /\ is_at z t dt.
(** A reading of a device that is off *)
Definition off_reading (k : kind) (r : reading) : Prop :=
  match k with
  | Smart => dget "device_on" (r_info r) = Some (JBool false)
  | _ => r_on r = false
  end.
(** Clocks of the zone were not changed between the two instants, and the first is not an hour that
    the clocks showed twice. *)
Definition steady (z : zone) (a b : Z) : Prop := offset_of z a = offset_of z b /\ second_time z a = false.

Lemma steady_fixed o n a b : steady (Offset o n) a b.
Proof. split; reflexivity. Qed.

Lemma moved_is_at z t dt d : is_at z t dt -> (is_at z (t + d) (plus dt d) <-> steady z (t + d) t).
Proof.
  intros (Hz & Hw & Hf). unfold Clock_Props.is_at, Clock_Props.shows, steady, plus. cbn [tzinfo wall fold]. split.
  - intros (_ & H1 & H2). split; [lia|congruence].
  - intros (H1 & H2). split; [exact Hz|]. split; [lia|congruence].
Qed.

Lemma on_since_on k cached r z t n : on_reading k r z t n ->
  exists dt, is_at z t dt /\
    let c := keep off_wall cached (plus dt (- (1000000 * n))) in
    on_since off_wall k cached r = (Some c, Ok (Some c)).
Proof.
  intros (Ho & Hn & dt & Ht & Hat). exists dt. split; [exact Hat|]. cbv zeta.
  destruct k; unfold on_since, smart_on_since, iot_on_since, socket_on_since, dindex.
  - destruct Ho as (v & -> & ->). rewrite Hn, Ht. reflexivity.
  - rewrite Ho, Hn, Ht. reflexivity.
  - rewrite Ho, Hn. cbn [bind]. rewrite Ht. reflexivity.
Qed.

(** The first reading gives the clock's time less the time it has been on.  That is the right moment
    unless the clocks were changed since: then, and only then, it is another one. *)
Theorem on_since_moment_partial k r z t n : on_reading k r z t n ->
  exists m, readings k None [r] = [Ok (Some m)]
    /\ (is_at z (t - 1000000 * n) m <-> steady z (t - 1000000 * n) t)
    /\ (forall o name, z = Offset o name -> is_at z (t - 1000000 * n) m).
Proof.
  intros H. destruct (on_since_on k None r z t n H) as (dt & Hat & E). cbv zeta in E. cbn [When_Model.readings]. rewrite E.
  eexists. split; [reflexivity|]. cbn [keep].
  pose proof (moved_is_at z t dt (- (1000000 * n)) Hat) as M. replace (t + - (1000000 * n)) with (t - 1000000 * n) in M by lia.
  split; [exact M|]. intros o name ->. apply M, steady_fixed.
Qed.

(** While it stays on, every reading gives that same moment as long as the clocks are not changed. *)
Theorem on_since_keeps k z s : forall rs r,
  (forall x, In x (r :: rs) -> exists t n, on_reading k x z t n /\ t - 1000000 * n = s /\ steady z s t) ->
  exists m, is_at z s m /\ readings k None (r :: rs) = map (fun _ => Ok (Some m)) (r :: rs).
Proof.
  intros rs r H. set (m := mkMoment (s + 1000000 * offset_of z s) false (Some z)). exists m.
  assert (P : forall x, In x (r :: rs) -> forall cached, cached = None \/ cached = Some m ->
    on_since off_wall k cached x = (Some m, Ok (Some m))).
  { intros x Hx cached Hc. destruct (H x Hx) as (t & n & Hr & Hs & (S1 & S2)).
    destruct (on_since_on k cached x z t n Hr) as (dt & (Hz & Hw & Hf) & E). cbv zeta in E. rewrite E.
    assert (Em : plus dt (- (1000000 * n)) = m).
    { unfold plus, m. rewrite Hz. f_equal. rewrite Hw, S1. lia. }
    rewrite Em. destruct Hc as [-> | ->]; [reflexivity|]. cbn [keep].
    assert (D : minus off_wall m m = 0).
    { unfold minus. cbn [m tzinfo]. destruct (same_zone z z); lia. }
    rewrite D. reflexivity. }
  split.
  - destruct (H r (or_introl eq_refl)) as (t & n & _ & _ & (_ & S2)). unfold m, Clock_Props.is_at, Clock_Props.shows. cbn [tzinfo wall fold]. auto.
  - assert (Q : forall l cached, (forall x, In x l -> In x (r :: rs)) -> cached = None \/ cached = Some m ->
      readings k cached l = map (fun _ => Ok (Some m)) l).
    { induction l as [|x l IH]; intros cached Hl Hc; [reflexivity|]. cbn [When_Model.readings map].
      rewrite (P x (Hl x (or_introl eq_refl)) cached Hc). f_equal. apply IH; [|right; reflexivity]. intros y Hy. apply Hl. right. exact Hy. }
    apply Q; [auto|left; reflexivity].
Qed.

(** Also when the device is moved to another zone in between *)
Theorem on_since_other_zone k z z' s t t' n n' r r' : consistent ->
  on_reading k r z t n -> on_reading k r' z' t' n' -> t - 1000000 * n = s -> t' - 1000000 * n' = s ->
  steady z s t -> steady z' s t' ->
  exists m, is_at z s m /\ readings k None [r; r'] = [Ok (Some m); Ok (Some m)].
Proof.
  intros C H H' Hs Hs' S S'. destruct (on_since_on k None r z t n H) as (dt & Hat & E). cbv zeta in E.
  assert (M : is_at z s (plus dt (- (1000000 * n)))).
  { pose proof (moved_is_at z t dt (- (1000000 * n)) Hat) as M. replace (t + - (1000000 * n)) with s in M by lia. apply M. exact S. }
  cbn [keep] in E. set (m := plus dt (- (1000000 * n))) in *. exists m. split; [exact M|].
  destruct (on_since_on k (Some m) r' z' t' n' H') as (dt' & Hat' & E'). cbv zeta in E'.
  assert (M' : is_at z' s (plus dt' (- (1000000 * n')))).
  { pose proof (moved_is_at z' t' dt' (- (1000000 * n')) Hat') as M'. replace (t' + - (1000000 * n')) with s in M' by lia. apply M'. exact S'. }
  set (m' := plus dt' (- (1000000 * n'))) in *.
  assert (D : minus off_wall m' m = 0).
  { unfold minus. rewrite (proj1 M), (proj1 M'). destruct (same_zone z' z) eqn:Ez.
    - assert (Eo : offset_of z' s = offset_of z s).
      { destruct z, z'; cbn in *; try discriminate; [apply String.eqb_eq in Ez; congruence|].
        apply andb_prop in Ez. destruct Ez as (Ez & _). apply Z.eqb_eq in Ez. congruence. }
      rewrite (proj1 (proj2 M)), (proj1 (proj2 M')), Eo. lia.
    - rewrite (proj2 (utcoffset_shows off_at fold_at off_wall z s m C (proj2 M))).
      rewrite (proj2 (utcoffset_shows off_at fold_at off_wall z' s m' C (proj2 M'))). lia. }
  cbn [When_Model.readings]. rewrite E. cbn [When_Model.readings]. rewrite E'. cbn [keep]. rewrite D. reflexivity.
Qed.

(** Switched off, there is no such moment, and the next time it is on it is a new one. *)
Theorem on_since_off k r rs cached : off_reading k r ->
  readings k cached (r :: rs) = Ok None :: readings k None rs.
Proof.
  intros H. cbn [When_Model.readings]. destruct k; unfold on_since, smart_on_since, iot_on_since, socket_on_since; cbn [off_reading] in H; rewrite H; reflexivity.
Qed.

(** When clocks go forward while the device is on, the moment it reports moves along with them. *)
Theorem on_since_forward_refuted k z s t t' n n' r r' :
  on_reading k r z t n -> on_reading k r' z t' n' -> t - 1000000 * n = s -> t' - 1000000 * n' = s ->
  offset_of z t + 5 < offset_of z t' ->
  exists m m', readings k None [r; r'] = [Ok (Some m); Ok (Some m')]
    /\ tzinfo m = Some z /\ tzinfo m' = Some z
    /\ wall m' = wall m + 1000000 * (offset_of z t' - offset_of z t).
Proof.
  intros H H' Hs Hs' L. destruct (on_since_on k None r z t n H) as (dt & (Z1 & W1 & _) & E). cbv zeta in E. cbn [keep] in E.
  set (m := plus dt (- (1000000 * n))) in *.
  destruct (on_since_on k (Some m) r' z t' n' H') as (dt' & (Z2 & W2 & _) & E'). cbv zeta in E'. set (m' := plus dt' (- (1000000 * n'))) in *.
  assert (W : wall m' = wall m + 1000000 * (offset_of z t' - offset_of z t)) by (unfold m, m', plus; cbn [wall]; lia).
  exists m, m'. split; [|split; [exact Z1|split; [exact Z2|exact W]]].
  assert (D : minus off_wall m' m = 1000000 * (offset_of z t' - offset_of z t)).
  { unfold minus. cbn [m m' plus tzinfo]. rewrite Z1, Z2.
    replace (same_zone z z) with true. { fold m m'. unfold m, m' in *. cbn [plus wall] in *. lia. }
    destruct z as [kk|o nn]; cbn; [symmetry; apply String.eqb_refl|]. rewrite Z.eqb_refl. destruct nn; cbn; [symmetry; apply String.eqb_refl|reflexivity]. }
  cbn [When_Model.readings]. rewrite E. cbn [When_Model.readings]. rewrite E'. cbn [keep]. rewrite D. unfold million.
  replace (0 <? 1000000 * (offset_of z t' - offset_of z t)) with true by (symmetry; apply Z.ltb_lt; lia).
  replace (5 * 1000000 <? 1000000 * (offset_of z t' - offset_of z t)) with true by (symmetry; apply Z.ltb_lt; lia). reflexivity.
Qed.

(** When it will switch itself off: only while the timer runs, the clock's time and what remains, which
    is the right moment unless the clocks are changed before. *)
Theorem auto_off_moment_partial info time z t dt n : time = Ok dt -> is_at z t dt ->
  (forall v, dget "auto_off_status" info = Some v -> v <> JStr "on" -> auto_off_at info time = Ok None)
  /\ (dget "auto_off_status" info = Some (JStr "on") -> dget "auto_off_remain_time" info = Some (JInt n) ->
      exists m, auto_off_at info time = Ok (Some m)
        /\ (is_at z (t + 1000000 * n) m <-> steady z (t + 1000000 * n) t)
        /\ (forall o name, z = Offset o name -> is_at z (t + 1000000 * n) m)).
Proof.
  intros -> Hat. split.
  - intros v Hv Hn. unfold auto_off_at, dindex. rewrite Hv. cbn [bind].
    destruct v as [| | | |x| |]; try reflexivity. destruct (String.eqb x "on") eqn:E; [|reflexivity].
    apply String.eqb_eq in E. subst x. now destruct Hn.
  - intros Hs Hr. unfold auto_off_at, dindex. rewrite Hs. cbn [bind]. change (String.eqb "on" "on") with true. cbv iota. rewrite Hr.
    cbn [bind seconds as_int]. eexists. split; [reflexivity|]. unfold million. pose proof (moved_is_at z t dt (1000000 * n) Hat) as M.
    split; [exact M|]. intros o name ->. apply M, steady_fixed.
Qed.
End Database.

Print Assumptions on_since_moment_partial.
Print Assumptions on_since_keeps.
Print Assumptions on_since_other_zone.
Print Assumptions on_since_off.
Print Assumptions on_since_forward_refuted.
Print Assumptions auto_off_moment_partial.

(** A year after 1970 the clocks of Amsterdam go forward, at instant [change].  A device switched on
    three hours before and read ten minutes after the change reports a moment an hour later, and one
    that will switch itself off in two hours, read ten minutes before the change, an hour
    earlier than it will. *)
Definition change : Z := 31536000000000.
Definition minutes (n : Z) : Z := 60000000 * n.
Notation Ams := (Region "Europe/Amsterdam").
Notation clock t := (from_timestamp ex_off ex_fold t Ams).
Definition plug_on (t secs : Z) : reading :=
  mkReading [("device_on", JBool true); ("on_time", JInt secs)] true (Ok (clock t)).
Theorem summer_time_refuted :
  consistent ex_off ex_fold ex_wall
  /\ on_reading ex_off ex_fold Smart (plug_on (change + minutes 10) 11400) Ams (change + minutes 10) 11400
  /\ (exists m, readings ex_wall Smart None [plug_on (change + minutes 10) 11400] = [Ok (Some m)]
        /\ timestamp ex_wall Ams m = change - minutes 180 + minutes 60)
  /\ (exists m m', readings ex_wall Smart None [plug_on (change - minutes 5) 10500; plug_on (change + minutes 10) 11400]
        = [Ok (Some m); Ok (Some m')]
        /\ timestamp ex_wall Ams m = change - minutes 180 /\ timestamp ex_wall Ams m' = change - minutes 120)
  /\ (exists m, auto_off_at [("auto_off_status", JStr "on"); ("auto_off_remain_time", JInt 7200)] (Ok (clock (change - minutes 10)))
                = Ok (Some m) /\ timestamp ex_wall Ams m = change + minutes 110 - minutes 60).
Proof.
  split; [exact clock_consistent|]. split.
  { split; [eexists; split; reflexivity|]. split; [reflexivity|]. eexists. split; [reflexivity|]. apply from_is_at. }
  split; [eexists; split; [reflexivity|vm_compute; reflexivity]|].
  split; [do 2 eexists; split; [vm_compute; reflexivity|split; vm_compute; reflexivity]|].
  eexists. split; [reflexivity|]. vm_compute. reflexivity.
Qed.
Print Assumptions summer_time_refuted.

(** In the hour that is shown twice even a device switched on a minute ago is an hour off: a database in
    which clocks go back an hour at instant 0. *)
Definition back_off (k : string) (t : Z) : Z := if t <? 0 then 3600 else 0.
Definition back_fold (k : string) (t : Z) : bool := (0 <=? t) && (t <? 3600000000).
Definition back_wall (k : string) (w : Z) (f : bool) : Z :=
  if w <? 0 then 3600 else if w <? 3600000000 then (if f then 0 else 3600) else 0.
Theorem winter_time_refuted :
  consistent back_off back_fold back_wall
  /\ exists m, readings back_wall Smart None [mkReading [("device_on", JBool true); ("on_time", JInt 60)] true
                  (Ok (from_timestamp back_off back_fold (minutes 30) Ams))] = [Ok (Some m)]
      /\ timestamp back_wall Ams m = minutes 29 - minutes 60.
Proof.
  split.
  - intros k t. unfold back_off, back_fold, back_wall. destruct (Z.ltb_spec t 0).
    + replace (0 <=? t) with false by (symmetry; apply Z.leb_gt; lia). cbn [andb].
      destruct (Z.ltb_spec (t + 1000000 * 3600) 0); [reflexivity|].
      destruct (Z.ltb_spec (t + 1000000 * 3600) 3600000000); [reflexivity|lia].
    + replace (0 <=? t) with true by (symmetry; apply Z.leb_le; lia). cbn [andb].
      destruct (Z.ltb_spec (t + 1000000 * 0) 0); [lia|]. replace (t + 1000000 * 0) with t by lia.
      destruct (t <? 3600000000); reflexivity.
  - eexists. split; [reflexivity|]. vm_compute. reflexivity.
Qed.
Print Assumptions winter_time_refuted.

(** Readings that meet the hypotheses *)
Example on_since_ex :
  steady ex_off ex_fold Ams (change + minutes 10) (change + minutes 30)
  /\ readings ex_wall Smart None [plug_on (change + minutes 20) 600; plug_on (change + minutes 30) 1200;
       mkReading [("device_on", JBool false)] false (Ok (clock (change + minutes 40))); plug_on (change + minutes 50) 60]
     = [Ok (Some (clock (change + minutes 10))); Ok (Some (clock (change + minutes 10))); Ok None; Ok (Some (clock (change + minutes 49)))]
  /\ on_reading ex_off ex_fold Socket (plug_on (change + minutes 20) 600) Ams (change + minutes 20) 600.
Proof.
  split; [split; reflexivity|]. split; [vm_compute; reflexivity|]. split; [reflexivity|]. split; [reflexivity|].
  eexists. split; [reflexivity|]. apply from_is_at.
Qed.
Example other_zone_ex :
  let r t secs z := mkReading [("device_on", JBool true); ("on_time", JInt secs)] true (Ok (from_timestamp ex_off ex_fold t z)) in
  readings ex_wall Smart None [r (change + minutes 20) 600 Ams; r (change + minutes 30) 1200 (Offset 0 (Some "UTC"))]
  = [Ok (Some (clock (change + minutes 10))); Ok (Some (clock (change + minutes 10)))].
Proof. vm_compute. reflexivity. Qed.

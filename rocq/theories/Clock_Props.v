(** C96, C97: the clocks of SMART devices and cameras. *)
From Coq Require Import Lia Ascii.
From Verif Require Import Base Base_Lemmas Py Gadget_Model Gadget_Props Small_Props Clock_Model CamMod_Spec CamMod_Props.
Open Scope string_scope.
Open Scope list_scope.
Open Scope Z_scope.

Section Database.
Variable known : string -> bool.
Variable off_at : string -> Z -> Z.
Variable fold_at : string -> Z -> bool.
Variable off_wall : string -> Z -> bool -> Z.

(** The database is consistent: the offset found from what the wall clock shows at an instant is
    the offset at that instant. *)
Definition consistent : Prop :=
  forall k t, off_wall k (t + 1000000 * off_at k t) (fold_at k t) = off_at k t.

(** Offset of a zone at an instant, in seconds, and whether its wall clock shows the time for the
    second time *)
Definition offset_of (z : zone) (t : Z) : Z :=
  match z with Region k => off_at k t | Offset o _ => o end.
Definition second_time (z : zone) (t : Z) : bool :=
  match z with Region k => fold_at k t | Offset _ _ => false end.
(** A wall clock [w], with its fold, is what a clock in zone [z] shows at instant [t] (in
    microseconds). *)
Definition shows (z : zone) (t : Z) (w : Z) (f : bool) : Prop :=
  w = t + 1000000 * offset_of z t /\ f = second_time z t.
(** [dt] is the time in zone [z] at instant [t]. *)
Definition is_at (z : zone) (t : Z) (dt : moment) : Prop :=
  tzinfo dt = Some z /\ shows z t (wall dt) (fold dt).

Lemma is_at_unique z t a b : is_at z t a -> is_at z t b -> a = b.
Proof.
  destruct a, b. unfold is_at, shows. cbn. intros (-> & -> & ->) (-> & -> & ->). reflexivity.
Qed.

Lemma from_is_at z t : is_at z t (from_timestamp off_at fold_at t z).
Proof. destruct z; unfold is_at, shows; cbn; unfold million; repeat split; lia. Qed.

Lemma utcoffset_shows z t dt : consistent -> shows z t (wall dt) (fold dt) ->
  utcoffset off_wall z dt = offset_of z t /\ timestamp off_wall z dt = t.
Proof.
  intros C (Hw & Hf). unfold timestamp.
  assert (E : utcoffset off_wall z dt = offset_of z t).
  { destruct z; cbn in *; [|reflexivity]. rewrite Hw, Hf. apply C. }
  split; [exact E|]. rewrite E, Hw. unfold million. lia.
Qed.

(** A number in two digits, and an offset as +HH:MM *)
Definition dig (n : Z) : string :=
  match String.get (Z.to_nat n) "0123456789" with Some c => String c "" | None => "" end.
Definition two (n : Z) : string := (dig (n / 10) ++ dig (n mod 10))%string.
Definition offset_text (neg : bool) (h m : Z) : string :=
  ((if neg then "-" else "+") ++ two h ++ ":" ++ two m)%string.

(** The name of a fixed offset, given in minutes: UTC, or UTC+HH:MM *)
Definition offset_name (m : Z) : string :=
  if m =? 0 then "UTC" else ("UTC" ++ offset_text (m <? 0)%Z (Z.abs m / 60)%Z (Z.abs m mod 60)%Z)%string.

Lemma dig_char n : 0 <= n < 10 -> String (digit_char n) "" = dig n.
Proof.
  intros H. assert (n = 0 \/ n = 1 \/ n = 2 \/ n = 3 \/ n = 4 \/ n = 5 \/ n = 6 \/ n = 7 \/ n = 8 \/ n = 9) by lia.
  decompose [or] H0; subst; reflexivity.
Qed.
Lemma pad_two n : 0 <= n < 100 -> pad2 n = two n.
Proof.
  intros H. pose proof (Z.div_mod n 10 ltac:(discriminate)) as D. pose proof (Z.mod_pos_bound n 10 ltac:(reflexivity)) as B.
  unfold two, pad2. rewrite <- !dig_char by lia. reflexivity.
Qed.
Lemma app_end s : (s ++ "")%string = s.
Proof. induction s; cbn; congruence. Qed.
Lemma utc_offset_name m : -1440 < m < 1440 -> utc_name (60 * m) = offset_name m.
Proof.
  intros H. unfold utc_name, offset_name.
  replace (60 * m =? 0) with (m =? 0) by (destruct (Z.eqb_spec m 0), (Z.eqb_spec (60 * m) 0); lia).
  destruct (m =? 0); [reflexivity|].
  replace (60 * m <? 0) with (m <? 0) by (destruct (Z.ltb_spec m 0), (Z.ltb_spec (60 * m) 0); lia).
  replace (Z.abs (60 * m)) with (60 * Z.abs m) by lia. cbv zeta.
  replace (60 * Z.abs m mod 60) with 0 by (rewrite Z.mul_comm, Z.mod_mul; lia). cbn [Z.eqb].
  replace (60 * Z.abs m / 3600) with (Z.abs m / 60)
    by (change 3600 with (60 * 60); rewrite Z.div_mul_cancel_l; lia).
  replace (60 * Z.abs m / 60) with (Z.abs m) by (rewrite Z.mul_comm, Z.div_mul; lia).
  pose proof (Z.mod_pos_bound (Z.abs m) 60 ltac:(reflexivity)) as B. pose proof (Z.div_mod (Z.abs m) 60 ltac:(discriminate)) as D.
  rewrite !pad_two by lia. rewrite app_end. reflexivity.
Qed.

(** ** C96 *)
Theorem smart_clock z d s : dget "timestamp" d = Some (JInt s) ->
  exists dt, smart_time off_at fold_at z d = Ok dt /\ is_at z (1000000 * s) dt.
Proof.
  intros H. unfold smart_time, number. rewrite H. eexists. split; [reflexivity|]. apply from_is_at.
Qed.

(** The zone: the region's rules when they are known, else the fixed offset reported. *)
Theorem smart_clock_zone d m : dget "time_diff" d = Some (JInt m) ->
  (forall r, dget "region" d = Some (JStr r) -> r <> "" -> known r = true ->
     smart_zone known d = Ok (Region r))
  /\ (-1440 < m < 1440 ->
      (forall r, dget "region" d = Some (JStr r) -> r <> "" -> known r = false ->
         smart_zone known d = Ok (Offset (60 * m) (Some r)))
      /\ (dget "region" d = None \/ dget "region" d = Some (JStr "") ->
          smart_zone known d = Ok (Offset (60 * m) (Some (offset_name m))))).
Proof.
  intros H. unfold smart_zone, number. rewrite H. cbn [as_int bind].
  assert (T : forall r, r <> "" -> truthy (JStr r) = true).
  { intros r Hr. cbn. destruct r; [easy|reflexivity]. }
  split; [|intros Hm; split].
  - intros r -> Hr Hk. rewrite (T r Hr), Hk. reflexivity.
  - intros r -> Hr Hk. rewrite (T r Hr), Hk. unfold fixed_zone.
    replace ((-86400 <? 60 * m) && (60 * m <? 86400)) with true; [reflexivity|].
    symmetry. apply andb_true_iff. rewrite !Z.ltb_lt. lia.
  - assert (F : fixed_zone (60 * m) None = Ok (Offset (60 * m) (Some (utc_name (60 * m))))).
    { unfold fixed_zone. replace ((-86400 <? 60 * m) && (60 * m <? 86400)) with true; [reflexivity|].
      symmetry. apply andb_true_iff. rewrite !Z.ltb_lt. lia. }
    rewrite utc_offset_name in F by exact Hm. intros [-> | ->]; exact F.
Qed.

(** Which fields a command that sets the clock has *)
Definition clock_params (t : Z) (o : Z) (r : option string) : list (string * json) :=
  [("timestamp", JInt (Z.quot t 1000000)); ("time_diff", JInt (Z.quot o 60))]
  ++ match r with Some r => [("region", JStr r)] | None => [] end.

Lemma smart_set_params reply z dt tz t : consistent ->
  tz = match tzinfo dt with None => z | Some y => y end ->
  shows tz t (wall dt) (fold dt) ->
  does reply (smart_set_time off_wall reply z dt)
    (mkCmd "set_device_time" (clock_params t (offset_of tz t)
       (match tzinfo dt with
        | Some (Region k) => if String.eqb k "" then None else Some k
        | Some (Offset _ (Some n)) => if String.eqb n "" then None else Some n
        | _ => None end))).
Proof.
  intros C Etz Hs log. unfold smart_set_time. rewrite <- Etz.
  destruct (utcoffset_shows tz t dt C Hs) as (E1 & E2). rewrite E1, E2.
  unfold clock_params, region_of.
  destruct (tzinfo dt) as [[k|o [n|]]|]; cbn [app]; try reflexivity.
  - destruct (String.eqb k ""); reflexivity.
  - destruct (String.eqb n ""); reflexivity.
Qed.

(** Setting the clock sets the instant, to the second, whatever zone the time is given in, or the
    device's own if none is given. *)
Theorem clock_set_instant reply z dt t d :
  consistent ->
  shows (match tzinfo dt with None => z | Some y => y end) t (wall dt) (fold dt) ->
  exists params, does reply (smart_set_time off_wall reply z dt) (mkCmd "set_device_time" params)
    /\ forall d' z', kept d params d' ->
       exists dt', smart_time off_at fold_at z' d' = Ok dt' /\ is_at z' (1000000 * Z.quot t 1000000) dt'.
Proof.
  intros C Hs. eexists. split; [apply (smart_set_params reply z dt _ t C eq_refl Hs)|].
  intros d' z' Hk. apply smart_clock. rewrite (Hk _). reflexivity.
Qed.

Lemma clock_read params t o r d d' : params = clock_params t o r -> kept d params d' ->
  dget "timestamp" d' = Some (JInt (Z.quot t 1000000))
  /\ dget "time_diff" d' = Some (JInt (Z.quot o 60))
  /\ dget "region" d' = match r with Some r => Some (JStr r) | None => dget "region" d end.
Proof.
  intros -> H. rewrite !(H _). destruct r; repeat split; reflexivity.
Qed.

Lemma whole_second s : Z.quot (1000000 * s) 1000000 = s.
Proof. rewrite Z.mul_comm. apply Z.quot_mul. lia. Qed.

(** Given with a zone of the database, it reads back exactly as given. *)
Theorem clock_set_region reply z dt k s d :
  consistent -> known k = true -> k <> "" -> is_at (Region k) (1000000 * s) dt ->
  exists params, does reply (smart_set_time off_wall reply z dt) (mkCmd "set_device_time" params)
    /\ forall d', kept d params d' ->
       smart_zone known d' = Ok (Region k) /\ smart_time off_at fold_at (Region k) d' = Ok dt.
Proof.
  intros C Hkn Hne (Hz & Hs). eexists. split.
  { apply (smart_set_params reply z dt (Region k) (1000000 * s) C); [rewrite Hz; reflexivity|exact Hs]. }
  rewrite Hz. apply String.eqb_neq in Hne as Hne'. rewrite Hne'. intros d' Hk.
  destruct (clock_read _ _ _ _ _ _ eq_refl Hk) as (H1 & H2 & H3). split.
  - apply (proj1 (smart_clock_zone d' _ H2) k H3 Hne Hkn).
  - rewrite whole_second in H1. destruct (smart_clock (Region k) d' s H1) as (dt' & E & Hat). rewrite E.
    f_equal. eapply is_at_unique; [exact Hat|split; assumption].
Qed.

(** So does one given with a fixed offset of whole minutes whose name is not that of a known zone. *)
Theorem clock_set_offset reply z dt m n s d :
  consistent -> known n = false -> n <> "" -> -1440 < m < 1440 ->
  is_at (Offset (60 * m) (Some n)) (1000000 * s) dt ->
  exists params, does reply (smart_set_time off_wall reply z dt) (mkCmd "set_device_time" params)
    /\ forall d', kept d params d' ->
       smart_zone known d' = Ok (Offset (60 * m) (Some n))
       /\ smart_time off_at fold_at (Offset (60 * m) (Some n)) d' = Ok dt.
Proof.
  intros C Hkn Hne Hm (Hz & Hs). eexists. split.
  { apply (smart_set_params reply z dt (Offset (60 * m) (Some n)) (1000000 * s) C); [rewrite Hz; reflexivity|exact Hs]. }
  rewrite Hz. apply String.eqb_neq in Hne as Hne'. rewrite Hne'. intros d' Hk.
  destruct (clock_read _ _ _ _ _ _ eq_refl Hk) as (H1 & H2 & H3).
  cbn [offset_of] in H2. replace (Z.quot (60 * m) 60) with m in H2
    by (rewrite Z.mul_comm, Z.quot_mul; lia). split.
  - apply (proj1 (proj2 (smart_clock_zone d' _ H2) Hm) n H3 Hne Hkn).
  - rewrite whole_second in H1. destruct (smart_clock (Offset (60 * m) (Some n)) d' s H1) as (dt' & E & Hat).
    rewrite E. f_equal. eapply is_at_unique; [exact Hat|split; assumption].
Qed.

(** A time without a zone is a time on the device's own clock: the device stays in its zone and
    then shows it. *)
Theorem clock_set_naive reply z dt s d m :
  consistent -> dget "time_diff" d = Some (JInt m) ->
  (forall r, dget "region" d = Some r -> exists x, r = JStr x) ->
  smart_zone known d = Ok z -> tzinfo dt = None -> shows z (1000000 * s) (wall dt) (fold dt) ->
  exists params, does reply (smart_set_time off_wall reply z dt) (mkCmd "set_device_time" params)
    /\ forall d', kept d params d' ->
       smart_zone known d' = Ok z
       /\ smart_time off_at fold_at z d' = Ok (mkMoment (wall dt) (fold dt) (Some z)).
Proof.
  intros C Hm Hreg Hz Hn Hs. eexists. split.
  { apply (smart_set_params reply z dt z (1000000 * s) C); [rewrite Hn; reflexivity|exact Hs]. }
  rewrite Hn. intros d' Hk.
  destruct (clock_read _ _ _ _ _ _ eq_refl Hk) as (H1 & H2 & H3). split.
  - unfold smart_zone, number in *. rewrite H2, H3. rewrite Hm in Hz. cbn [as_int bind] in *.
    assert (F : forall nm z, fixed_zone (60 * m) nm = Ok z -> fixed_zone (60 * Z.quot (offset_of z (1000000 * s)) 60) nm = Ok z).
    { intros nm z0 E. unfold fixed_zone in E.
      destruct ((-86400 <? 60 * m) && (60 * m <? 86400)) eqn:B; [|discriminate].
      assert (E' : z0 = Offset (60 * m) (Some match nm with Some n => n | None => utc_name (60 * m) end)) by congruence.
      rewrite E'. cbn [offset_of].
      assert (Q : Z.quot (60 * m) 60 = m) by (rewrite Z.mul_comm, Z.quot_mul; lia).
      rewrite Q. unfold fixed_zone. rewrite B. reflexivity. }
    destruct (dget "region" d) as [v|] eqn:Er; [|apply F; exact Hz].
    destruct (truthy v); [|apply F; exact Hz].
    destruct (Hreg v eq_refl) as (x & ->). destruct (known x); [exact Hz|apply F; exact Hz].
  - rewrite whole_second in H1. destruct (smart_clock z d' s H1) as (dt' & E & Hat). rewrite E.
    f_equal. eapply is_at_unique; [exact Hat|split; [reflexivity|exact Hs]].
Qed.

(** But a fixed offset with the name of a known zone becomes that zone, ... *)
Theorem clock_set_name_refuted reply z dt o n s d :
  consistent -> known n = true -> n <> "" -> is_at (Offset o (Some n)) (1000000 * s) dt ->
  exists params, does reply (smart_set_time off_wall reply z dt) (mkCmd "set_device_time" params)
    /\ forall d', kept d params d' ->
       smart_zone known d' = Ok (Region n)
       /\ forall dt', smart_time off_at fold_at (Region n) d' = Ok dt' ->
            wall dt' = wall dt <-> off_at n (1000000 * s) = o.
Proof.
  intros C Hkn Hne (Hz & Hs). eexists. split.
  { apply (smart_set_params reply z dt (Offset o (Some n)) (1000000 * s) C); [rewrite Hz; reflexivity|exact Hs]. }
  rewrite Hz. apply String.eqb_neq in Hne as Hne'. rewrite Hne'. intros d' Hk.
  destruct (clock_read _ _ _ _ _ _ eq_refl Hk) as (H1 & H2 & H3). split.
  - apply (proj1 (smart_clock_zone d' _ H2) n H3 Hne Hkn).
  - intros dt' E. rewrite whole_second in H1.
    destruct (smart_clock (Region n) d' s H1) as (dt2 & E2 & _ & Hw2 & _).
    rewrite E in E2. injection E2 as <-. destruct Hs as (Hw & _). rewrite Hw, Hw2. cbn [offset_of]. lia.
Qed.

(** ... and one without a name leaves the device in the region it had. *)
Theorem clock_set_unnamed_refuted reply z dt o r s d :
  consistent -> known r = true -> r <> "" -> dget "region" d = Some (JStr r) ->
  is_at (Offset o None) (1000000 * s) dt ->
  exists params, does reply (smart_set_time off_wall reply z dt) (mkCmd "set_device_time" params)
    /\ forall d', kept d params d' ->
       smart_zone known d' = Ok (Region r)
       /\ forall dt', smart_time off_at fold_at (Region r) d' = Ok dt' ->
            wall dt' = wall dt <-> off_at r (1000000 * s) = o.
Proof.
  intros C Hkn Hne Hr (Hz & Hs). eexists. split.
  { apply (smart_set_params reply z dt (Offset o None) (1000000 * s) C); [rewrite Hz; reflexivity|exact Hs]. }
  rewrite Hz. intros d' Hk.
  destruct (clock_read _ _ _ _ _ _ eq_refl Hk) as (H1 & H2 & H3). rewrite Hr in H3. split.
  - apply (proj1 (smart_clock_zone d' _ H2) r H3 Hne Hkn).
  - intros dt' E. rewrite whole_second in H1.
    destruct (smart_clock (Region r) d' s H1) as (dt2 & E2 & _ & Hw2 & _).
    rewrite E in E2. injection E2 as <-. destruct Hs as (Hw & _). rewrite Hw, Hw2. cbn [offset_of]. lia.
Qed.

(** ** C97 *)
Definition cam_instant (clock : dict json) (s : Z) : Prop := dget "seconds_from_1970" clock = Some (JInt s).

Theorem cam_clock_known clock basic k s :
  cam_instant clock s -> dget "zone_id" basic = Some (JStr k) -> known k = true ->
  exists dt, cam_hook known off_at fold_at clock basic = Ok (Region k, dt) /\ is_at (Region k) (1000000 * s) dt.
Proof.
  intros Hs Hk Hkn. unfold cam_hook, text, dindex. rewrite Hk. cbn [bind]. rewrite Hs. cbn [bind]. rewrite Hkn.
  cbn [bind as_int]. eexists. split; [reflexivity|]. apply from_is_at.
Qed.

Lemma dig_val n : 0 <= n < 10 -> exists c, dig n = String c "" /\ Clock_Model.digit_val c = Some n.
Proof.
  intros H. assert (n = 0 \/ n = 1 \/ n = 2 \/ n = 3 \/ n = 4 \/ n = 5 \/ n = 6 \/ n = 7 \/ n = 8 \/ n = 9) by lia.
  decompose [or] H0; subst; eexists; split; reflexivity.
Qed.

Lemma sdrop_app p s : sdrop (String.length p) (p ++ s)%string = s.
Proof. induction p; cbn; auto. Qed.

Lemma length_app p s : String.length (p ++ s)%string = (String.length p + String.length s)%nat.
Proof. induction p; cbn; auto. Qed.

Theorem cam_clock_unknown clock basic k prefix (neg : bool) h m s :
  cam_instant clock s -> dget "zone_id" basic = Some (JStr k) -> known k = false ->
  0 <= h < 24 -> 0 <= m < 60 ->
  dget "timezone" basic = Some (JStr (prefix ++ offset_text neg h m)%string) ->
  let o := (if neg then -1 else 1) * (3600 * h + 60 * m) in
  let n := offset_name ((if neg then -1 else 1) * (60 * h + m)) in
  exists dt, cam_hook known off_at fold_at clock basic = Ok (Offset o (Some n), dt)
    /\ is_at (Offset o (Some n)) (1000000 * s) dt.
Proof.
  intros Hs Hk Hkn Hh Hm Ht o n. unfold cam_hook, text, dindex. rewrite Hk. cbn [bind]. rewrite Hs.
  cbn [bind]. rewrite Hkn, Ht. cbn [bind].
  pose proof (Z.div_mod h 10 ltac:(discriminate)) as Dh. pose proof (Z.mod_pos_bound h 10 ltac:(reflexivity)) as Bh.
  pose proof (Z.div_mod m 10 ltac:(discriminate)) as Dm. pose proof (Z.mod_pos_bound m 10 ltac:(reflexivity)) as Bm.
  destruct (dig_val (h / 10)) as (c1 & E1 & V1); [lia|].
  destruct (dig_val (h mod 10)) as (c2 & E2 & V2); [lia|].
  destruct (dig_val (m / 10)) as (c3 & E3 & V3); [lia|].
  destruct (dig_val (m mod 10)) as (c4 & E4 & V4); [lia|].
  assert (Et : offset_text neg h m
    = String (if neg then "-"%char else "+"%char) (String c1 (String c2 (String ":" (String c3 (String c4 "")))))).
  { unfold offset_text, two. rewrite E1, E2, E3, E4. destruct neg; reflexivity. }
  rewrite Et. unfold last6. rewrite length_app. cbn [String.length].
  replace (String.length prefix + 6 - 6)%nat with (String.length prefix) by lia.
  rewrite sdrop_app. cbn [parse_offset]. rewrite Ascii.eqb_refl. unfold offset_parts.
  rewrite V1, V2, V3, V4. replace (m / 10 <=? 5) with true by (symmetry; apply Z.leb_le; lia).
  replace (60 * (60 * (10 * (h / 10) + h mod 10) + (10 * (m / 10) + m mod 10))) with (3600 * h + 60 * m) by lia.
  assert (F : fixed_zone o None = Ok (Offset o (Some (utc_name o)))).
  { unfold fixed_zone. replace ((-86400 <? o) && (o <? 86400)) with true; [reflexivity|].
    symmetry. apply andb_true_iff. rewrite !Z.ltb_lt. unfold o. destruct neg; lia. }
  assert (En : utc_name o = n).
  { unfold n. rewrite <- utc_offset_name by (destruct neg; lia). f_equal. unfold o. destruct neg; lia. }
  rewrite En in F. destruct neg.
  - change (Ascii.eqb "-" "+") with false. change (Ascii.eqb "-" "-") with true. cbv iota.
    replace (- (3600 * h + 60 * m)) with o by (unfold o; lia). rewrite F. cbn [bind as_int].
    eexists. split; [reflexivity|]. apply from_is_at.
  - change (Ascii.eqb "+" "+") with true. cbv iota.
    replace (3600 * h + 60 * m) with o by (unfold o; lia). rewrite F. cbn [bind as_int].
    eexists. split; [reflexivity|]. apply from_is_at.
Qed.

(** A text that does not end in an offset is refused: what is read was there.  (Shorter forms, Z and
    +HHMM, are read when they are the whole text.) *)
Definition writes_offset (text : string) (neg : bool) (h m : Z) : Prop :=
  (exists prefix, text = (prefix ++ offset_text neg h m)%string)
  \/ text = ((if neg then "-" else "+") ++ two h ++ two m)%string
  \/ (text = "Z" /\ h = 0 /\ m = 0).

Lemma dig_of_val c n : Clock_Model.digit_val c = Some n -> 0 <= n < 10 /\ String c "" = dig n.
Proof.
  destruct c as [[] [] [] [] [] [] [] []]; intros H; vm_compute in H; try discriminate H; injection H as <-;
    (split; [lia|reflexivity]).
Qed.
Lemma two_digits c d a b : 0 <= a < 10 -> 0 <= b < 10 -> String c "" = dig a -> String d "" = dig b ->
  two (10 * a + b) = String c (String d "").
Proof.
  intros Ha Hb E F. unfold two. replace ((10 * a + b) / 10) with a by (apply (Z.div_unique _ _ _ b); lia).
  replace ((10 * a + b) mod 10) with b by (apply (Z.mod_unique _ _ a); lia).
  rewrite <- E, <- F. reflexivity.
Qed.
Lemma sdrop_split n s : exists p, s = (p ++ sdrop n s)%string.
Proof.
  revert s. induction n as [|n IH]; intros s; [exists ""; reflexivity|]. destruct s as [|c s]; [exists ""; reflexivity|].
  destruct (IH s) as (p & E). exists (String c p). cbn. rewrite <- E. reflexivity.
Qed.
Lemma sdrop_length n s : String.length (sdrop n s) = (String.length s - n)%nat.
Proof. revert s. induction n as [|n IH]; intros [|c s]; cbn; auto. Qed.

Lemma offset_parts_inv sg h1 h2 m1 m2 z : offset_parts sg h1 h2 m1 m2 = Ok z ->
  exists (neg : bool) h m, 0 <= h < 24 /\ 0 <= m < 60
    /\ z = Offset ((if neg then -1 else 1) * (3600 * h + 60 * m)) (Some (offset_name ((if neg then -1 else 1) * (60 * h + m))))
    /\ sg = (if neg then "-"%char else "+"%char) /\ two h = String h1 (String h2 "") /\ two m = String m1 (String m2 "").
Proof.
  unfold offset_parts. destruct (Clock_Model.digit_val h1) as [a|] eqn:A; [|discriminate].
  destruct (Clock_Model.digit_val h2) as [b|] eqn:B; [|discriminate]. destruct (Clock_Model.digit_val m1) as [c|] eqn:C; [|discriminate].
  destruct (Clock_Model.digit_val m2) as [d|] eqn:D; [|discriminate].
  destruct (dig_of_val _ _ A) as (A1 & A2). destruct (dig_of_val _ _ B) as (B1 & B2).
  destruct (dig_of_val _ _ C) as (C1 & C2). destruct (dig_of_val _ _ D) as (D1 & D2).
  destruct (Z.leb_spec c 5) as [L|L]; [|discriminate]. cbv zeta.
  assert (T1 : two (10 * a + b) = String h1 (String h2 "")) by (apply two_digits; auto; lia).
  assert (T2 : two (10 * c + d) = String m1 (String m2 "")) by (apply two_digits; auto; lia).
  set (h := 10 * a + b) in *. set (m := 10 * c + d) in *.
  assert (G : forall neg : bool, let o := (if neg then -1 else 1) * (60 * (60 * h + m)) in
    fixed_zone o None = Ok z -> 0 <= h < 24 /\ 0 <= m < 60
    /\ z = Offset ((if neg then -1 else 1) * (3600 * h + 60 * m)) (Some (offset_name ((if neg then -1 else 1) * (60 * h + m))))).
  { intros neg o H. unfold fixed_zone in H. destruct ((-86400 <? o) && (o <? 86400)) eqn:R; [|discriminate].
    apply andb_true_iff in R. rewrite !Z.ltb_lt in R.
    assert (Hh : 0 <= h < 24) by (unfold o in R; destruct neg; lia). assert (Hm : 0 <= m < 60) by lia.
    split; [exact Hh|]. split; [exact Hm|]. injection H as <-.
    replace o with (60 * ((if neg then -1 else 1) * (60 * h + m))) by (unfold o; lia).
    rewrite utc_offset_name by (destruct neg; lia). f_equal. lia. }
  destruct (Ascii.eqb sg "+") eqn:S1.
  { intros H. apply Ascii.eqb_eq in S1. destruct (G false) as (G1 & G2 & G3).
    { cbv zeta. rewrite Z.mul_1_l. exact H. }
    exists false, h, m. auto 10. }
  destruct (Ascii.eqb sg "-") eqn:S2; [|discriminate].
  intros H. apply Ascii.eqb_eq in S2. destruct (G true) as (G1 & G2 & G3).
  { cbv zeta. replace (-1 * (60 * (60 * h + m))) with (- (60 * (60 * h + m))) by lia. exact H. }
  exists true, h, m. auto 10.
Qed.

Theorem cam_clock_no_offset clock basic k text z dt :
  dget "zone_id" basic = Some (JStr k) -> known k = false -> dget "timezone" basic = Some (JStr text) ->
  cam_hook known off_at fold_at clock basic = Ok (z, dt) ->
  exists (neg : bool) h m, 0 <= h < 24 /\ 0 <= m < 60 /\ writes_offset text neg h m
    /\ z = Offset ((if neg then -1 else 1) * (3600 * h + 60 * m)) (Some (offset_name ((if neg then -1 else 1) * (60 * h + m)))).
Proof.
  intros Hk Hkn Ht H. unfold cam_hook, Clock_Model.text, dindex in H. rewrite Hk in H. cbn [bind] in H.
  destruct (dget "seconds_from_1970" clock) as [v|]; [|discriminate]. cbn [bind] in H. rewrite Hkn, Ht in H. cbn [bind] in H.
  destruct (parse_offset (last6 text)) as [z'|] eqn:P; [|discriminate]. cbn [bind] in H.
  destruct (as_int v); [|discriminate]. injection H as -> _.
  destruct (sdrop_split (String.length text - 6) text) as (p & E). fold (last6 text) in E.
  assert (W : (String.length (last6 text) < 6)%nat -> text = last6 text).
  { unfold last6. rewrite sdrop_length. intros L. replace (String.length text - 6)%nat with 0%nat by lia. reflexivity. }
  destruct (last6 text) as [|c1 [|c2 [|c3 [|c4 [|c5 [|c6 [|c7 l]]]]]]] eqn:L; cbn [parse_offset] in P; try discriminate P.
  - destruct (Ascii.eqb c1 "Z") eqn:Z1; [|discriminate]. apply Ascii.eqb_eq in Z1. subst c1. injection P as <-.
    exists false, 0, 0. split; [lia|]. split; [lia|]. split; [|reflexivity]. right. right. split; [|auto]. apply W. cbn. lia.
  - destruct (offset_parts_inv _ _ _ _ _ _ P) as (neg & h & m & H1 & H2 & H3 & -> & H5 & H6).
    exists neg, h, m. split; [exact H1|]. split; [exact H2|]. split; [|exact H3]. right. left. rewrite W by (cbn; lia).
    rewrite H5, H6. destruct neg; reflexivity.
  - destruct (Ascii.eqb c4 ":") eqn:Z1; [|discriminate]. apply Ascii.eqb_eq in Z1. subst c4.
    destruct (offset_parts_inv _ _ _ _ _ _ P) as (neg & h & m & H1 & H2 & H3 & -> & H5 & H6).
    exists neg, h, m. split; [exact H1|]. split; [exact H2|]. split; [|exact H3]. left. exists p. rewrite E. unfold offset_text.
    rewrite H5, H6. destruct neg; reflexivity.
Qed.

(** What a camera keeps from a command: fields of its clock status or of its basic settings *)
Definition sets_clock (fields : list (string * json)) : cmd :=
  mkCmd "setTimezone" [("system", JObj [("clock_status", JObj fields)])].
Definition sets_basic (fields : list (string * json)) : cmd :=
  mkCmd "setTimezone" [("system", JObj [("basic", JObj fields)])].

Section Camera.
Variable reply : cmd -> res json.
Variable host : Z -> Z.
Variable iso : Z -> string.

(** Given with a zone of the database: the clock, then the zone; both then read back. *)
Theorem cam_set_region z dt k s clock basic :
  consistent -> known k = true -> is_at (Region k) (1000000 * s) dt ->
  exists c, let first := sets_clock c in let second := sets_basic [("zone_id", JStr k)] in
  (forall v, reply first = Ok v -> forall log,
     cam_set_time off_wall reply host iso z dt log = (log ++ [first; second], reply second))
  /\ (forall e, reply first = Err e -> forall log,
     cam_set_time off_wall reply host iso z dt log = (log ++ [first], Err e))
  /\ (forall clock' basic', kept clock c clock' -> kept basic [("zone_id", JStr k)] basic' ->
     cam_hook known off_at fold_at clock' basic' = Ok (Region k, dt)).
Proof.
  intros C Hkn (Hz & Hs). destruct (utcoffset_shows _ _ _ C Hs) as (_ & E).
  eexists. cbv zeta. repeat split.
  - intros v Hv log. unfold cam_set_time. rewrite Hz, E. unfold mbind, send.
    unfold sets_clock in Hv. rewrite Hv. rewrite <- app_assoc. reflexivity.
  - intros e He log. unfold cam_set_time. rewrite Hz, E. unfold mbind, send.
    unfold sets_clock in He. rewrite He. reflexivity.
  - intros clock' basic' Hc Hb.
    destruct (cam_clock_known clock' basic' k s) as (dt' & E' & Hat); [| |exact Hkn|].
    + unfold cam_instant. rewrite (Hc _). cbn [dget]. change (String.eqb "seconds_from_1970" "seconds_from_1970") with true.
      cbv iota. unfold million. rewrite whole_second. reflexivity.
    + rewrite (Hb _). reflexivity.
    + rewrite E'. do 2 f_equal. eapply is_at_unique; [exact Hat|split; assumption].
Qed.

(** Without such a zone only the clock is set, to the right instant, and the camera's zone stays. *)
Theorem cam_set_other z dt t clock :
  consistent -> (forall k, tzinfo dt <> Some (Region k)) ->
  shows (match tzinfo dt with None => z | Some y => y end) t (wall dt) (fold dt) ->
  exists c, does reply (cam_set_time off_wall reply host iso z dt) (sets_clock c)
  /\ forall clock', kept clock c clock' -> cam_instant clock' (Z.quot t 1000000).
Proof.
  intros C Hn Hs. destruct (utcoffset_shows _ _ _ C Hs) as (_ & E).
  exists [("seconds_from_1970", JInt (Z.quot t 1000000)); ("local_time", JStr (iso (t + 1000000 * host t)))]. split.
  - intros log. unfold cam_set_time. rewrite E. unfold mbind, send, sets_clock, million.
    destruct (reply (mkCmd "setTimezone" _)) as [v|e];
      (destruct (tzinfo dt) as [[k|o n]|]; [destruct (Hn k eq_refl)| |]; reflexivity).
  - intros clock' Hc. unfold cam_instant. rewrite (Hc _). reflexivity.
Qed.

(** The local time sent is not the camera's: it is that of the computer, so it is right only where
    both have the same offset. *)
Theorem cam_local_time_refuted z dt t :
  consistent -> (forall a b, iso a = iso b -> a = b) ->
  let tz := match tzinfo dt with None => z | Some y => y end in
  shows tz t (wall dt) (fold dt) ->
  forall log, exists c rest r, cam_set_time off_wall reply host iso z dt log = (log ++ sets_clock c :: rest, r)
    /\ (dget "local_time" c = Some (JStr (iso (wall dt))) <-> host t = offset_of tz t).
Proof.
  intros C Inj tz Hs log. destruct (utcoffset_shows _ _ _ C Hs) as (_ & E).
  assert (L : iso (t + million * host t) = iso (wall dt) <-> host t = offset_of tz t).
  { destruct Hs as (Hw & _). split.
    - intros H. apply Inj in H. rewrite Hw in H. unfold million in H. lia.
    - intros H. rewrite Hw, H. reflexivity. }
  unfold cam_set_time. fold tz. rewrite E. unfold mbind, send.
  set (c := [("seconds_from_1970", _); _]).
  assert (G : dget "local_time" c = Some (JStr (iso (wall dt))) <-> host t = offset_of tz t).
  { rewrite <- L. cbn. split; [intros [= H]; exact H|intros ->; reflexivity]. }
  exists c. fold (sets_clock c).
  destruct (reply (sets_clock c)) as [v|e].
  - destruct (tzinfo dt) as [[k|o n]|].
    + do 2 eexists. split; [rewrite <- app_assoc; reflexivity|exact G].
    + exists [], (Ok v). split; [reflexivity|exact G].
    + exists [], (Ok v). split; [reflexivity|exact G].
  - exists [], (Err e). split; [reflexivity|exact G].
Qed.
End Camera.

(** The time of a device is its own clock's, else its parent's. *)
Theorem device_clock own parents now :
  (forall t, own = Some t -> device_time own parents now = t)
  /\ (own = None -> forall t, parents = Some t -> device_time own parents now = t)
  /\ (own = None -> parents = None -> exists dt, device_time own parents now = Ok dt
       /\ tzinfo dt = tzinfo now /\ wall dt <= wall now < wall dt + 1000000 /\ (1000000 | wall dt)).
Proof.
  split; [intros t ->; reflexivity|]. split; [intros -> t ->; reflexivity|]. intros -> ->.
  eexists. split; [reflexivity|]. cbn. split; [reflexivity|].
  pose proof (Z.mod_pos_bound (wall now) million ltac:(reflexivity)). unfold million in *. split; [lia|].
  exists (wall now / 1000000). pose proof (Z.div_mod (wall now) 1000000). lia.
Qed.
End Database.

Print Assumptions smart_clock.
Print Assumptions smart_clock_zone.
Print Assumptions clock_set_instant.
Print Assumptions clock_set_region.
Print Assumptions clock_set_offset.
Print Assumptions clock_set_naive.
Print Assumptions clock_set_name_refuted.
Print Assumptions clock_set_unnamed_refuted.
Print Assumptions cam_clock_known.
Print Assumptions cam_clock_unknown.
Print Assumptions cam_clock_no_offset.
Print Assumptions cam_set_region.
Print Assumptions cam_set_other.
Print Assumptions cam_local_time_refuted.
Print Assumptions device_clock.

(** A database: Amsterdam and CET, an hour ahead, two from the second year on (which stands for
    summer) *)
Definition ex_known (k : string) : bool := smem k ["Europe/Amsterdam"; "CET"; "UTC"].
Definition ex_off (k : string) (t : Z) : Z :=
  if String.eqb k "UTC" then 0 else if t <? 31536000000000 then 3600 else 7200.
Definition ex_fold (k : string) (t : Z) : bool := false.
Definition ex_wall (k : string) (w : Z) (f : bool) : Z :=
  if String.eqb k "UTC" then 0 else if w - 3600000000 <? 31536000000000 then 3600 else 7200.

Example clock_consistent : consistent ex_off ex_fold ex_wall.
Proof.
  intros k t. unfold ex_wall, ex_off. destruct (String.eqb k "UTC"); [reflexivity|].
  destruct (Z.ltb_spec t 31536000000000).
  - replace (t + 1000000 * 3600 - 3600000000 <? 31536000000000) with true; [reflexivity|].
    symmetry. apply Z.ltb_lt. lia.
  - replace (t + 1000000 * 7200 - 3600000000 <? 31536000000000) with false; [reflexivity|].
    symmetry. apply Z.ltb_ge. lia.
Qed.

Example clock_ex :
  is_at ex_off ex_fold (Region "Europe/Amsterdam") (1000000 * 1700000000)
    (mkMoment (1000000 * 1700007200) false (Some (Region "Europe/Amsterdam")))
  /\ is_at ex_off ex_fold (Offset 3600 (Some "CET")) (1000000 * 1700000000)
    (mkMoment (1000000 * 1700003600) false (Some (Offset 3600 (Some "CET"))))
  /\ is_at ex_off ex_fold (Offset 19800 (Some "UTC+05:30")) (1000000 * 1700000000)
    (mkMoment (1000000 * 1700019800) false (Some (Offset 19800 (Some "UTC+05:30"))))
  /\ ex_known "UTC+05:30" = false /\ utc_name 19800 = "UTC+05:30" /\ ex_known "CET" = true
  /\ ex_off "CET" (1000000 * 1700000000) <> 3600.
Proof. repeat split; discriminate. Qed.

Example offset_ex : offset_text true 8 30 = "-08:30"
  /\ cam_hook ex_known ex_off ex_fold [("seconds_from_1970", JInt 1700000000)]
       [("zone_id", JStr "Mars/Base"); ("timezone", JStr "UTC-08:30")]
     = Ok (Offset (-30600) (Some "UTC-08:30"), mkMoment (1000000 * 1699969400) false (Some (Offset (-30600) (Some "UTC-08:30")))).
Proof. split; reflexivity. Qed.

(** Texts that tell wall clocks apart exist. *)
Example iso_ex : forall a b, decimal a = decimal b -> a = b.
Proof.
  intros a b H. unfold decimal in H.
  assert (E : DecimalString.NilZero.int_of_string (DecimalString.NilZero.string_of_int (Z.to_int a))
            = DecimalString.NilZero.int_of_string (DecimalString.NilZero.string_of_int (Z.to_int b))) by (rewrite H; reflexivity).
  assert (N : forall z, Z.to_int z <> Decimal.Pos Decimal.Nil /\ Z.to_int z <> Decimal.Neg Decimal.Nil).
  { intros [|p|p]; cbn; (split; [try discriminate|try discriminate]);
      intros X; injection X as X; exact (DecimalPos.Unsigned.to_uint_nonnil p X). }
  rewrite !DecimalString.NilZero.isi in E by apply N.
  assert (E' : Z.to_int a = Z.to_int b) by congruence.
  apply (f_equal Z.of_int) in E'. rewrite !DecimalZ.of_to in E'. exact E'.
Qed.

(** Legacy time zones and setting the clock (C44). *)
From Coq Require Import Lia.
From Verif Require Import Base Base_Lemmas Py Gadget_Model Gadget_Props TimeZone_Model.
Open Scope string_scope.
Open Scope list_scope.
Open Scope Z_scope.

(** The two zones have the same offset at noon of each of the first 365 days of the year. *)
Definition agree (offset : tz -> nat -> option Z) (a b : tz) : Prop := forall day, (day < 365)%nat -> offset a day = offset b day.
(** Zone number [i] of the device is called [n]. *)
Definition zone_name (i : Z) (n : string) : Prop := 0 <= i <= 109 /\ get_timezone i = Ok (Zone n).

Lemma zones_nodup : NoDup zones.
Proof.
  assert (H : (fix nd (l : list string) : bool := match l with [] => true | x :: l' => negb (smem x l') && nd l' end) zones = true) by (vm_compute; reflexivity).
  revert H. generalize zones as l. induction l as [|x l IH]; intro H; constructor; apply andb_true_iff in H as [A B].
  - intro C. apply smem_in in C. rewrite C in A. discriminate.
  - apply IH. exact B.
Qed.
Lemma zones_length : List.length zones = 110%nat.
Proof. reflexivity. Qed.
Lemma get_zone : forall i, 0 <= i <= 109 -> exists n, nth_error zones (Z.to_nat i) = Some n /\ get_timezone i = Ok (Zone n).
Proof.
  intros i H. unfold get_timezone, zone_at.
  destruct (109 <? i) eqn:E; [apply Z.ltb_lt in E; lia|]. destruct (i <? 0) eqn:E'; [apply Z.ltb_lt in E'; lia|].
  destruct (nth_error zones (Z.to_nat i)) as [n|] eqn:N; [exists n; split; reflexivity|].
  apply nth_error_None in N. rewrite zones_length in N. lia.
Qed.
Lemma zone_name_nth : forall i n, zone_name i n <-> 0 <= i <= 109 /\ nth_error zones (Z.to_nat i) = Some n.
Proof.
  intros i n. split; intros [H E]; (split; [exact H|]); destruct (get_zone i H) as (m & N & G); rewrite G in *; congruence.
Qed.
Theorem zone_table :
  (forall i, 0 <= i <= 109 -> exists n, n <> "" /\ zone_name i n) /\
  (forall i j n, zone_name i n -> zone_name j n -> i = j).
Proof.
  split.
  - intros i H. destruct (get_zone i H) as (n & N & G). exists n. split; [|split; assumption].
    intro C. subst n. apply nth_error_In in N. apply smem_in in N. vm_compute in N. discriminate.
  - intros i j n A B. apply zone_name_nth in A as [Hi A]. apply zone_name_nth in B as [Hj B].
    pose proof (proj1 (NoDup_nth_error zones) zones_nodup (Z.to_nat i) (Z.to_nat j)) as D.
    assert (Z.to_nat i = Z.to_nat j); [|lia]. apply D; [|congruence]. rewrite zones_length. lia.
Qed.
Print Assumptions zone_table.
Example zone_ex : zone_name 39 "GB" /\ zone_name 38 "UCT".
Proof. split; (split; [lia|vm_compute; reflexivity]). Qed.
Theorem zone_outside : forall i,
  (109 < i -> get_timezone i = Ok (Zone "Etc/UTC")) /\ (i < 0 -> get_timezone i = Err PyKeyError).
Proof.
  intro i. unfold get_timezone, zone_at. split; intro H.
  - apply Z.ltb_lt in H. rewrite H. reflexivity.
  - destruct (109 <? i) eqn:E; [apply Z.ltb_lt in E; lia|]. apply Z.ltb_lt in H. rewrite H. reflexivity.
Qed.
Print Assumptions zone_outside.

Lemma rev_index_spec : forall name l i, match rev_index name i l with
  | Some j => i <= j /\ nth_error l (Z.to_nat (j - i)) = Some name
  | None => ~ In name l
  end.
Proof.
  intros name l. induction l as [|x l IH]; intro i; cbn [rev_index]; [tauto|]. specialize (IH (i + 1)).
  destruct (rev_index name (i + 1) l) as [j|].
  - destruct IH as [A B]. split; [lia|]. replace (Z.to_nat (j - i)) with (S (Z.to_nat (j - (i + 1)))) by lia. exact B.
  - destruct (String.eqb name x) eqn:E.
    + apply String.eqb_eq in E. subst x. split; [lia|]. rewrite Z.sub_diag. reflexivity.
    + intros [C|C]; [subst x; rewrite String.eqb_refl in E; discriminate|contradiction].
Qed.
Lemma same_spec : forall offset a b, is_same_timezone offset a b = true <-> agree offset a b.
Proof.
  intros offset a b. unfold is_same_timezone, agree. rewrite forallb_forall. split; intros H d Hd.
  - specialize (H d). rewrite in_seq in H. specialize (H ltac:(lia)). unfold same_offset in H.
    destruct (offset a d), (offset b d); try discriminate; try reflexivity. apply Z.eqb_eq in H. congruence.
  - apply in_seq in Hd. rewrite (H d ltac:(lia)). unfold same_offset. destruct (offset b d); [apply Z.eqb_refl|reflexivity].
Qed.
Lemma in_zones : forall n, In n zones <-> exists i, zone_name i n.
Proof.
  intro n. split.
  - intro H. apply In_nth_error in H as [k H]. exists (Z.of_nat k). apply zone_name_nth. rewrite Nat2Z.id. split; [|exact H].
    assert (nth_error zones k <> None) as L by congruence. apply nth_error_Some in L. rewrite zones_length in L. lia.
  - intros [i H]. apply zone_name_nth in H as [_ H]. exact (nth_error_In _ _ H).
Qed.
Lemma scan_spec : forall offset t n i, 0 <= i -> i + Z.of_nat n <= 110 ->
  (exists j m, i <= j < i + Z.of_nat n /\ zone_name j m /\ agree offset t (Zone m) /\
     (forall j' m', i <= j' < j -> zone_name j' m' -> ~ agree offset t (Zone m')) /\ scan offset t i n = Ok (Some j)) \/
  ((forall j m, i <= j < i + Z.of_nat n -> zone_name j m -> ~ agree offset t (Zone m)) /\ scan offset t i n = Ok None).
Proof.
  intros offset t n. induction n as [|n IH]; intros i Hi Hn.
  - right. split; [intros; lia|reflexivity].
  - destruct (get_zone i) as (m & N & G); [lia|]. cbn [scan]. rewrite G. cbn [bind].
    destruct (is_same_timezone offset t (Zone m)) eqn:S.
    + left. exists i, m. apply same_spec in S. split; [lia|]. split; [split; [lia|exact G]|]. split; [exact S|]. split; [intros; lia|reflexivity].
    + assert (NA : forall m', zone_name i m' -> ~ agree offset t (Zone m')).
      { intros m' [_ Z'] A. rewrite G in Z'. injection Z' as <-. apply same_spec in A. congruence. }
      destruct (IH (i + 1)) as [(j & m' & Hj & Zj & A & L & E)|[L E]]; [lia|lia| |]; [left|right]; rewrite E.
      * exists j, m'. split; [lia|]. split; [exact Zj|]. split; [exact A|]. split; [|reflexivity].
        intros j' m'' Hj' Z'. destruct (Z.eq_dec j' i) as [->|D]; [exact (NA m'' Z')|]. apply (L j' m''); [lia|exact Z'].
      * split; [|reflexivity]. intros j m'' Hj Zj. destruct (Z.eq_dec j i) as [->|D]; [exact (NA m'' Zj)|]. apply (L j m''); [lia|exact Zj].
Qed.
(** A zone of the table has its own number.  Any other zone gets the first number whose zone
    agrees with it, and an error when there is none. *)
Theorem zone_index : forall offset t,
  (forall i n, zone_name i n -> t = Zone n -> get_timezone_index offset t = Ok i) /\
  ((forall i n, zone_name i n -> t <> Zone n) ->
   (forall i n, zone_name i n -> agree offset t (Zone n) -> (forall j m, j < i -> zone_name j m -> ~ agree offset t (Zone m)) ->
      get_timezone_index offset t = Ok i) /\
   ((forall i n, zone_name i n -> ~ agree offset t (Zone n)) ->
      get_timezone_index offset t = Err (match t with Zone _ => PyValueError | Fixed _ => PyUnboundLocal end))).
Proof.
  intros offset t. split.
  - intros i n H ->. unfold get_timezone_index. pose proof (rev_index_spec n zones 0) as R.
    destruct (rev_index n 0 zones) as [j|].
    + f_equal. destruct R as [Hj R]. rewrite Z.sub_0_r in R. apply (proj2 zone_table j i n); [|exact H].
      apply zone_name_nth. split; [|exact R]. assert (L : nth_error zones (Z.to_nat j) <> None) by congruence.
      apply nth_error_Some in L. rewrite zones_length in L. lia.
    + exfalso. apply R. apply in_zones. exists i. exact H.
  - intro Ht.
    assert (R : match t with Zone n => rev_index n 0 zones | Fixed _ => None end = None).
    { destruct t as [n|]; [|reflexivity]. pose proof (rev_index_spec n zones 0) as R. destruct (rev_index n 0 zones) as [j|]; [|reflexivity].
      exfalso. destruct R as [_ R]. apply nth_error_In, in_zones in R as [i R]. exact (Ht i n R eq_refl). }
    unfold get_timezone_index. rewrite R. destruct (scan_spec offset t 110 0) as [(j & m & Hj & Zj & A & L & E)|[L E]]; [lia|lia| |]; rewrite E; cbn [bind].
    + split.
      * intros i n Zi Ai Li. f_equal. destruct (Z.lt_trichotomy i j) as [C|[C|C]]; [|congruence|].
        -- exfalso. exact (L i n ltac:(destruct Zi; lia) Zi Ai).
        -- exfalso. exact (Li j m C Zj A).
      * intro No. exfalso. exact (No j m Zj A).
    + split.
      * intros i n Zi Ai _. exfalso. exact (L i n ltac:(destruct Zi; lia) Zi Ai).
      * reflexivity.
Qed.
Print Assumptions zone_index.
(** Offsets of a world where Fixed 1 and Africa/Lagos, zone 45, are one hour ahead all year. *)
Example zone_index_ex : let offset := fun t (_ : nat) => match t with Fixed 1 => Some 3600 | Zone "Africa/Lagos" => Some 3600 | Zone _ => Some 0 | _ => Some 7 end in
  get_timezone_index offset (Zone "GB") = Ok 39 /\
  get_timezone_index offset (Fixed 1) = Ok 45 /\
  get_timezone_index offset (Fixed 2) = Err PyUnboundLocal /\ get_timezone_index offset (Zone "Mars/Base") = Ok 0.
Proof. repeat split; vm_compute; reflexivity. Qed.

(** The names a user is offered for a zone: its own if the device knows it, and those of all
    zones that agree with it, each once. *)
Theorem matching_zones : forall offset t, exists l, get_matching_timezones offset t = Ok l /\ NoDup l /\
  forall n, In n l <-> exists i, zone_name i n /\ (t = Zone n \/ agree offset t (Zone n)).
Proof.
  intros offset t. unfold get_matching_timezones.
  set (own := match t with Zone n => if smem n zones then [n] else [] | Fixed _ => [] end).
  assert (O : NoDup own /\ forall n, In n own <-> exists i, zone_name i n /\ t = Zone n).
  { subst own. destruct t as [m|m].
    - destruct (smem m zones) eqn:S.
      + split; [repeat constructor; intros []|]. apply smem_in, in_zones in S as [i Z']. intro n. split.
        * intros [->|[]]. exists i. split; [exact Z'|reflexivity].
        * intros (j & _ & E). injection E as ->. left. reflexivity.
      + split; [constructor|]. apply smem_no in S. intro n. split; [intros []|]. intros (j & Zj & E). injection E as ->.
        apply S. apply in_zones. exists j. exact Zj.
    - split; [constructor|]. intro n. split; [intros []|]. intros (j & _ & E). discriminate. }
  assert (G : forall k i l, 0 <= i -> i + Z.of_nat k = 110 -> NoDup l -> exists l', match_scan offset t i k l = Ok l' /\ NoDup l' /\
     forall n, In n l' <-> In n l \/ exists j, i <= j /\ zone_name j n /\ agree offset t (Zone n)).
  { induction k as [|k IH]; intros i l Hi Hk Nl.
    - exists l. split; [reflexivity|]. split; [exact Nl|]. intro n. split; [tauto|]. intros [H|(j & Hj & [R _] & _)]; [exact H|lia].
    - destruct (get_zone i) as (m & N & Gz); [lia|]. cbn [match_scan]. rewrite Gz. cbn [bind].
      set (l1 := if is_same_timezone offset t (Zone m) then if smem m l then l else l ++ [m] else l).
      assert (L1 : NoDup l1 /\ forall n, In n l1 <-> In n l \/ (n = m /\ agree offset t (Zone m))).
      { subst l1. destruct (is_same_timezone offset t (Zone m)) eqn:S.
        - apply same_spec in S. destruct (smem m l) eqn:B.
          + apply smem_in in B. split; [exact Nl|]. intro n. split; [tauto|]. intros [H|[-> _]]; assumption.
          + apply smem_no in B. split.
            * apply NoDup_rev in Nl. apply NoDup_rev with (l := m :: rev l) in Nl || idtac.
              rewrite <- (rev_involutive (l ++ [m])). apply NoDup_rev. rewrite rev_app_distr. cbn. constructor; [|exact Nl].
              rewrite <- in_rev. exact B.
            * intro n. rewrite in_app_iff. cbn. split; [intros [H|[H|[]]]; [tauto|right; split; [congruence|exact S]]|].
              intros [H|[-> _]]; tauto.
        - split; [exact Nl|]. intro n. split; [tauto|]. intros [H|[-> A]]; [exact H|]. apply same_spec in A. congruence. }
      destruct L1 as [N1 I1]. destruct (IH (i + 1) l1) as (l' & E & N' & I'); [lia|lia|exact N1|].
      exists l'. split; [exact E|]. split; [exact N'|]. intro n. rewrite I', I1. split.
      + intros [[H|[-> A]]|(j & Hj & Zj & A)]; [tauto| |].
        * right. exists i. split; [lia|]. split; [split; [lia|exact Gz]|exact A].
        * right. exists j. split; [lia|]. split; assumption.
      + intros [H|(j & Hj & Zj & A)]; [tauto|]. destruct (Z.eq_dec j i) as [->|D].
        * left. right. destruct Zj as [_ Zj]. rewrite Gz in Zj. injection Zj as ->. split; [reflexivity|exact A].
        * right. exists j. split; [lia|]. split; assumption. }
  destruct O as [On Oi]. destruct (G 110%nat 0 own) as (l & E & Nl & Il); [lia|reflexivity|exact On|].
  exists l. split; [exact E|]. split; [exact Nl|]. intro n. rewrite Il, Oi. split.
  - intros [(i & Zi & H)|(j & _ & Zj & A)]; [exists i|exists j]; split; try assumption; [left|right]; assumption.
  - intros (i & Zi & [H|A]); [left|right]; exists i; [tauto|]. destruct Zi as [R Gi]. split; [lia|]. split; [split; [lia|exact Gi]|exact A].
Qed.
Print Assumptions matching_zones.

(** ** Setting the clock *)
(** The call sends one command, and a failure of it is a library error. *)
Definition sends_one (reply : cmd -> res json) (m : M (list cmd) json) (method : string) (fields : dict json) : Prop :=
  exists d, (forall k, dget k d = dget k fields) /\
    forall log, m log = (log ++ [mkCmd method d],
      match reply (mkCmd method d) with Ok v => Ok v | Err Cancelled => Err Cancelled | Err _ => Err KKasa end).
Definition clock (dt : datetime) : dict json :=
  [("year", JInt (d_year dt)); ("month", JInt (d_month dt)); ("mday", JInt (d_day dt)); ("hour", JInt (d_hour dt)); ("min", JInt (d_min dt)); ("sec", JInt (d_sec dt))].
Lemma wrapped_send : forall reply c log, wrapped (send reply c) log =
  (log ++ [c], match reply c with Ok v => Ok v | Err Cancelled => Err Cancelled | Err _ => Err KKasa end).
Proof. intros. unfold wrapped, send. destruct (reply c) as [v|[]]; reflexivity. Qed.
(** The device is told the number of a zone it knows under its name, whenever it reported
    another one; a device that already has that zone, or reported none, is told the time only. *)
Theorem clock_setting : forall offset reply current dt,
  (d_zone dt = None -> sends_one reply (set_time offset reply current dt) "set_time" (clock dt)) /\
  (forall i n, d_zone dt = Some (Zone n) -> zone_name i n ->
    (current <> -1 -> current <> i -> sends_one reply (set_time offset reply current dt) "set_timezone" (("index", JInt i) :: clock dt)) /\
    (current = -1 \/ current = i -> sends_one reply (set_time offset reply current dt) "set_time" (clock dt))) /\
  (forall t e, d_zone dt = Some t -> get_timezone_index offset t = Err e -> forall log, set_time offset reply current dt log = (log, Err e)).
Proof.
  intros offset reply current dt. unfold set_time. split; [|split].
  - intros ->. eexists. split; [|intro log; rewrite wrapped_send; reflexivity]. reflexivity.
  - intros i n -> Zi. unfold mbind, mlift. rewrite (proj1 (zone_index offset (Zone n)) i n Zi eq_refl). split.
    + intros A B. apply Z.eqb_neq in A. apply Z.eqb_neq in B. rewrite A, B. cbn [negb andb].
      eexists. split; [|intro log; rewrite wrapped_send; reflexivity]. intro k. rewrite dget_dset. reflexivity.
    + intro C. eexists. split; [|intro log].
      2:{ destruct (negb (current =? -1) && negb (current =? i)) eqn:E; [|rewrite wrapped_send; reflexivity].
          apply andb_true_iff in E as [E1 E2]. apply negb_true_iff in E1, E2. apply Z.eqb_neq in E1, E2. lia. }
      reflexivity.
  - intros t e -> E log. unfold mbind, mlift. rewrite E. reflexivity.
Qed.
Print Assumptions clock_setting.
Example clock_ex : let offset := fun (_ : tz) (_ : nat) => @None Z in let reply := fun _ => Ok JNull in
  snd (set_time offset reply 5 (mkTime 2024 2 29 1 2 3 (Some (Zone "GB"))) []) = Ok JNull /\
  map k_method (fst (set_time offset reply 5 (mkTime 2024 2 29 1 2 3 (Some (Zone "GB"))) [])) = ["set_timezone"].
Proof. split; vm_compute; reflexivity. Qed.
(** What the device then reports is read back as the time that was set. *)
Theorem clock_round_trip : forall offset reply current i n dt r,
  d_zone dt = Some (Zone n) -> zone_name i n -> current <> -1 ->
  (* the device keeps the fields and the zone number of the last command *)
  (forall k, In k ["year"; "month"; "mday"; "hour"; "min"; "sec"] ->
     exists c, fst (set_time offset reply current dt []) = [c] /\ dget k (k_params c) = option_map JInt (dget k r)) ->
  forall zone, (exists c, fst (set_time offset reply current dt []) = [c] /\
      time_hook (Some (Some (match dget "index" (k_params c) with Some (JInt j) => j | _ => current end))) zone = (Zone n, Ok tt)) /\
    time_of (Zone n) r = Ok dt.
Proof.
  intros offset reply current i n dt r Hz Zi Hc Hr zone.
  assert (S : exists d, (forall k, k <> "index" -> dget k d = dget k (clock dt)) /\
     (match dget "index" d with Some (JInt j) => j | _ => current end) = i /\
     exists m, fst (set_time offset reply current dt []) = [mkCmd m d]).
  { destruct (proj1 (proj2 (clock_setting offset reply current dt)) i n Hz Zi) as [A B]. destruct (Z.eq_dec current i) as [E|E].
    - destruct (B (or_intror E)) as (d & D & L). exists d. split; [intros k _; apply D|]. split; [rewrite D; exact E|]. eexists. rewrite L. reflexivity.
    - destruct (A Hc E) as (d & D & L). exists d. split; [|split; [rewrite D; reflexivity|eexists; rewrite L; reflexivity]].
      intros k Hk. rewrite D. cbn [dget]. destruct (String.eqb k "index") eqn:Q; [apply String.eqb_eq in Q; contradiction|reflexivity]. }
  destruct S as (d & D & I & m & F). split.
  - exists (mkCmd m d). split; [exact F|]. cbn [k_params]. rewrite I. unfold time_hook. destruct Zi as [_ G]. rewrite G. reflexivity.
  - assert (R : forall k z, In k ["year"; "month"; "mday"; "hour"; "min"; "sec"] -> dget k (clock dt) = Some (JInt z) -> dindex k r = Ok z).
    { intros k z Hk Ck. destruct (Hr k Hk) as (c & Fc & Dk). rewrite F in Fc. injection Fc as <-. cbn [k_params] in Dk.
      rewrite D in Dk by (intros ->; cbn in Hk; decompose [or] Hk; try discriminate; contradiction). rewrite Ck in Dk. unfold dindex.
      destruct (dget k r); cbn in Dk; congruence. }
    unfold time_of. rewrite (R "year" (d_year dt)), (R "month" (d_month dt)), (R "mday" (d_day dt)), (R "hour" (d_hour dt)), (R "min" (d_min dt)), (R "sec" (d_sec dt)) by (try reflexivity; cbn; tauto).
    cbn [bind]. destruct dt; cbn in *. congruence.
Qed.
Print Assumptions clock_round_trip.
(** A device that has not reported its zone number is never told a zone, so a named zone is not
    set on it. *)
Theorem zone_setting_refuted : exists i n dt, zone_name i n /\ d_zone dt = Some (Zone n) /\ forall offset reply,
  exists c, fst (set_time offset reply (-1) dt []) = [c] /\ k_method c = "set_time" /\ dget "index" (k_params c) = None.
Proof.
  exists 39, "GB", (mkTime 2024 1 1 0 0 0 (Some (Zone "GB"))).
  assert (Zi : zone_name 39 "GB") by (split; [lia|vm_compute; reflexivity]).
  split; [exact Zi|]. split; [reflexivity|]. intros offset reply.
  destruct (proj2 (proj1 (proj2 (clock_setting offset reply (-1) (mkTime 2024 1 1 0 0 0 (Some (Zone "GB"))))) 39 "GB" eq_refl Zi) (or_introl eq_refl)) as (d & D & L).
  eexists. rewrite L. split; [reflexivity|]. split; [reflexivity|]. cbn [k_params]. rewrite D. reflexivity.
Qed.
Print Assumptions zone_setting_refuted.
(** Zones that differ on the last day of a leap year only are taken for the same. *)
Theorem leap_day_refuted : exists offset i n, zone_name i n /\ get_timezone_index offset (Fixed 1) = Ok i /\
  offset (Fixed 1) 365%nat <> offset (Zone n) 365%nat.
Proof.
  exists (fun t d => match t with Fixed _ => if (d =? 365)%nat then Some 0 else Some 60 | Zone _ => Some 60 end), 0, (nth 0 zones "").
  split; [split; [lia|vm_compute; reflexivity]|]. split; [vm_compute; reflexivity|]. cbn. discriminate.
Qed.
Print Assumptions leap_day_refuted.

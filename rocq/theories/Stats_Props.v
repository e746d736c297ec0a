(** C130-C132: periodic statistics. *)
From Coq Require Import QArith Lia.
From Verif Require Import Base Base_Lemmas Py Emeter_Model Emeter_Spec Emeter_Props Cli_Model Stats_Model Stats_Spec.
Open Scope string_scope.
Open Scope list_scope.
Open Scope Z_scope.

Lemma opt_eq_refl o : opt_eq o o.
Proof. destruct o; cbn; [reflexivity|exact I]. Qed.
Lemma opt_eq_sym a b : opt_eq a b -> opt_eq b a.
Proof. destruct a, b; cbn; auto. intros H. now symmetry. Qed.
Lemma opt_eq_trans a b c : opt_eq a b -> opt_eq b c -> opt_eq a c.
Proof. destruct a, b, c; cbn; try tauto. intros H1 H2. now rewrite H1. Qed.
Lemma qget_compat k k' m : (k == k')%Q -> qget k m = qget k' m.
Proof.
  intros E. induction m as [|[k0 v] m IH]; [reflexivity|]. cbn. rewrite IH.
  replace (Qeq_bool k k0) with (Qeq_bool k' k0); [reflexivity|].
  apply Bool.eq_iff_eq_true. rewrite !Qeq_bool_iff. now rewrite E.
Qed.
Lemma complete_any key kwh data : complete key (energy_of true) data -> complete key (energy_of kwh) data.
Proof.
  intros C e I. destruct (C e I) as [A B]. split; [exact A|]. unfold energy_of in *.
  destruct (dget "energy_wh" e), (dget "energy" e); try discriminate. contradiction.
Qed.

(** Converted, a list that tells of a period gives each amount in the unit asked for, and nothing else. *)
Lemma converted key of data kwh : tells key of data ->
  exists r, convert_stat_data data key kwh None = Ok r
    /\ (forall k, opt_eq (qget (inject_Z k) r) (in_unit kwh (of k)))
    /\ (forall x, qget x r <> None -> exists k, (x == inject_Z k)%Q).
Proof.
  intros (U & C & Z & T). destruct (statistics_partial data key kwh U (complete_any key kwh data C)) as (r & E & G & _).
  exists r. split; [exact E|]. split.
  - intros k. eapply opt_eq_trans; [apply G|]. apply T.
  - intros x N. specialize (G x). destruct (qget x r); [|contradiction]. clear N.
    destruct (last_for key x data) as [e|] eqn:L; [|contradiction]. unfold last_for in L. apply find_some in L. destruct L as [I M].
    destruct (dget key e) as [y|] eqn:D; [|discriminate]. apply Qeq_bool_iff in M.
    apply in_rev in I. destruct (Z e y I D) as [z W]. exists z. rewrite <- M. exact W.
Qed.

(** ** C130 *)
(** The statistics of a month are asked for once, of that month, and are what the meter has recorded of
    it, in the unit asked for.  Where the month is left out, the clock must not change in between. *)
Theorem daily_statistics_partial : forall h ask now1 now2 year month kwh y m,
  answers h ask -> y = or_now year (d_year now1) -> m = or_now month (d_month now1) -> (month = None -> d_month now2 = d_month now1) ->
  exists r, get_daily_stats ask now1 now2 year month kwh = (DayStat y m, Ok r)
    /\ (forall d, opt_eq (qget (inject_Z d) r) (in_unit kwh (of_day h y m d)))
    /\ (forall x, qget x r <> None -> exists d, (x == inject_Z d)%Q).
Proof.
  intros h ask now1 now2 year month kwh y m (A & _) -> -> S. unfold get_daily_stats, raw_daystat.
  replace (or_now month (d_month now2)) with (or_now month (d_month now1)) by (destruct month; [reflexivity|cbn; now rewrite S]).
  destruct (A (or_now year (d_year now1)) (or_now month (d_month now1))) as (l & E & T). rewrite E. cbn [bind].
  destruct (converted _ _ _ kwh T) as (r & C & G & K). exists r. rewrite C. auto.
Qed.
Print Assumptions daily_statistics_partial.
Theorem monthly_statistics : forall h ask now year kwh y,
  answers h ask -> y = or_now year (d_year now) ->
  exists r, get_monthly_stats ask now year kwh = (MonthStat y, Ok r)
    /\ (forall m, opt_eq (qget (inject_Z m) r) (in_unit kwh (of_month h y m)))
    /\ (forall x, qget x r <> None -> exists m, (x == inject_Z m)%Q).
Proof.
  intros h ask now year kwh y (_ & A & _) ->. unfold get_monthly_stats, raw_monthstat.
  destruct (A (or_now year (d_year now))) as (l & E & T). rewrite E. cbn [bind].
  destruct (converted _ _ _ kwh T) as (r & C & G & K). exists r. rewrite C. auto.
Qed.
Print Assumptions monthly_statistics.
(** Over New Year a month is asked for that is neither the old nor the new one. *)
Theorem daily_race_refuted : forall ask y kwh,
  fst (get_daily_stats ask (mkDate y 12 31) (mkDate (y + 1) 1 1) None None kwh) = DayStat y 1
  /\ DayStat y 1 <> DayStat y 12 /\ DayStat y 1 <> DayStat (y + 1) 1.
Proof. intros. split; [reflexivity|]. split; intros E; injection E; lia. Qed.
Print Assumptions daily_race_refuted.

(** What is read later as today's, or this month's: the entry of that number in the month (the year) of
    the update. *)
Lemma consumption_told key of data k : tells key of data ->
  exists x, consumption data key (inject_Z k) = Ok x /\ (x == amount (in_unit true (of k)))%Q.
Proof.
  intros (U & C & _ & T). destruct (consumption_now data key (inject_Z k) U C) as (x & E & V). exists x. split; [exact E|].
  rewrite V. specialize (T k true). unfold listed_energy in T. destruct (last_for key (inject_Z k) data) as [e|]; cbn [opt_eq] in T.
  - destruct (energy_of true e), (in_unit true (of k)); cbn in T |- *; try contradiction; [exact T|reflexivity].
  - destruct (in_unit true (of k)); [contradiction|reflexivity].
Qed.
Theorem read_later : forall h ask a m, answers h ask -> update ask a = Ok m ->
  forall b, (exists x, consumption_today m b = Ok x /\ (x == amount (in_unit true (of_day h (d_year a) (d_month a) (d_day b))))%Q)
  /\ (exists x, consumption_this_month m b = Ok x /\ (x == amount (in_unit true (of_month h (d_year a) (d_month b))))%Q).
Proof.
  intros h ask a m (A & B & (rt & R) & _) U b. unfold update in U. rewrite R in U. cbn [bind] in U.
  destruct (A (d_year a) (d_month a)) as (l & E & T). destruct (B (d_year a)) as (l' & E' & T'). rewrite E, E' in U. cbn [bind] in U.
  injection U as <-. split; [exact (consumption_told _ _ _ _ T)|exact (consumption_told _ _ _ _ T')].
Qed.
Print Assumptions read_later.
(** So it is today's as long as the month has not changed, and this month's while the year has not. *)
Theorem today_partial : forall h ask a m b, answers h ask -> update ask a = Ok m -> d_year b = d_year a -> 
  (d_month b = d_month a -> exists x, consumption_today m b = Ok x /\ (x == amount (in_unit true (of_day h (d_year b) (d_month b) (d_day b))))%Q)
  /\ (exists x, consumption_this_month m b = Ok x /\ (x == amount (in_unit true (of_month h (d_year b) (d_month b))))%Q).
Proof.
  intros h ask a m b A U Y. destruct (read_later h ask a m A U b) as [P Q]. rewrite <- Y in P, Q. split; [|exact Q].
  intros M. now rewrite <- M in P.
Qed.
Print Assumptions today_partial.
Theorem update_works : forall h ask a, answers h ask -> exists m, update ask a = Ok m.
Proof.
  intros h ask a (A & B & (rt & R) & _). unfold update. rewrite R. cbn [bind].
  destruct (A (d_year a) (d_month a)) as (l & E & _). destruct (B (d_year a)) as (l' & E' & _). rewrite E, E'. eexists. reflexivity.
Qed.
Print Assumptions update_works.

(** The same for minutes of use. *)
Theorem usage_minutes_partial : forall h ask, answers_minutes h ask ->
  (forall now1 now2 year month, (month = None -> d_month now2 = d_month now1) ->
     let y := or_now year (d_year now1) in let m := or_now month (d_month now1) in
     exists r, get_daystat ask now1 now2 year month = (DayStat y m, Ok r) /\ forall d, opt_eq (qget (inject_Z d) r) (of_day h y m d))
  /\ (forall now year, let y := or_now year (d_year now) in
     exists r, get_monthstat ask now year = (MonthStat y, Ok r) /\ forall m, opt_eq (qget (inject_Z m) r) (of_month h y m))
  /\ (forall a m b, update ask a = Ok m -> d_year b = d_year a ->
     (d_month b = d_month a -> exists x, usage_today m b = Ok x /\ opt_eq x (of_day h (d_year b) (d_month b) (d_day b)))
     /\ (exists x, usage_this_month m b = Ok x /\ opt_eq x (of_month h (d_year b) (d_month b)))).
Proof.
  intros h ask (A & B & (rt & R)). split; [|split].
  - intros now1 now2 year month S y m. unfold get_daystat, raw_daystat.
    replace (or_now month (d_month now2)) with m by (subst m; destruct month; [reflexivity|cbn; now rewrite S]).
    fold y. destruct (A y m) as (l & E & C & T). rewrite E. cbn [bind]. destruct (usage_statistics l "day" C) as (r & V & G & _).
    exists r. rewrite V. split; [reflexivity|]. intros d. eapply opt_eq_trans; [apply G|apply T].
  - intros now year y. unfold get_monthstat, raw_monthstat. fold y. destruct (B y) as (l & E & C & T). rewrite E. cbn [bind].
    destruct (usage_statistics l "month" C) as (r & V & G & _).
    exists r. rewrite V. split; [reflexivity|]. intros d. eapply opt_eq_trans; [apply G|apply T].
  - intros a m b U Y. unfold update in U. rewrite R in U. cbn [bind] in U.
    destruct (A (d_year a) (d_month a)) as (l & E & C & T). destruct (B (d_year a)) as (l' & E' & C' & T'). rewrite E, E' in U. cbn [bind] in U.
    injection U as <-. split.
    + intros M. destruct (usage_statistics l "day" C) as (r & _ & _ & N). eexists. split; [apply N|]. rewrite Y, M. apply T.
    + destruct (usage_statistics l' "month" C') as (r & _ & _ & N). eexists. split; [apply N|]. rewrite Y. apply T'.
Qed.
Print Assumptions usage_minutes_partial.
Example usage_minutes_ex : answers_minutes (mkHistory (fun _ _ d => if d =? 3 then Some 90%Q else None) (fun _ _ => None))
  (fun c => Ok match c with DayStat _ _ => [[("day", 3%Q); ("time", 90%Q)]] | _ => [] end).
Proof.
  split; [|split; [|eexists; reflexivity]].
  - intros y m. eexists. split; [reflexivity|]. split; [intros e [<-|[]]; split; discriminate|].
    intros k. unfold last_for. cbn -[Qeq_bool inject_Z]. destruct (Z.eqb_spec k 3) as [->|N]; [reflexivity|].
    replace (Qeq_bool 3 (inject_Z k)) with false; [exact I|]. symmetry. apply Bool.not_true_iff_false. rewrite Qeq_bool_iff.
    unfold Qeq. cbn. lia.
  - intros y. eexists. split; [reflexivity|]. split; [intros e []|]. intros k. exact I.
Qed.

Definition january : history := mkHistory (fun y m d => if (y =? 2026) && (m =? 1) && (d =? 1) then Some 500%Q else None) (fun _ _ => None).
Definition january_meter (c : scall) : res (list entry) :=
  Ok match c with
     | DayStat y m => if (y =? 2026) && (m =? 1) then [[("year", 2026%Q); ("month", 1%Q); ("day", 1%Q); ("energy_wh", 500%Q)]] else []
     | _ => []
     end.
Lemma tells_nothing key of : (forall k, of k = None) -> tells key of [].
Proof.
  intros N. split; [intros e e' []|]. split; [intros e []|]. split; [intros e x []|]. intros k kwh. rewrite N. exact I.
Qed.
Lemma january_answers : answers january january_meter.
Proof.
  split; [|split; [|split; eexists; reflexivity]].
  - intros y m. eexists. split; [reflexivity|]. cbn [january of_day].
    destruct (y =? 2026), (m =? 1); cbn [andb]; try (now apply tells_nothing).
    split; [intros e e' [<-|[]] [<-|[]]; reflexivity|]. split; [intros e [<-|[]]; split; discriminate|].
    split; [intros e x [<-|[]] E; injection E as <-; exists 1; reflexivity|].
    intros k kwh. unfold listed_energy, last_for. cbn -[Qeq_bool inject_Z].
    destruct (Z.eqb_spec k 1) as [->|N].
    + cbn. destruct kwh; reflexivity.
    + replace (Qeq_bool 1 (inject_Z k)) with false; [exact I|]. symmetry. apply Bool.not_true_iff_false. rewrite Qeq_bool_iff.
      unfold Qeq. cbn. lia.
  - intros y. eexists. split; [reflexivity|]. now apply tells_nothing.
Qed.
(** Read just after the month has changed, today's consumption is that of the first of last month. *)
Theorem today_refuted : exists h ask a b m x, answers h ask /\ update ask a = Ok m
  /\ a = mkDate 2026 1 31 /\ b = mkDate 2026 2 1
  /\ consumption_today m b = Ok x /\ (x == 1 # 2)%Q /\ of_day h (d_year b) (d_month b) (d_day b) = None.
Proof.
  exists january, january_meter, (mkDate 2026 1 31), (mkDate 2026 2 1), (mkMeter [[("year", 2026%Q); ("month", 1%Q); ("day", 1%Q); ("energy_wh", 500%Q)]] []), (500 * (1 / 1000))%Q.
  split; [apply january_answers|]. repeat split; reflexivity.
Qed.
Print Assumptions today_refuted.

(** ** C131 *)
Fixpoint distinct (m : list (Q * Q)) : Prop := match m with [] => True | (k, _) :: m => qget k m = None /\ distinct m end.
Lemma qset_distinct k v m : distinct m -> distinct (qset k v m).
Proof.
  induction m as [|[k0 v0] m IH]; cbn; [auto|]. intros [N D]. destruct (Qeq_bool k k0) eqn:E; cbn; [auto|].
  split; [|now apply IH]. rewrite qget_qset, Qeq_bool_sym, E. exact N.
Qed.
Lemma convert_all_distinct ek vk scale data : forall m r, distinct m -> convert_all ek vk scale data m = Ok r -> distinct r.
Proof.
  induction data as [|e data IH]; intros m r D H; cbn in H; [now injection H as <-|].
  destruct (eitem ek e); [|discriminate]. cbn [bind] in H. destruct (eitem vk e); [|discriminate]. cbn [bind] in H.
  eapply IH; [|exact H]. now apply qset_distinct.
Qed.
Lemma converted_distinct data key kwh r : convert_stat_data data key kwh None = Ok r -> distinct r.
Proof. destruct data as [|e data]; cbn [convert_stat_data]; intros H; [injection H as <-; exact I|]. eapply convert_all_distinct; [|exact H]. exact I. Qed.
Definition plus (a b : option Q) : option Q :=
  match a, b with Some x, Some y => Some (x + y)%Q | Some x, None => Some x | None, o => o end.
Lemma plus_eq a a' b b' : opt_eq a a' -> opt_eq b b' -> opt_eq (plus a b) (plus a' b').
Proof. destruct a, a', b, b'; cbn; try tauto. intros -> ->. reflexivity. Qed.
Lemma qadds_get d : forall t k, distinct d -> opt_eq (qget k (qadds d t)) (plus (qget k d) (qget k t)).
Proof.
  induction d as [|[k0 v] d IH]; intros t k D; cbn [qadds]; [apply opt_eq_refl|]. destruct D as [N D].
  eapply opt_eq_trans; [apply IH; exact D|]. unfold qadd. cbn [fst snd qget]. rewrite qget_qset.
  destruct (Qeq_bool k k0) eqn:E; [|apply opt_eq_refl]. apply Qeq_bool_iff in E.
  rewrite (qget_compat k k0 d E), N, (qget_compat k k0 t E). cbn [plus]. destruct (qget k0 t); cbn; ring.
Qed.
Lemma merge_get ds : forall t k, Forall distinct ds -> opt_eq (qget k (merge_stats_from ds t)) (plus (qget k t) (total (map (qget k) ds))).
Proof.
  induction ds as [|d ds IH]; intros t k F; cbn [merge_stats_from map total].
  - destruct (qget k t); cbn; [reflexivity|exact I].
  - inversion F; subst. eapply opt_eq_trans; [apply IH; assumption|].
    eapply opt_eq_trans; [apply plus_eq; [apply qadds_get; assumption|apply opt_eq_refl]|].
    destruct (qget k d), (qget k t), (total (map (qget k) ds)); cbn; try exact I; try ring; reflexivity.
Qed.
Lemma total_eq l l' : Forall2 opt_eq l l' -> opt_eq (total l) (total l').
Proof.
  induction 1 as [|a b l l' E F IH]; [exact I|]. cbn [total]. destruct a, b; cbn in E; try contradiction; [|exact IH].
  destruct (total l), (total l'); cbn in *; try contradiction; [|exact E]. now rewrite E, IH.
Qed.

(** Each socket is asked once, in order, for the same month, and every day of the result is the sum of
    what the sockets have recorded. *)
Lemma sockets_told (get : nat -> socket -> scall * res (list (Q * Q))) (c : scall) (of : history -> Z -> option Q) hs ss :
  Forall2 answers hs ss ->
  (forall i h s, answers h s -> exists r, get i s = (c, Ok r) /\ distinct r /\ forall k, opt_eq (qget (inject_Z k) r) (of h k)) ->
  forall i, exists ds, sockets_from get i ss = (combine (seq i (List.length ss)) (repeat c (List.length ss)), Ok ds)
    /\ Forall distinct ds /\ forall k, Forall2 opt_eq (map (qget (inject_Z k)) ds) (map (fun h => of h k) hs).
Proof.
  intros F G. induction F as [|h s hs ss A F IH]; intros i.
  - exists []. repeat split; constructor.
  - destruct (G i h s A) as (r & E & D & K). destruct (IH (S i)) as (ds & E' & D' & K').
    exists (r :: ds). cbn [sockets_from]. rewrite E, E'. repeat split; [constructor; assumption|].
    intros k. cbn [map]. constructor; [apply K|apply K'].
Qed.
Theorem strip_days_partial : forall hs ss clock1 clock2 y m kwh, Forall2 answers hs ss ->
  exists r, strip_daily clock1 clock2 ss (Some y) (Some m) kwh
      = (combine (seq 0 (List.length ss)) (repeat (DayStat y m) (List.length ss)), Ok r)
    /\ forall d, opt_eq (qget (inject_Z d) r) (total (map (fun h => in_unit kwh (of_day h y m d)) hs)).
Proof.
  intros hs ss clock1 clock2 y m kwh F. unfold strip_daily.
  destruct (sockets_told (fun i s => get_daily_stats s (clock1 i) (clock2 i) (Some y) (Some m) kwh) (DayStat y m)
              (fun h d => in_unit kwh (of_day h y m d)) hs ss F) with (i := 0%nat) as (ds & E & D & K).
  { intros i h s A. destruct (daily_statistics_partial h s (clock1 i) (clock2 i) (Some y) (Some m) kwh y m A eq_refl eq_refl) as (r & E & G & _); [discriminate|].
    exists r. split; [exact E|]. split; [|exact G]. unfold get_daily_stats in E. apply (f_equal snd) in E. unfold raw_daystat in E. cbn [snd or_now] in E.
    destruct (s (DayStat y m)); [|discriminate]. eapply converted_distinct. exact E. }
  rewrite E. cbn [bind]. eexists. split; [reflexivity|]. intros d. unfold merge_stats.
  eapply opt_eq_trans; [apply merge_get; exact D|]. cbn [qget plus]. apply total_eq. apply K.
Qed.
Print Assumptions strip_days_partial.
Theorem strip_months_partial : forall hs ss clock y kwh, Forall2 answers hs ss ->
  exists r, strip_monthly clock ss (Some y) kwh
      = (combine (seq 0 (List.length ss)) (repeat (MonthStat y) (List.length ss)), Ok r)
    /\ forall m, opt_eq (qget (inject_Z m) r) (total (map (fun h => in_unit kwh (of_month h y m)) hs)).
Proof.
  intros hs ss clock y kwh F. unfold strip_monthly.
  destruct (sockets_told (fun i s => get_monthly_stats s (clock i) (Some y) kwh) (MonthStat y)
              (fun h m => in_unit kwh (of_month h y m)) hs ss F) with (i := 0%nat) as (ds & E & D & K).
  { intros i h s A. destruct (monthly_statistics h s (clock i) (Some y) kwh y A eq_refl) as (r & E & G & _).
    exists r. split; [exact E|]. split; [|exact G]. unfold get_monthly_stats in E. apply (f_equal snd) in E. unfold raw_monthstat in E. cbn [snd or_now] in E.
    destruct (s (MonthStat y)); [|discriminate]. eapply converted_distinct. exact E. }
  rewrite E. cbn [bind]. eexists. split; [reflexivity|]. intros m. unfold merge_stats.
  eapply opt_eq_trans; [apply merge_get; exact D|]. cbn [qget plus]. apply total_eq. apply K.
Qed.
Print Assumptions strip_months_partial.
(** Today's consumption of the strip is that of its sockets together. *)
Theorem strip_today_sum : forall a b hs ss ms, Forall2 answers hs ss -> Forall2 (fun s m => update s a = Ok m) ss ms ->
  d_year b = d_year a -> d_month b = d_month a ->
  exists x, strip_today ms b = Ok x /\ (x == qsum (map (fun h => amount (in_unit true (of_day h (d_year b) (d_month b) (d_day b)))) hs))%Q.
Proof.
  intros a b hs ss ms F. revert ms. induction F as [|h s hs ss A F IH]; intros ms U Y M; inversion U; subst.
  - exists 0%Q. split; reflexivity.
  - destruct (IH _ H3 Y M) as (x & E & V). destruct (today_partial h s a y b A H1 Y) as [P _]. destruct (P M) as (x0 & E0 & V0).
    cbn [strip_today]. rewrite E0, E. cbn [bind]. eexists. split; [reflexivity|]. cbn [map qsum]. now rewrite V, V0.
Qed.
Print Assumptions strip_today_sum.
(** Erasing reaches every socket, or ends with the error of the first that fails. *)
Theorem strip_erased : forall ss i cs r, strip_erase i ss = (cs, r) ->
  exists n, cs = combine (seq i n) (repeat Erase n) /\ (n <= List.length ss)%nat
  /\ (forall s, In s (firstn (n - 1) ss) -> exists l, s Erase = Ok l)
  /\ match r with
     | Ok _ => n = List.length ss /\ forall s, In s ss -> exists l, s Erase = Ok l
     | Err e => exists s, nth_error ss (n - 1) = Some s /\ s Erase = Err e
     end.
Proof.
  induction ss as [|s ss IH]; intros i cs r H; cbn [strip_erase] in H.
  - injection H as <- <-. exists 0%nat. repeat split; auto; intros s [].
  - destruct (s Erase) as [l|e] eqn:E.
    + destruct (strip_erase (S i) ss) as [cs' r'] eqn:R. injection H as <- <-.
      destruct (IH _ _ _ R) as (n & C & L & P & T). exists (S n). split; [cbn; now rewrite C|]. split; [cbn; lia|].
      replace (S n - 1)%nat with n by lia. split.
      * destruct n as [|n]; [intros x []|]. cbn [firstn]. intros x [<-|I]; [eauto|]. replace (S n - 1)%nat with n in P by lia. now apply P.
      * destruct r' as [[]|e].
        -- destruct T as [-> T]. split; [reflexivity|]. intros x [<-|I]; [eauto|now apply T].
        -- destruct T as (x & N & X). destruct n as [|n].
           ++ destruct ss as [|s0 ss]; [discriminate|]. cbn in C. cbn [strip_erase] in R.
              destruct (s0 Erase); [destruct (strip_erase (S (S i)) ss)|]; apply (f_equal fst) in R; cbn [fst] in R; congruence.
           ++ replace (S n - 1)%nat with n in N by lia. exists x. split; [exact N|exact X].
    + injection H as <- <-. exists 1%nat. split; [reflexivity|]. split; [cbn; lia|]. split; [intros x []|].
      exists s. split; [reflexivity|exact E].
Qed.
Print Assumptions strip_erased.
(** Without a month the sockets may be asked for different ones. *)
Theorem strip_straddle_refuted : exists clock1 clock2 ss r,
  strip_daily clock1 clock2 ss None None true = ([(0%nat, DayStat 2026 1); (1%nat, DayStat 2026 2)], Ok r).
Proof.
  pose (clock := fun i : nat => match i with O => mkDate 2026 1 31 | S _ => mkDate 2026 2 1 end).
  exists clock, clock, [january_meter; january_meter]. eexists. reflexivity.
Qed.
Print Assumptions strip_straddle_refuted.

(** ** C132 *)
(** The command asks for exactly what one option says, if the device keeps statistics. *)
Theorem energy_asks_partial : forall y m yy,
  energy_command true true (Some y) None false = Go (CMonthly y)
  /\ energy_command true true None (Some (yy, m)) false = Go (CDaily yy m)
  /\ energy_command true true None None true = Go CErase
  /\ (forall periodic, energy_command true periodic None None false = Go CSummary).
Proof. intros. repeat split; intros []; reflexivity. Qed.
Print Assumptions energy_asks_partial.
Theorem energy_refused : forall has periodic year month erase,
  has = false \/ (periodic = false /\ (year <> None \/ month <> None \/ erase = true)) ->
  energy_command has periodic year month erase = Stop Exit1.
Proof.
  intros has periodic year month erase [->|[-> H]]; [reflexivity|]. unfold energy_command. destruct has; [|reflexivity]. cbn [negb].
  destruct year, month, erase; try reflexivity. exfalso. destruct H as [H|[H|H]]; [contradiction|contradiction|discriminate].
Qed.
Print Assumptions energy_refused.
(** Statistics are erased only when asked to. *)
Theorem energy_erase_asked : forall has periodic year month erase, energy_command has periodic year month erase = Go CErase -> erase = true.
Proof.
  intros has periodic year month erase. unfold energy_command. destruct has; [|discriminate]. cbn [negb].
  destruct erase; [reflexivity|]. destruct periodic, year, month as [[]|]; discriminate.
Qed.
Print Assumptions energy_erase_asked.
(** Contradictory options are not refused: a month beside a year is ignored, and beside --erase both are. *)
Theorem energy_both_refuted : forall y month, energy_command true true (Some y) month false = Go (CMonthly y)
  /\ energy_command true true (Some y) month true = Go CErase.
Proof. intros. split; reflexivity. Qed.
Print Assumptions energy_both_refuted.

Example strip_ex : Forall2 answers [january; january] [january_meter; january_meter].
Proof. repeat constructor; apply january_answers. Qed.
Example strip_days_ex : exists r, strip_daily (fun _ => mkDate 2026 1 31) (fun _ => mkDate 2026 1 31) [january_meter; january_meter] None None true
  = ([(0%nat, DayStat 2026 1); (1%nat, DayStat 2026 1)], Ok r) /\ opt_eq (qget 1 r) (Some 1%Q).
Proof. eexists. split; reflexivity. Qed.

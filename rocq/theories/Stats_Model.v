(** Periodic statistics of legacy devices: which period is asked for, what is kept, what is read later,
    and the statistics of strips (kasa/iot/modules/usage.py, emeter.py, kasa/iot/iotstrip.py), and the
    energy command of the tool (kasa/cli/usage.py).  No proofs. *)
From Coq Require Import QArith.
From Verif Require Import Base Py Emeter_Model Cli_Model.
Open Scope string_scope.
Open Scope list_scope.
Open Scope Z_scope.

(** datetime.now(), as far as it is looked at *)
Record date := mkDate { d_year : Z; d_month : Z; d_day : Z }.
(** What is asked of a meter; the answer to a statistics command is the list it holds under day_list or
    month_list.  An answer without that list is an error of the oracle. *)
Inductive scall := DayStat (year month : Z) | MonthStat (year : Z) | Realtime | Erase.
Definition or_now (o : option Z) (z : Z) : Z := match o with Some y => y | None => z end.

Section Meter.
Variable ask : scall -> res (list entry).

(** Usage.query, usage.py:13-25, for a meter that is asked each command of the query in turn, and the
    lists kept of the answers, 32-40 *)
Record meter := mkMeter { daily_data : list entry; monthly_data : list entry }.
Definition update (now : date) : res meter :=
  let! _ := ask Realtime in
  let! days := ask (DayStat (d_year now) (d_month now)) in
  let! months := ask (MonthStat (d_year now)) in
  Ok (mkMeter days months).
(** consumption_today and consumption_this_month, emeter.py:38-54 *)
Definition consumption_today (m : meter) (now : date) : res Q := consumption (daily_data m) "day" (inject_Z (d_day now)).
Definition consumption_this_month (m : meter) (now : date) : res Q := consumption (monthly_data m) "month" (inject_Z (d_month now)).
(** usage_today and usage_this_month, usage.py:42-60 *)
Definition usage_today (m : meter) (now : date) : res (option Q) := usage_now (daily_data m) "day" (inject_Z (d_day now)).
Definition usage_this_month (m : meter) (now : date) : res (option Q) := usage_now (monthly_data m) "month" (inject_Z (d_month now)).

(** get_raw_daystat, usage.py:62-71: the clock is read once for the year and once more for the month *)
Definition raw_daystat (now1 now2 : date) (year month : option Z) : scall := DayStat (or_now year (d_year now1)) (or_now month (d_month now2)).
(** get_raw_monthstat, usage.py:73-78 *)
Definition raw_monthstat (now : date) (year : option Z) : scall := MonthStat (or_now year (d_year now)).
(** get_daily_stats and get_monthly_stats, emeter.py:84-104: the call made and the result *)
Definition get_daily_stats (now1 now2 : date) (year month : option Z) (kwh : bool) : scall * res (list (Q * Q)) :=
  let c := raw_daystat now1 now2 year month in
  (c, let! data := ask c in convert_stat_data data "day" kwh None).
Definition get_monthly_stats (now : date) (year : option Z) (kwh : bool) : scall * res (list (Q * Q)) :=
  let c := raw_monthstat now year in
  (c, let! data := ask c in convert_stat_data data "month" kwh None).
(** get_daystat and get_monthstat, usage.py:80-98 *)
Definition get_daystat (now1 now2 : date) (year month : option Z) : scall * res (list (Q * Q)) :=
  let c := raw_daystat now1 now2 year month in
  (c, let! data := ask c in convert_usage data "day").
Definition get_monthstat (now : date) (year : option Z) : scall * res (list (Q * Q)) :=
  let c := raw_monthstat now year in
  (c, let! data := ask c in convert_usage data "month").
End Meter.

(** ** Strips *)
(** merge_sums, iotstrip.py:29-35, for dictionaries keyed by numbers *)
Definition qadd (kv : Q * Q) (total : list (Q * Q)) : list (Q * Q) :=
  qset (fst kv) ((match qget (fst kv) total with Some x => x | None => 0 end) + snd kv)%Q total.
Fixpoint qadds (d total : list (Q * Q)) : list (Q * Q) :=
  match d with [] => total | kv :: d => qadds d (qadd kv total) end.
Fixpoint merge_stats_from (ds : list (list (Q * Q))) (total : list (Q * Q)) : list (Q * Q) :=
  match ds with [] => total | d :: ds => merge_stats_from ds (qadds d total) end.
Definition merge_stats (ds : list (list (Q * Q))) : list (Q * Q) := merge_stats_from ds [].
(** A socket: what it answers. *)
Definition socket := scall -> res (list entry).
(** The list in _async_get_emeter_sum, 248-255: each socket is asked once, in order; [get i s]: what is
    called of the i-th socket.  The calls made carry the position of the socket. *)
Fixpoint sockets_from (get : nat -> socket -> scall * res (list (Q * Q))) (i : nat) (ss : list socket)
  : list (nat * scall) * res (list (list (Q * Q))) :=
  match ss with
  | [] => ([], Ok [])
  | s :: ss =>
      let (c, r) := get i s in
      match r with
      | Err e => ([(i, c)], Err e)
      | Ok d => let (cs, rs) := sockets_from get (S i) ss in ((i, c) :: cs, let! ds := rs in Ok (d :: ds))
      end
  end.
(** get_daily_stats and get_monthly_stats of StripEmeter, 221-246; [clock1 i], [clock2 i]: the clock when
    the i-th socket is asked *)
Definition strip_daily (clock1 clock2 : nat -> date) (ss : list socket) (year month : option Z) (kwh : bool)
  : list (nat * scall) * res (list (Q * Q)) :=
  let (cs, r) := sockets_from (fun i s => get_daily_stats s (clock1 i) (clock2 i) year month kwh) 0 ss in
  (cs, let! ds := r in Ok (merge_stats ds)).
Definition strip_monthly (clock : nat -> date) (ss : list socket) (year : option Z) (kwh : bool)
  : list (nat * scall) * res (list (Q * Q)) :=
  let (cs, r) := sockets_from (fun i s => get_monthly_stats s (clock i) year kwh) 0 ss in
  (cs, let! ds := r in Ok (merge_stats ds)).
(** consumption_today of StripEmeter, 273-279; the same for the month, 264-271 *)
Fixpoint strip_today (ms : list meter) (now : date) : res Q :=
  match ms with
  | [] => Ok 0%Q
  | m :: ms => let! x := consumption_today m now in let! s := strip_today ms now in Ok (x + s)%Q
  end.
(** erase_stats, 257-262 *)
Fixpoint strip_erase (i : nat) (ss : list socket) : list (nat * scall) * res unit :=
  match ss with
  | [] => ([], Ok tt)
  | s :: ss =>
      match s Erase with
      | Err e => ([(i, Erase)], Err e)
      | Ok _ => let (cs, r) := strip_erase (S i) ss in ((i, Erase) :: cs, r)
      end
  end.

(** ** energy, cli/usage.py:23-71.  What is called of the energy module.  --year gives a year, --month a
    year and a month. *)
Inductive ecall := CErase | CMonthly (year : Z) | CDaily (year month : Z) | CSummary.
Definition energy_command (has periodic : bool) (year : option Z) (month : option (Z * Z)) (erase : bool) : step ecall :=
  if negb has then Stop Exit1                                                            (* 34-36 *)
  else
    let some := match year, month with None, None => false | _, _ => true end in
    if (some || erase) && negb periodic then Stop Exit1                                  (* 38-42 *)
    else if erase then Go CErase                                                         (* 44-46 *)
    else match year, month with
         | Some y, _ => Go (CMonthly y)                                                  (* 48-51 *)
         | None, Some (y, m) => Go (CDaily y m)                                          (* 52-55 *)
         | None, None => Go CSummary                                                     (* 56-69 *)
         end.

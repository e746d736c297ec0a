(** A meter keeps what was used on each day, and of each month the total. *)
From Coq Require Import QArith.
From Verif Require Import Base Py Emeter_Model Emeter_Spec Cli_Model Stats_Model.
Open Scope string_scope.
Open Scope list_scope.
Open Scope Z_scope.

(** What a meter has recorded, in Wh; [None]: nothing. *)
Record history := mkHistory { of_day : Z -> Z -> Z -> option Q; of_month : Z -> Z -> option Q }.
Definition in_unit (kwh : bool) (o : option Q) : option Q :=
  match o with Some wh => Some (if kwh then wh / 1000 else wh)%Q | None => None end.
Definition listed_energy (key : string) (k : Z) (kwh : bool) (data : list entry) : option Q :=
  match last_for key (inject_Z k) data with Some e => energy_of kwh e | None => None end.
(** A list that tells the days of a month (the months of a year). *)
Definition tells (key : string) (of : Z -> option Q) (data : list entry) : Prop :=
  uniform data /\ complete key (energy_of true) data
  /\ (forall e x, In e data -> dget key e = Some x -> exists z, (x == inject_Z z)%Q)
  /\ forall k kwh, opt_eq (listed_energy key k kwh data) (in_unit kwh (of k)).
(** A meter that answers from its history. *)
Definition answers (h : history) (ask : scall -> res (list entry)) : Prop :=
  (forall y m, exists l, ask (DayStat y m) = Ok l /\ tells "day" (of_day h y m) l)
  /\ (forall y, exists l, ask (MonthStat y) = Ok l /\ tells "month" (of_month h y) l)
  /\ (exists l, ask Realtime = Ok l) /\ (exists l, ask Erase = Ok l).
(** A meter of minutes of use. *)
Definition tells_minutes (key : string) (of : Z -> option Q) (data : list entry) : Prop :=
  complete key (dget "time") data
  /\ forall k, opt_eq (match last_for key (inject_Z k) data with Some e => dget "time" e | None => None end) (of k).
Definition answers_minutes (h : history) (ask : scall -> res (list entry)) : Prop :=
  (forall y m, exists l, ask (DayStat y m) = Ok l /\ tells_minutes "day" (of_day h y m) l)
  /\ (forall y, exists l, ask (MonthStat y) = Ok l /\ tells_minutes "month" (of_month h y) l)
  /\ (exists l, ask Realtime = Ok l).
Definition amount (o : option Q) : Q := match o with Some x => x | None => 0%Q end.
(** Of several meters: the sum over those that have recorded something. *)
Fixpoint total (l : list (option Q)) : option Q :=
  match l with
  | [] => None
  | Some x :: l => match total l with Some y => Some (x + y)%Q | None => Some x end
  | None :: l => total l
  end.

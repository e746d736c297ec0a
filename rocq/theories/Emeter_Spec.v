(** Specification vocabulary for energy readings (C36-C38). *)
From Coq Require Import QArith.
From Verif Require Import Base Py Emeter_Model.
Open Scope string_scope.
Open Scope list_scope.

Inductive quantity := Voltage | Power | Current | Energy | Total.
Definition base (q : quantity) : string :=
  match q with Voltage => "voltage" | Power => "power" | Current => "current" | Energy => "energy" | Total => "total" end.
Definition milli (q : quantity) : string :=
  match q with Voltage => "voltage_mv" | Power => "power_mw" | Current => "current_ma" | Energy => "energy_wh" | Total => "total_wh" end.
(** How a device reports a quantity: under one name and under no name alike. *)
Definition names_like (q : quantity) (k : string) : Prop := String.prefix (base q) k = true.
Definition only_name (q : quantity) (k : string) (d : reading) : Prop := forall k', In k' (dkeys d) -> names_like q k' -> k' = k.
Definition in_milli (q : quantity) (x : Q) (d : reading) : Prop := dget (milli q) d = Some (Some x) /\ only_name q (milli q) d.
Definition in_base (q : quantity) (x : Q) (d : reading) : Prop := dget (base q) d = Some (Some x) /\ only_name q (base q) d.
Definition not_reported (q : quantity) (d : reading) : Prop := forall k, In k (dkeys d) -> ~ names_like q k.
(** The quantity in base units, as the device meant it. *)
Definition means (q : quantity) (v : Q) (d : reading) : Prop :=
  in_base q v d \/ exists x, in_milli q x d /\ (v == x / 1000)%Q.

Definition opt_eq (a b : option Q) : Prop :=
  match a, b with Some x, Some y => (x == y)%Q | None, None => True | _, _ => False end.
Fixpoint qsum (l : list Q) : Q := match l with [] => 0%Q | x :: l => (x + qsum l)%Q end.
(** The values of a field in several readings; those that do not have it count nothing. *)
Definition values (k : string) (ds : list reading) : list Q :=
  flat_map (fun d => match dget k d with Some (Some x) => [x] | _ => [] end) ds.
Definition no_nulls (d : reading) : Prop := forall k, dget k d <> Some None.
Definition count (ds : list reading) : Q := inject_Z (Z.of_nat (length ds)).

(** ** Statistics *)
(** The energy of an entry, in kWh or in Wh. *)
Definition energy_of (kwh : bool) (e : entry) : option Q :=
  match dget "energy_wh" e, dget "energy" e with
  | Some wh, _ => Some (if kwh then wh / 1000 else wh)%Q
  | None, Some k => Some (if kwh then k else k * 1000)%Q
  | None, None => None
  end.
(** The last entry for a day (month). *)
Definition last_for (entry_key : string) (k : Q) (data : list entry) : option entry :=
  find (fun e => match dget entry_key e with Some x => Qeq_bool x k | None => false end) (rev data).
(** All entries of a list use the same unit. *)
Definition uniform (data : list entry) : Prop := forall e e', In e data -> In e' data -> dmem "energy_wh" e = dmem "energy_wh" e'.
Definition complete (entry_key : string) (value : entry -> option Q) (data : list entry) : Prop :=
  forall e, In e data -> dget entry_key e <> None /\ value e <> None.

(** Specification: what a device object shows, compared with the device. *)
From Verif Require Import Base Smod_Model Overlap_Model.
Open Scope list_scope.
Open Scope Z_scope.

(** The method is asked for by a module of the object *)
Definition asks (d : dev) (m : string) (k : string) : Prop :=
  exists mo st, In (mo, st) (mods d) /\ m_name mo = m /\ In k (m_query mo).
(** The object shows for the method what the device would answer now *)
Definition current (s : sys) (k : string) : Prop := dget k (lu (s_dev s)) = Some (s_world s k).
(** No module that asks for the method has been disabled *)
Definition enabled (d : dev) (k : string) : Prop :=
  forall mo st, In (mo, st) (mods d) -> In k (m_query mo) -> disabled st = false.
(** Where a history may start: everything shown is current *)
Definition up_to_date (s : sys) : Prop :=
  s_ups s = [] /\ s_sets s = [] /\ forall m k, asks (s_dev s) m k -> current s k.
(** No query failed *)
Definition no_failure (e : event) : Prop := match e with EAnswer _ ok => ok = true | _ => True end.
(** The device is changed by marked setters only, each in what its module shows *)
Fixpoint by_setters (s : sys) (es : list event) : Prop :=
  match es with
  | [] => True
  | e :: es =>
      match e with
      | EOutside _ _ => False
      | EEffect id k _ => match lookup id (s_sets s) with Some m => asks (s_dev s) m k | None => True end
      | _ => True
      end /\ by_setters (step s e) es
  end.

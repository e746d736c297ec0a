(** What a user expects of the firmware status: it is what the last check found, and it is true of
    the device. *)
From Verif Require Import Base Py Gadget_Model Upgrade_Model.
Open Scope string_scope.
Open Scope list_scope.
Open Scope Z_scope.

(** The check that counts: the last one that was not cancelled *)
Fixpoint last_check (h : list event) (before : option (res json)) : option (res json) :=
  match h with
  | [] => before
  | Check (Err Cancelled) :: h => last_check h before
  | Check r :: h => last_check h (Some r)
  | _ :: h => last_check h before
  end.
(** What the latest update of the object showed of the cloud connection, given how it changes *)
Fixpoint last_cloud (h : list event) (now shown : bool) : bool :=
  match h with
  | [] => shown
  | Link b :: h => last_cloud h b shown
  | Refresh :: h => last_cloud h now now
  | _ :: h => last_cloud h now shown
  end.
(** A reply a device gives when it runs [running] and the newest release is [newest]: the type is not
    zero exactly if there is something newer, and the rest is readable *)
Definition truthful (iso : string -> option Z) (running newest : string) (r : json) : Prop :=
  exists d t, r = JObj d /\ dget "type" d = Some (JInt t) /\ (t = 0 <-> running = newest) /\
    (exists n, dget "need_to_upgrade" d = Some n) /\
    dget "fw_ver" d = Some (JStr newest) /\
    (forall x, dget "release_date" d = Some x -> exists s, x = JStr s /\ (s = "" \/ exists n, iso s = Some n)) /\
    (forall x, dget "fw_size" d = Some x -> exists n, x = JInt n).
(** Events that leave the versions and the check's result as they are *)
Definition quiet (e : event) : Prop := match e with Refresh | Link _ => True | Check r => r = Err Cancelled | _ => False end.

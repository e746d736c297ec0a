(** The time commands of the tool, kasa/cli/time.py.  Output is left out.  No proofs. *)
From Verif Require Import Base Py Clock_Model Cli_Model.
Open Scope string_scope.
Open Scope list_scope.
Open Scope Z_scope.

(** What is done to the device: set_time of its Time module, and update *)
Inductive top := SetTime (dt : moment) | UpdateDev.

Section Sync.
(** [known], [off_wall]: the time zone database, as in Clock_Model.  [host], [host_fold]: the zone of the
    computer at an instant: its offset, and whether its wall clock shows the time for the second time.
    [matches]: get_matching_timezones.  [confirm]: what the user answers, if asked.  [outcome]: what
    each operation gives. *)
Variable known : string -> bool.
Variable off_wall : string -> Z -> bool -> Z.
Variable host : Z -> Z.
Variable host_fold : Z -> bool.
Variable matches : string -> res (list string).
Variable confirm : bool.
Variable outcome : top -> res unit.

(** _get_timezone, time.py:135-160: whether the user was asked, and the key of the zone.  Answering no
    raises Abort, with which the tool ends with exit code 0 (common.py:243-244). *)
Definition get_zone (legacy skip : bool) (key : string) : bool * step string :=
  if negb (known key) then (false, Stop Exit1)                                   (* 139-140 *)
  else if negb skip && legacy then                                               (* 143 *)
    match matches key with
    | Err e => (false, Stop (Raise e))
    | Ok [] => (false, Stop Exit1)                                               (* 145-146 *)
    | Ok (_ :: _) => (true, if confirm then Go key else Stop Fine)              (* 147-160 *)
    end
  else (false, Go key).

(** await time.set_time(..); await dev.update(), time.py:78-80 and 128-130 *)
Definition set_and_update (dt : moment) : list top * step unit :=
  match outcome (SetTime dt) with
  | Err e => ([SetTime dt], Stop (Raise e))
  | Ok _ => ([SetTime dt; UpdateDev], match outcome UpdateDev with Err e => Stop (Raise e) | Ok _ => Go tt end)
  end.

(** datetime.now() at an instant *)
Definition now_at (t : Z) : moment := mkMoment (t + million * host t) (host_fold t) None.
(** time_sync, time.py:58-81, at instant [t].  now.astimezone().utcoffset() is the computer's offset at
    [t]: the database of the computer is taken to be consistent. *)
Definition time_sync (has legacy skip : bool) (zone : option string) (t : Z) : list top * step unit :=
  if negb has then ([], Go tt)                                                   (* 60-62 *)
  else
    let now := now_at t in
    match zone with
    | None => set_and_update now
    | Some key =>
        if String.eqb key "" then set_and_update now
        else match snd (get_zone legacy skip key) with
        | Stop e => ([], Stop e)
        | Go k =>
            if negb (utcoffset off_wall (Region k) now =? host t) then ([], Stop Exit1)      (* 69-73 *)
            else set_and_update (mkMoment (wall now) (fold now) (Some (Region k)))         (* 74 *)
        end
    end.
(** time_set, time.py:107-132; [civil]: the wall clock of the given fields, an error if there is no such
    time *)
Definition time_set (has legacy skip : bool) (zone : option string) (civil : res Z) : list top * step unit :=
  if negb has then ([], Go tt)                                                   (* 119-121 *)
  else
    let z := match zone with
             | None => Go None
             | Some key => if String.eqb key "" then Go None
                           else match snd (get_zone legacy skip key) with Go k => Go (Some (Region k)) | Stop e => Stop e end
             end in
    match z with
    | Stop e => ([], Stop e)
    | Go z => match civil with Err e => ([], Stop (Raise e)) | Ok w => set_and_update (mkMoment w false z) end
    end.
End Sync.

(** What a run of the command line tool prints and how it ends (kasa/cli/common.py),
    and the commands that print without [echo].  Standard error, the wording of
    messages and the text form of JSON are left out.  No proofs. *)
From Verif Require Import Base Py.
Open Scope string_scope.
Open Scope list_scope.
Open Scope Z_scope.

(** A Python value as json.dumps sees it.  Named tuples are lists, members of IntEnum
    and StrEnum are numbers and strings; [PObj s] is any other object, [s] its str(). *)
Inductive pkey := KStr (s : string) | KInt (z : Z) | KBool (b : bool) | KNone | KOther.
Inductive pv :=
| PNone | PBool (b : bool) | PInt (z : Z) | PFloat (lit : string) | PStr (s : string)
| PList (l : list pv) | PDict (d : list (pkey * pv)) | PDevice (host : string) (internal_state : pv) | PObj (s : string).

(** Keys as json.dumps writes them; other types raise TypeError *)
Section Print.
(** str() of an integer *)
Variable int_str : Z -> string.
Definition key_text (k : pkey) : option string :=
  match k with
  | KStr s => Some s
  | KInt z => Some (int_str z)
  | KBool b => Some (if b then "true" else "false")
  | KNone => Some "null"
  | KOther => None
  end.
(** json.dumps with to_serializable, common.py:81-94; None: TypeError *)
Fixpoint dumps (v : pv) : option json :=
  match v with
  | PNone => Some JNull
  | PBool b => Some (JBool b)
  | PInt z => Some (JInt z)
  | PFloat s => Some (JFloat s)
  | PStr s | PObj s => Some (JStr s)
  | PDevice _ st => dumps st
  | PList l =>
      match (fix go (l : list pv) : option (list json) :=
               match l with
               | [] => Some []
               | v :: l => match dumps v, go l with Some j, Some js => Some (j :: js) | _, _ => None end
               end) l with
      | Some js => Some (JArr js)
      | None => None
      end
  | PDict d =>
      match (fix go (d : list (pkey * pv)) : option (list (string * json)) :=
               match d with
               | [] => Some []
               | (k, v) :: d => match key_text k, dumps v, go d with Some s, Some j, Some js => Some ((s, j) :: js) | _, _, _ => None end
               end) d with
      | Some js => Some (JObj js)
      | None => None
      end
  end.

Fixpoint pget (k : string) (d : list (pkey * pv)) : option pv :=
  match d with
  | [] => None
  | (KStr x, v) :: d => if String.eqb k x then Some v else pget k d
  | _ :: d => pget k d
  end.
(** json_formatter_cb, common.py:71-79: what is printed for a result *)
Definition chosen (host : option string) (v : pv) : pv :=
  match host, v with
  | Some h, PDict d =>
      if String.eqb h "" then v
      else match pget h d with
           | Some (PDevice x st) => PDevice x st
           | _ => v
           end
  | _, _ => v
  end.

(** How the callbacks of a run end *)
Inductive ending :=
| Returned (v : pv)
| SysExit (code : Z)          (* sys.exit, as in error() *)
| ClickError (code : Z)       (* a click.ClickException with its exit code *)
| ClickExit (code : Z)
| Aborted                     (* click.Abort *)
| Raised (message : string)   (* any other Exception *)
| Interrupted.                (* KeyboardInterrupt *)
(** What they say: through echo, or directly on standard output (print, click.echo,
    click.prompt) *)
Inductive said := Echo (s : string) | Direct (s : string).
Record action := mkAct { says : list said; ends : ending }.
Inductive line := Text (s : string) | Doc (j : json).
Record outcome := mkOut { out : list line; status : Z; traceback : bool }.

(** echo, common.py:52-56 *)
Definition spoken (json : bool) (s : said) : list line :=
  match s with
  | Echo s => if json then [] else [Text s]
  | Direct s => [Text s]
  end.
(** The debug flag, common.py:249-251 *)
Definition debug_of (args : list string) : bool :=
  existsb (fun a => smem a ["--debug"; "-d"; "--verbose"; "-v"]) args.
Definition HINT : string := "Run with --debug enabled to see stacktrace".
(** _handle_exception, common.py:237-250, for other exceptions *)
Definition fail (json debug : bool) (l : list line) (message : string) : outcome :=
  mkOut (l ++ spoken json (Echo ("Raised error: " ++ message)%string) ++ (if debug then [] else spoken json (Echo HINT))) 1 debug.
(** A run: the group's invoke with its result callback (common.py:66-95, 259-263),
    __call__ (265-287), and the exit statuses of asyncclick's main *)
Definition run (json : bool) (args : list string) (host : option string) (a : action) : outcome :=
  let l := flat_map (spoken json) (says a) in
  let debug := debug_of args in
  match ends a with
  | Returned v =>
      if json then
        match dumps (chosen host v) with
        | Some j => mkOut (l ++ [Doc j]) 0 false
        | None => fail json debug l "keys must be str, int, float, bool or None"
        end
      else mkOut l 0 false
  | SysExit c => mkOut l c false
  | ClickError c => mkOut l c false
  | ClickExit c => mkOut l c false
  | Aborted => mkOut l 0 false
  | Raised m => fail json debug l m
  | Interrupted => mkOut l 1 false
  end.
End Print.

(** error, common.py:59-62 *)
Definition error (msg : string) : action := mkAct [Echo msg] (SysExit 1).
Definition after (s : list said) (a : action) : action := mkAct (s ++ says a) (ends a).
(** device logs, device.py:207-214: [None] without the module *)
Definition child_logs (entries : option (list string)) : action :=
  mkAct (match entries with Some l => map Direct l | None => [] end) (Returned PNone).
(** schedule list, schedule.py:22-32 *)
Definition schedule_list (rules : list string) : action := after (map Direct rules) (error "No rules").
(** vacuum records list, vacuum.py:41-53 *)
Definition records_list (records : option (list string)) : action :=
  match records with
  | None => error "This device does not support records."
  | Some l => mkAct (map Direct l) (Returned PNone)
  end.
(** vacuum consumables reset, vacuum.py:69-84: [ids] are the consumables *)
Definition reset_consumable (ids : list string) (id : string) : action :=
  if smem id ids then mkAct [Direct ("Consumable " ++ id ++ " reset")%string] (Returned PNone) else error "not found".
(** device state, device.py:30-90: what it says and its result; [echoes] are its lines *)
Definition state (echoes : list string) (host : string) (internal_state : pv) : action :=
  mkAct (map Echo echoes) (Returned internal_state).
(** The tool without a command when discovery found the device (main.py:357-364,
    378-387), and discover with a host (discover.py:119, 103-108) *)
Definition found_by_host (echoes : list string) (host : string) (internal_state : pv) : action :=
  mkAct (map Echo echoes) (Returned (PDevice host internal_state)).
Definition discover_host (echoes : list string) (host : string) (internal_state : pv) : action :=
  mkAct (map Echo echoes) (Returned (PDict [(KStr host, PDevice host internal_state)])).

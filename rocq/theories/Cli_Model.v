(** The command line tool: from the options to a connected device (kasa/cli/main.py), the discover
    command (kasa/cli/discover.py) and finding a device by its name.  No proofs. *)
From Verif Require Import Base Py Factory_Model.
Open Scope string_scope.
Open Scope list_scope.
Open Scope Z_scope.

(** ** The options of the tool, cli/main.py:101-225.  click has already parsed them: [o_type] and
    [o_enc] are one of the choices (31-42), [o_sub] is ctx.invoked_subcommand and [o_help] says
    whether --help is among the arguments.  --verbose, --debug and --json only change the output
    and are left out. *)
Inductive ty := TPlug | TSwitch | TBulb | TDimmer | TStrip | TLightStrip | TSmart | TCamera.
Record opts := mkOpts {
  o_help : bool; o_sub : option string;
  o_host : option string; o_port : option Z; o_alias : option string; o_target : string;
  o_type : option ty; o_enc : option encryption; o_https : bool; o_family : string; o_login : Z;
  o_timeout : Z; o_discovery : Z;
  o_user : option string; o_password : option string; o_hash : option string }.
Definition DEFAULT_TARGET : string := "255.255.255.255".       (* main.py:43 *)
Definition SKIP_UPDATE_COMMANDS : list string := ["raw-command"; "command"].   (* common.py:23 *)
(** bool() of an optional string *)
Definition given_str (s : option string) : bool := match s with Some s => negb (String.eqb s "") | None => false end.
Definition is_some {A} (o : option A) : bool := match o with Some _ => true | None => false end.

(** DeviceConfig as the tool fills it in (main.py:309, 335-342); the host is None when only
    --alias was given. *)
Record config := mkConfig {
  c_host : option string; c_port : option Z; c_creds : option (string * string);
  c_hash : option string; c_timeout : Z; c_conn : params }.

(** _legacy_type_to_class, main.py:46-64; a KeyError for the two newer types *)
Definition legacy_class (t : ty) : option device_class :=
  match t with
  | TPlug => Some IotPlug | TSwitch => Some IotWallSwitch | TBulb => Some IotBulb
  | TDimmer => Some IotDimmer | TStrip => Some IotStrip | TLightStrip => Some IotLightStrip
  | TSmart | TCamera => None
  end.

(** What the tool does to the network, in order. *)
Inductive ev (D : Type) :=
  | Single (h : string) (port : option Z) (creds : option (string * string)) (timeout discovery : Z)
  | Broadcast (target : string) (port : option Z) (creds : option (string * string)) (timeout discovery : Z)
  | ByAlias (alias target : string) (creds : option (string * string))
  | Connect (c : config)
  | Update (d : D)
  | State (d : D)
  | Run (command : string) (d : D)
  | Disconnect (d : D).
Arguments Single {D}. Arguments Broadcast {D}. Arguments ByAlias {D}. Arguments Connect {D}.
Arguments Update {D}. Arguments State {D}. Arguments Run {D}. Arguments Disconnect {D}.

(** How the tool ends: error() exits with status 1 (common.py:57-60); a wrong combination of options
    is a click usage error; otherwise an exception or a normal end. *)
Inductive fin := Fine | Exit1 | Usage | Raise (e : exn).
Inductive step (A : Type) := Go (a : A) | Stop (f : fin).
Arguments Go {A}. Arguments Stop {A}.

(** The outside world: devices [D], the objects made for legacy types, and what each operation
    gives, which may depend on everything done so far; [w_orphan] is the exception of a command that
    is called without a device. *)
Record world (D : Type) := mkW {
  w_legacy : device_class -> config -> D;
  w_connect : list (ev D) -> config -> res D;
  w_single : list (ev D) -> string -> res (option D);
  w_broadcast : list (ev D) -> res (list (string * D));
  w_alias : list (ev D) -> string -> res (option D);
  w_update : list (ev D) -> D -> res unit;
  w_state : list (ev D) -> D -> res unit;
  w_run : list (ev D) -> string -> D -> res unit;
  w_disconnect : list (ev D) -> D -> res unit;
  w_orphan : string -> exn }.
Arguments w_legacy {D}. Arguments w_connect {D}. Arguments w_single {D}. Arguments w_broadcast {D}.
Arguments w_alias {D}. Arguments w_update {D}. Arguments w_state {D}. Arguments w_run {D}.
Arguments w_disconnect {D}. Arguments w_orphan {D}.

Section Tool.
Context {D : Type}.
Variable w : world D.
Definition P (A : Type) : Type := list (ev D) -> list (ev D) * step A.
Definition pret {A} (a : A) : P A := fun l => (l, Go a).
Definition pstop {A} (f : fin) : P A := fun l => (l, Stop f).
Definition pbind {A B} (m : P A) (f : A -> P B) : P B := fun l =>
  let (l', r) := m l in match r with Go a => f a l' | Stop x => (l', Stop x) end.
(** An operation: it is logged, then gives its result or raises. *)
Definition act {A} (e : ev D) (r : list (ev D) -> res A) : P A := fun l =>
  (l ++ [e], match r l with Ok a => Go a | Err x => Stop (Raise x) end).
Definition update (d : D) : P unit := act (Update d) (fun l => w_update w l d).
Definition state (d : D) : P unit := act (State d) (fun l => w_state w l d).
Definition disconnect (d : D) : P unit := act (Disconnect d) (fun l => w_disconnect w l d).

(** print_discovered of discover detail, cli/discover.py:84-100.  What is printed about a device
    that refuses the login is left out. *)
Definition print_discovered (d : D) : P unit := fun l =>
  let (l', r) := update d l in
  match r with
  | Stop (Raise (KAuth _)) => (l', Go tt)
  | Stop x => (l', Stop x)
  | Go _ => state d l'
  end.
(** Credentials(username, password) if username and password else None, discover.py:205; the same as
    main.py:287-292, where either both or none are given (282-285). *)
Definition account (o : opts) : option (string * string) :=
  match o_user o, o_password o with
  | Some u, Some p => if String.eqb u "" || String.eqb p "" then None else Some (u, p)
  | _, _ => None
  end.
(** _discover, discover.py:188-238, for detail.  The callbacks of a broadcast run as tasks (C20) and
    are left out here. *)
Definition _discover (o : opts) (root : bool) : P (list (string * D)) :=
  match o_host o with
  | Some h =>
      if String.eqb h "" then
        act (Broadcast (o_target o) (o_port o) (account o) (o_timeout o) (o_discovery o)) (w_broadcast w)
      else
        pbind (act (Single h (o_port o) (account o) (o_timeout o) (o_discovery o)) (fun l => w_single w l h))
          (fun d => match d with
                    | None => pret []
                    | Some d => pbind (if root then print_discovered d else pret tt) (fun _ => pret [(h, d)])
                    end)
  | None => act (Broadcast (o_target o) (o_port o) (account o) (o_timeout o) (o_discovery o)) (w_broadcast w)
  end.
(** _close_protocols, discover.py:44-51 *)
Fixpoint close_all (l : list (string * D)) : P unit :=
  match l with [] => pret tt | (_, d) :: l => pbind (disconnect d) (fun _ => close_all l) end.
(** _discover_is_root_cmd, discover.py:54-59 *)
Definition is_root (o : opts) : bool := match o_sub o with None => true | Some s => String.eqb s "discover" end.
(** The discover group without a command of its own, discover.py:36-51 *)
Definition discover (o : opts) : P (list (string * D)) :=
  pbind (_discover o (is_root o))
    (fun found => pbind (if is_root o then close_all found else pret tt) (fun _ => pret found)).

(** discovered[host], main.py:364 *)
Definition pick (o : opts) (found : list (string * D)) : P D :=
  match o_host o with
  | Some h => match find (fun x => String.eqb (fst x) h) found with Some (_, d) => pret d | None => pstop (Raise PyKeyError) end
  | None => pstop (Raise PyKeyError)
  end.
(** How the device is made, main.py:303-365: the device, whether it is up to date and whether it was
    discovered. *)
Definition smart_config (o : opts) : option config :=
  let camera := match o_type o with Some TCamera => true | _ => false end in
  let fam := if camera then "SMART.IPCAMERA" else o_family o in
  let enc := if camera then Aes else match o_enc o with Some e => e | None => Klap end in
  match family_of (JStr fam) with
  | None => None
  | Some f =>
      Some (mkConfig (o_host o) (o_port o)
              (account o) (o_hash o) (o_timeout o)
              (mkParams f enc (Some (if camera then 2 else o_login o)) (if camera then true else o_https o) None))
  end.
Definition make (o : opts) : P (option (D * bool * bool)) :=
  let direct :=
    match smart_config o with
    | None => pstop (Raise PyValueError)
    | Some c => pbind (act (Connect c) (fun l => w_connect w l c)) (fun d => pret (Some (d, true, false)))
    end in
  match o_type o with
  | Some TSmart | Some TCamera => direct
  | Some t =>
      match legacy_class t with
      | Some cls => pret (Some (w_legacy w cls (mkConfig (o_host o) (o_port o) None None (o_timeout o) default_params), false, false))
      | None => pstop (Raise PyKeyError)
      end
  | None =>
      if negb (String.eqb (o_family o) "") && is_some (o_enc o) then direct
      else if given_str (o_alias o) then
        match o_alias o with
        | None => pret None
        | Some a =>
            pbind (act (ByAlias a (o_target o) (account o)) (fun l => w_alias w l a))
              (fun d => pret (match d with Some d => Some (d, true, false) | None => None end))
        end
      else
        pbind (discover o) (fun found =>
          match found with
          | [] => pstop Exit1
          | _ => pbind (pick o found) (fun d => pret (Some (d, false, true)))
          end)
  end.

(** The rest of the program: the state when no command is given, else the command; the context then
    disconnects the device whatever happened, main.py:372-387. *)
Definition use (o : opts) (d : D) (discovered : bool) : P unit := fun l =>
  let body := match o_sub o with
              | None => if discovered then pret tt else state d
              | Some s => act (Run s d) (fun l => w_run w l s d)
              end in
  let (l', r) := body l in
  let (l'', r') := disconnect d l' in
  (l'', match r' with Stop x => Stop x | Go _ => r end).

(** cli, main.py:228-387, followed by the command it was called for *)
Definition cli (o : opts) : P unit :=
  if o_help o then pret tt                                                     (* 250-253 *)
  else if negb (String.eqb (o_target o) DEFAULT_TARGET) && given_str (o_host o) then pstop Exit1   (* 255-256 *)
  else if match o_sub o with Some s => String.eqb s "discover" | None => false end then
    pbind (discover o) (fun _ => pret tt)                                      (* 276-277 *)
  else if is_some (o_alias o) && is_some (o_host o) then pstop Usage           (* 279-280 *)
  else if xorb (given_str (o_password o)) (given_str (o_user o)) then pstop Usage   (* 282-285 *)
  else if negb (is_some (o_host o)) && negb (is_some (o_alias o)) then
    (if is_some (o_sub o) then pstop Exit1                                     (* 295-296 *)
     else pbind (discover o) (fun _ => pret tt))                               (* 298-301 *)
  else
    pbind (make o) (fun r =>
      match r with
      | None =>                                                                (* 353-355 *)
          match o_sub o with
          | None => pret tt
          | Some s => pstop (Raise (w_orphan w s))     (* ctx.obj is still None *)
          end
      | Some (d, updated, discovered) =>
          let skip := match o_sub o with Some s => existsb (String.eqb s) SKIP_UPDATE_COMMANDS | None => false end in
          pbind (if negb skip && negb updated then update d else pret tt)      (* 369-370 *)
            (fun _ => use o d discovered)
      end).
End Tool.

(** ** discover config, discover.py:241-286: the options it prints for a connection that worked.
    The login version is not among them. *)
Record printed := mkPrinted { p_family : string; p_enc : string; p_https : bool }.
Definition printed_options (p : params) : printed := mkPrinted (family_value (family_ p)) (enc_value (enc_ p)) (https p).

(** ** find_dev_from_alias, discover.py:341-385 *)
(** An answer to a discovery: the host, the device, what its update gives and the alias it then has.
    Answers are listed in the order in which they are handled; closing does not raise. *)
Record answer (D : Type) := mkAnswer { n_host : string; n_dev : D; n_update : res unit; n_alias : option string }.
Arguments n_host {D}. Arguments n_dev {D}. Arguments n_update {D}. Arguments n_alias {D}. Arguments mkAnswer {D}.
Inductive search (D : Type) := Found (d : D) | Missing | Waits.
Arguments Found {D}. Arguments Missing {D}. Arguments Waits {D}.
(** dev.alias.lower() == alias.lower(), ASCII only *)
Definition same_name (a b : string) : bool := String.eqb (lower a) (lower b).
(** on_discovered, 353-369, for the answers of one round: the hosts seen and the first match *)
Fixpoint on_discovered {D} (alias : string) (seen : list string) (l : list (answer D)) : list string * option D :=
  match l with
  | [] => (seen, None)
  | a :: l =>
      if existsb (String.eqb (n_host a)) seen then on_discovered alias seen l
      else
        let seen := n_host a :: seen in
        match n_update a with
        | Err _ => on_discovered alias seen l
        | Ok _ =>
            match n_alias a with
            | None => on_discovered alias seen l
            | Some n => if negb (String.eqb n "") && same_name n alias then (seen, Some (n_dev a)) else on_discovered alias seen l
            end
        end
  end.
(** do_discover and the waiting caller, 371-385.  Round [i] gives [net i]: the answers, and how
    Discover.discover ended.  When it raises, the task ends without setting the event and the caller
    waits for ever. *)
Fixpoint do_discover {D} (alias : string) (net : nat -> list (answer D) * res unit) (i n : nat) (seen : list string) : search D :=
  match n with
  | O => Missing
  | S n =>
      let (seen, found) := on_discovered alias seen (fst (net i)) in
      match found with
      | Some d => Found d
      | None => match snd (net i) with Ok _ => do_discover alias net (S i) n seen | Err _ => Waits end
      end
  end.
Definition find_dev_from_alias {D} (alias : string) (attempts : nat) (net : nat -> list (answer D) * res unit) : search D :=
  do_discover alias net 0 (attempts - 1) [].       (* range(1, attempts) *)

(** Updates of one legacy device object that overlap.  Models IotDevice.update and
    _modular_update (kasa/iot/iotdevice.py:302-329, 395-434) as coroutines: queries of
    one device object exclude each other (the lock of iotprotocol.py:76-83), and after a
    query a coroutine goes on to its next query without giving up control; so a step is
    one query together with all that follows it up to the next one.  The splitting into
    queries and the merging of the replies are those of [Iot_Model].  No proofs. *)
From Verif Require Import Base Py Iot_Model.
Open Scope string_scope.
Open Scope list_scope.
Open Scope Z_scope.

(** A module: the key of its replies, its estimated size (iotmodule.py:42-49), the
    commands of its query (arguments are left out), and, for a module without a query,
    whether it is supported (iotmodule.py:69-76, led.py:34-37). *)
Record imodule := mkM { m_name : string; m_size : Z; m_cmds : list string; m_flag : bool }.
(** is_supported, iotmodule.py:69-76 *)
Definition supported (m : imodule) (u : dict (dict json)) : bool :=
  match m_cmds m with [] => m_flag m | _ => is_supported (m_name m) u end.
(** query(), e.g. rulemodule.py:61-64, time.py:18-23 *)
Definition query_of (m : imodule) : json :=
  match m_cmds m with [] => JObj [] | cs => JObj [(m_name m, JObj (map (fun c => (c, JObj [])) cs))] end.

(** The device: for every module it knows, its answer to each command. *)
Definition device := string -> option (string -> json).
(** The reply to a request; a module the device does not know is answered with an error
    in its place. *)
Definition answer_of (m : option (string -> json)) (cmds : json) : json :=
  match m, cmds with
  | None, _ => JObj [("err_code", JInt (-1)); ("err_msg", JStr "module not support")]
  | Some f, JObj cs => JObj (map (fun c => (fst c, f (fst c))) cs)
  | Some _, _ => JObj []
  end.
Definition reply_to (w : device) (request : json) : dict json :=
  match request with JObj d => map (fun kv => (fst kv, answer_of (w (fst kv)) (snd kv))) d | _ => [] end.

(** An update under way: it waits for the sysinfo of the initial query, or it has
    requests still to be made and the replies to those made. *)
Inductive phase := First | Asking (todo : list json) (got : list (dict json)).
(** The device object (its _last_update, its modules, max_device_response_size), the
    device, the updates under way, and the updates that have returned.  The updates under
    way are in the order in which they wait for the lock, which is first come first served
    (asyncio.Lock); the query of the first one is in progress.  Calls are told apart by
    numbers; a number in use is not given to another call. *)
Record sys := mkSys { s_lu : dict (dict json); s_mods : list imodule; s_limit : Z; s_world : device;
                      s_ups : list (nat * phase); s_done : list nat }.
Definition remove {A} (i : nat) (l : list (nat * A)) : list (nat * A) := filter (fun x => negb (Nat.eqb i (fst x))) l.
Definition under_way {A} (i : nat) (l : list (nat * A)) : bool := existsb (fun x => Nat.eqb i (fst x)) l.

(** iotdevice.py:307-308 *)
Definition base : json := create_request "system" "get_sysinfo" None None.
(** The requests of an update, iotdevice.py:397-417 *)
Definition plan (s : sys) : res (list json) :=
  requests (s_limit s) base (map (fun m => mkImod (supported m (s_lu s)) (m_size m) (query_of m)) (s_mods s)).
Definition with_ups (s : sys) (l : list (nat * phase)) : sys := mkSys (s_lu s) (s_mods s) (s_limit s) (s_world s) l (s_done s).
Definition with_lu (s : sys) (u : dict (dict json)) : sys := mkSys u (s_mods s) (s_limit s) (s_world s) (s_ups s) (s_done s).
(** iotdevice.py:397-417 up to the first query; an error of the planning is raised *)
Definition start (id : nat) (s : sys) : sys :=
  match plan s with Ok rs => with_ups s (s_ups s ++ [(id, Asking rs [])]) | Err _ => s end.
(** iotdevice.py:419-434, 324; the update returns.  The hooks of the modules (325-326)
    are left out. *)
Definition finish (id : nat) (got : list (dict json)) (s : sys) : sys :=
  mkSys (merge_replies (s_lu s) got) (s_mods s) (s_limit s) (s_world s) (s_ups s) (id :: s_done s).

Inductive event :=
| EBegin (id : nat)                  (* update() is called *)
| EAnswer (ok : bool)                (* the query in progress ends, with a reply or an exception *)
| ECancel (id : nat)                 (* an update under way is cancelled *)
| EDevice (w : device).              (* the device changes: by a setter, by itself or through someone else *)

Definition step (s : sys) (e : event) : sys :=
  match e with
  | EBegin id =>
      if under_way id (s_ups s) then s
      else match s_lu s with [] => with_ups s (s_ups s ++ [(id, First)]) | _ => start id s end      (* 310-313 *)
  | EAnswer ok =>
      match s_ups s with
      | [] => s
      | (id, p) :: rest =>
          let s := with_ups s rest in
          if negb ok then s                                    (* the exception ends the update *)
          else match p with
          | First => start id (with_lu s (merge_replies [] [reply_to (s_world s) base]))     (* 315-322 *)
          | Asking [] got => finish id got s
          | Asking [r] got => finish id (got ++ [reply_to (s_world s) r]) s
          | Asking (r :: todo) got => with_ups s (rest ++ [(id, Asking todo (got ++ [reply_to (s_world s) r]))])
          end
      end
  | ECancel id => with_ups s (remove id (s_ups s))
  | EDevice w => mkSys (s_lu s) (s_mods s) (s_limit s) w (s_ups s) (s_done s)
  end.
Definition run (s : sys) (es : list event) : sys := fold_left step es s.

(** The modules of a bulb in the order in which they are added (iotdevice.py:331-337,
    iotbulb.py:214-229; the names and sizes of usage.py:13-30, rulemodule.py:61-64,
    time.py:18-23, cloud.py:52-54).  Light and LightPreset have no query. *)
Definition bulb_modules : list imodule :=
  [mkM "smartlife.iot.common.emeter" 2048 ["get_realtime"; "get_daystat"; "get_monthstat"] true;
   mkM "smartlife.iot.common.schedule" 256 ["get_rules"; "get_next_action"] true;
   mkM "smartlife.iot.common.schedule" 2048 ["get_realtime"; "get_daystat"; "get_monthstat"] true;
   mkM "smartlife.iot.common.anti_theft" 256 ["get_rules"; "get_next_action"] true;
   mkM "smartlife.iot.common.timesetting" 256 ["get_time"; "get_timezone"] true;
   mkM "countdown" 256 ["get_rules"; "get_next_action"] true;
   mkM "smartlife.iot.common.cloud" 256 ["get_info"] true;
   mkM "smartlife.iot.smartbulb.lightingservice" 256 [] true;
   mkM "smartlife.iot.smartbulb.lightingservice" 256 [] true].
(** max_device_response_size of a bulb, iotbulb.py:531-534 *)
Definition bulb_limit : Z := 4096.
(** The modules of a plug with an energy meter, iotplug.py:58-66, iotdevice.py:331-337,
    and the limit of every device that is not a bulb, iotdevice.py:699-701.  Led has no
    query. *)
Definition plug_modules : list imodule :=
  [mkM "emeter" 2048 ["get_realtime"; "get_daystat"; "get_monthstat"] true;
   mkM "schedule" 256 ["get_rules"; "get_next_action"] true;
   mkM "schedule" 2048 ["get_realtime"; "get_daystat"; "get_monthstat"] true;
   mkM "anti_theft" 256 ["get_rules"; "get_next_action"] true;
   mkM "time" 256 ["get_time"; "get_timezone"] true;
   mkM "cnCloud" 256 ["get_info"] true;
   mkM "system" 256 [] true].
Definition plug_limit : Z := 16 * 1024.

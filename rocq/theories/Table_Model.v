(** What the discover commands of the tool print about the devices that answer: detail,
    list and raw of kasa/cli/discover.py.  No proofs. *)
From Verif Require Import Base Py Redact_Model.
Open Scope string_scope.
Open Scope list_scope.

(** An answer that was understood: a device object was made, or an UnsupportedDeviceError
    with or without a host was raised (discover.py:338-396).  The address the datagram came
    from is given.  Answers that are neither (invalid ones) start no callback; an address
    that sent one of those first is not heard any more (C19) and left out here. *)
Inductive answer := Device (ip : string) | Unsupported (ip : string) (host : option string).
Definition ip_of (a : answer) : string := match a with Device ip => ip | Unsupported ip _ => ip end.

(** How a row of the list ends, cli/discover.py:161-171 *)
Inductive outcome := Named (alias : string) | AuthFailed | TimedOut | Failed (e : exn).
(** What is printed.  The columns of a row are given apart, not padded (cli/discover.py:155-159);
    the text of a part of the state is given with the address of the device. *)
Inductive line :=
| Row (ip model family encryption : string) (https : bool) (login : option Z) (o : outcome)
| NotSupported (host : string)                       (* list, cli/discover.py:173-175 *)
| UnsupportedBlock (ip : string)                     (* detail, 69-79 *)
| Part (ip text : string)                            (* detail, 97-99 *)
| Refused (ip : string)                              (* detail, 90-95 *)
| Counts (devices unsupported refused : nat).        (* detail, 109-113; zero counts are not printed *)

Inductive cmd := Detail | Listing.

(** ** The callbacks *)
Section Network.
(** Each device is updated once: [update] is what comes of that and, if it works, its name.
    [model] is what reading the model of the object that was just made gives, [conn] its
    connection parameters, [state] what the state command prints and how it ends. *)
Context (model : string -> res string) (conn : string -> string * string * bool * option Z)
        (update : string -> res string) (state : string -> list string * option exn).

(** A callback task: not yet at the semaphore or waiting for it ([begun]), within it and
    waiting for the update, within it and printing, or done. *)
Inductive stage := Queued (begun : bool) | Updating | Printing (left : list string) | Ended (r : res unit).
Record task := mkTask { t_answer : answer; t_stage : stage }.
Record st := mkSt {
  tasks : list task;             (* callback_tasks, discover.py:282-284 *)
  holder : option nat;           (* who is within the semaphore *)
  out : list line;
  unsupported : nat;             (* len(unsupported), cli/discover.py:66, 71 *)
  auth_failed : nat;             (* len(auth_failed), 67, 92 *)
  waited : option nat;           (* once the sending has ended: how many tasks are waited for, discover.py:302 *)
  over : option (res unit) }.    (* the end of the command *)
Definition init : st := mkSt [] None [] 0 0 None None.

Definition set_stage (i : nat) (g : stage) (l : list task) : list task :=
  firstn i l ++ match skipn i l with t :: l => mkTask (t_answer t) g :: l | [] => [] end.

Definition row (ip m : string) (o : outcome) : line :=
  let '(family, encryption, https, login) := conn ip in Row ip m family encryption https login o.
(** The except clauses of list, cli/discover.py:161-171; None: the exception is none of
    Exception *)
Definition outcome_of (r : res string) : option outcome :=
  match r with
  | Ok alias => Some (Named alias)
  | Err (KAuth _) => Some AuthFailed
  | Err KTimeout => Some TimedOut
  | Err PyTimeout => Some TimedOut
  | Err Cancelled => None
  | Err e => Some (Failed e)
  end.

(** Events: an answer comes in; task [i] gets its turn (at its start, or when the semaphore
    is free again); the update of task [i] ends; task [i] goes on printing; the sending
    ends; the command goes on after it. *)
Inductive event := Answer (a : answer) | Run (i : nat) | Updated (i : nat) | Print (i : nat) | SendingEnds | Return.

(** print_unsupported, cli/discover.py:70-81 (detail), 173-175 (list), and the start of
    print_discovered, 85-88 (detail), 153-160 (list) *)
Definition run_task (c : cmd) (i : nat) (t : task) (s : st) : st :=
  match t_stage t with
  | Queued begun =>
      match c, t_answer t with
      | Listing, Unsupported _ host =>
          mkSt (set_stage i (Ended (Ok tt)) (tasks s)) (holder s)
               (out s ++ match host with Some h => if String.eqb h "" then [] else [NotSupported h] | None => [] end)
               (unsupported s) (auth_failed s) (waited s) (over s)
      | Listing, Device ip =>
          match model ip, holder s with
          | Err e, _ => mkSt (set_stage i (Ended (Err e)) (tasks s)) (holder s) (out s) (unsupported s) (auth_failed s) (waited s) (over s)
          | Ok _, Some _ => s
          | Ok _, None => mkSt (set_stage i Updating (tasks s)) (Some i) (out s) (unsupported s) (auth_failed s) (waited s) (over s)
          end
      | Detail, Unsupported ip _ =>
          let n := if begun then unsupported s else S (unsupported s) in
          match holder s with
          | Some _ => mkSt (set_stage i (Queued true) (tasks s)) (holder s) (out s) n (auth_failed s) (waited s) (over s)
          | None => mkSt (set_stage i (Ended (Ok tt)) (tasks s)) None (out s ++ [UnsupportedBlock ip]) n (auth_failed s) (waited s) (over s)
          end
      | Detail, Device _ =>
          match holder s with
          | Some _ => s
          | None => mkSt (set_stage i Updating (tasks s)) (Some i) (out s) (unsupported s) (auth_failed s) (waited s) (over s)
          end
      end
  | _ => s
  end.
(** The rest of print_discovered: the update has ended, cli/discover.py:88-100 (detail),
    161-171 (list) *)
Definition updated (c : cmd) (i : nat) (t : task) (s : st) : st :=
  match t_stage t, t_answer t with
  | Updating, Device ip =>
      match c with
      | Listing =>
          match outcome_of (update ip), model ip with
          | Some o, Ok m => mkSt (set_stage i (Ended (Ok tt)) (tasks s)) None (out s ++ [row ip m o]) (unsupported s) (auth_failed s) (waited s) (over s)
          | _, _ => mkSt (set_stage i (Ended (Err Cancelled)) (tasks s)) None (out s) (unsupported s) (auth_failed s) (waited s) (over s)
          end
      | Detail =>
          match update ip with
          | Ok _ => mkSt (set_stage i (Printing (fst (state ip))) (tasks s)) (holder s) (out s) (unsupported s) (auth_failed s) (waited s) (over s)
          | Err (KAuth _) =>
              mkSt (set_stage i (Ended (Ok tt)) (tasks s)) None (out s ++ [Refused ip; Part ip ""]) (unsupported s) (S (auth_failed s)) (waited s) (over s)
          | Err e => mkSt (set_stage i (Ended (Err e)) (tasks s)) None (out s) (unsupported s) (auth_failed s) (waited s) (over s)
          end
      end
  | _, _ => s
  end.
(** The state command goes on, cli/discover.py:97-100 *)
Definition print (i : nat) (t : task) (s : st) : st :=
  match t_stage t, t_answer t with
  | Printing (x :: l), Device ip =>
      mkSt (set_stage i (Printing l) (tasks s)) (holder s) (out s ++ [Part ip x]) (unsupported s) (auth_failed s) (waited s) (over s)
  | Printing [], Device ip =>
      match snd (state ip) with
      | None => mkSt (set_stage i (Ended (Ok tt)) (tasks s)) None (out s ++ [Part ip ""]) (unsupported s) (auth_failed s) (waited s) (over s)
      | Some e => mkSt (set_stage i (Ended (Err e)) (tasks s)) None (out s) (unsupported s) (auth_failed s) (waited s) (over s)
      end
  | _, _ => s
  end.
(** gather, discover.py:302: the failure of a task is raised at once (of several, the one
    first in the list; the code raises the one first in time) *)
Fixpoint gathered (l : list task) : option (res unit) :=
  match l with
  | [] => Some (Ok tt)
  | t :: l =>
      match t_stage t, gathered l with
      | Ended (Err e), _ => Some (Err e)
      | _, Some (Err e) => Some (Err e)
      | Ended (Ok _), r => r
      | _, _ => None
      end
  end.
Definition is_device (t : task) : bool := match t_answer t with Device _ => true | _ => false end.

Definition step (c : cmd) (s : st) (e : event) : st :=
  match over s with
  | Some _ => s                                                     (* the command has ended *)
  | None =>
      match e with
      | Answer a =>                                                 (* discover.py:348-352, 282-284 *)
          if existsb (fun t => String.eqb (ip_of (t_answer t)) (ip_of a)) (tasks s) then s
          else mkSt (tasks s ++ [mkTask a (Queued false)]) (holder s) (out s) (unsupported s) (auth_failed s) (waited s) (over s)
      | Run i => match nth_error (tasks s) i with Some t => run_task c i t s | None => s end
      | Updated i => match nth_error (tasks s) i with Some t => updated c i t s | None => s end
      | Print i => match nth_error (tasks s) i with Some t => print i t s | None => s end
      | SendingEnds =>
          match waited s with
          | Some _ => s
          | None => mkSt (tasks s) (holder s) (out s) (unsupported s) (auth_failed s) (Some (List.length (tasks s))) (over s)
          end
      | Return =>
          match waited s with
          | None => s
          | Some n =>
              match gathered (firstn n (tasks s)) with
              | None => s
              | Some r =>
                  mkSt (tasks s) (holder s)
                       (out s ++ match c, r with
                                 | Detail, Ok _ => [Counts (List.length (filter is_device (tasks s))) (unsupported s) (auth_failed s)]
                                 | _, _ => []
                                 end)
                       (unsupported s) (auth_failed s) (waited s) (Some r)
              end
          end
      end
  end.
Definition after (c : cmd) (es : list event) : st := fold_left (step c) es init.
End Network.

(** ** raw, cli/discover.py:118-143 *)
(** lambda x: {**x, "key": "", "data": ""}, discover.py:187 *)
Definition empty_encrypt_info (v : json) : res json :=
  match v with
  | JObj d => Ok (JObj (dset "data" (JStr "") (dset "key" (JStr "") d)))
  | _ => Err PyTypeError
  end.
(** DECRYPTED_REDACTORS, discover.py:173-177 *)
Definition decrypted_redactors : redactors :=
  [("connect_ssid", Some (const_if "#MASKED_SSID#")); ("device_id", Some keep_tail); ("owner", Some keep_tail)].
(** NEW_DISCOVERY_REDACTORS, discover.py:179-190 *)
Definition new_discovery_redactors : redactors :=
  [("device_id", Some keep_tail);
   ("device_name", Some (const_if "#MASKED_NAME#"));
   ("owner", Some keep_tail);
   ("mac", Some mac_redactor);
   ("master_device_id", Some keep_tail);
   ("group_id", Some keep_tail);
   ("group_name", Some (const (JStr "I01BU0tFRF9TU0lEIw==")));
   ("encrypt_info", Some empty_encrypt_info);
   ("ip", Some keep);
   ("decrypted_data", Some (fun v => Ok (redact_data decrypted_redactors v)))].
Definition DISCOVERY_PORT_2 : Z := 20002.                       (* discover.py:424 *)
(** print_raw, cli/discover.py:130-141: the JSON value whose text is printed *)
Definition print_raw (redact : bool) (ip : string) (port : Z) (info : json) : json :=
  let info := if redact then
                redact_data (if (port =? DISCOVERY_PORT_2)%Z then new_discovery_redactors else iot_redactors) info
              else info in
  JObj [("discovery_response", info); ("meta", JObj [("ip", JStr ip); ("port", JInt port)])].

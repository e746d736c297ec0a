(** Updates and setters of one SMART device object that overlap.  Models
    SmartDevice.update after the first one (kasa/smart/smartdevice.py:261-365),
    _handle_modular_update_error (379-417) and allow_update_after
    (kasa/smart/smartmodule.py:23-39) as coroutines.  Queries of one device object
    exclude each other (the lock of smartprotocol.py:121-124), and after a query a
    coroutine goes on to its next query without giving up control; so a step is one
    query together with all that follows it up to the next one.  Simplification: a
    query of several methods sees one state of the device.  No proofs. *)
From Verif Require Import Base Py Smod_Model.
Open Scope string_scope.
Open Scope list_scope.
Open Scope Z_scope.

(** An update under way: when it began, the modules it asks, its methods, and, once
    the common query failed, the methods still to be asked one by one and the
    replies so far *)
Record upd := mkUpd { u_now : Z; u_asked : list string; u_req : list string; u_single : option (list string * dict reply) }.
(** The device object, what the device would answer to each method, the updates
    under way, and the setters under way with the module they belong to.  Calls are
    told apart by numbers; a number in use is not given to another call. *)
Record sys := mkSys { s_dev : dev; s_world : string -> reply; s_ups : list (nat * upd); s_sets : list (nat * string) }.
Definition set_dev s x := mkSys x (s_world s) (s_ups s) (s_sets s).
Definition set_ups s x := mkSys (s_dev s) (s_world s) x (s_sets s).

Fixpoint lookup {A} (i : nat) (l : list (nat * A)) : option A :=
  match l with
  | [] => None
  | (j, x) :: l => if Nat.eqb i j then Some x else lookup i l
  end.
Definition remove {A} (i : nat) (l : list (nat * A)) : list (nat * A) :=
  filter (fun x => negb (Nat.eqb i (fst x))) l.

(** smartdevice.py:269-271, 325-340: the time is taken and the modules are chosen *)
Definition begin_update (now : Z) (d : dev) : upd :=
  let l := planned (hub_child d) false now (mods d) in
  mkUpd now (map (fun x => m_name (fst (fst x))) (filter (fun x => snd x) l)) (request (map (fun x => (fst (fst x), snd x)) l)) None.
(** smartdevice.py:355-363: the replies are merged and the modules are processed.
    Their states are those of now, not those of the beginning. *)
Definition finish (u : upd) (resp : dict reply) (d : dev) : dev :=
  let d := set_lu d (dupdate (lu d) resp) in
  match try_get "get_device_info" resp with
  | Err _ => d
  | Ok i =>
      let d := set_info d i in
      set_mods d (map (fun ms : smod * mstate =>
        (fst ms, post_update (hook_ok (fst ms) (lu d) None i) (smem (m_name (fst ms)) (u_asked u)) (u_now u) (snd ms))) (mods d))
  end.

Inductive event :=
| EBegin (id : nat) (now : Z)                      (* update() is called *)
| EAnswer (id : nat) (ok : bool)                   (* the query of an update ends *)
| ECall (id : nat) (m : string)                    (* a marked setter of a module is called *)
| EEffect (id : nat) (k : string) (r : reply)      (* a query of that setter changes the device *)
| EReturn (id : nat)                               (* the setter ends, with a result or an exception *)
| EOutside (k : string) (r : reply).               (* the device changes by itself or through someone else *)

Definition change (w : string -> reply) (k : string) (r : reply) : string -> reply :=
  fun x => if String.eqb x k then r else w x.

(** One query of an update and what follows it *)
Definition answer (id : nat) (ok : bool) (s : sys) : sys :=
  match lookup id (s_ups s) with
  | None => s
  | Some u =>
      match u_single u with
      | None =>
          if ok then
            let resp := map (fun k => (k, s_world s k)) (u_req u) in
            set_ups (set_dev s (finish u resp (s_dev s))) (remove id (s_ups s))
          else
            match u_req u with
            | [] => set_ups (set_dev s (finish u [] (s_dev s))) (remove id (s_ups s))
            | _ => set_ups s ((id, mkUpd (u_now u) (u_asked u) (u_req u) (Some (u_req u, []))) :: remove id (s_ups s))
            end
      | Some ([], got) => set_ups (set_dev s (finish u got (s_dev s))) (remove id (s_ups s))
      | Some (k :: todo, got) =>
          let got := got ++ [(k, if ok then s_world s k else RErr INTERNAL)] in
          match todo with
          | [] => set_ups (set_dev s (finish u got (s_dev s))) (remove id (s_ups s))
          | _ => set_ups s ((id, mkUpd (u_now u) (u_asked u) (u_req u) (Some (todo, got))) :: remove id (s_ups s))
          end
      end
  end.

Definition step (s : sys) (e : event) : sys :=
  match e with
  | EBegin id now =>
      match lookup id (s_ups s) with
      | Some _ => s
      | None => set_ups s ((id, begin_update now (s_dev s)) :: s_ups s)
      end
  | EAnswer id ok => answer id ok s
  | ECall id m =>
      match lookup id (s_sets s) with
      | Some _ => s
      | None => mkSys (s_dev s) (s_world s) (s_ups s) ((id, m) :: s_sets s)
      end
  | EEffect id k r =>
      match lookup id (s_sets s) with
      | Some _ => mkSys (s_dev s) (change (s_world s) k r) (s_ups s) (s_sets s)
      | None => s
      end
  | EReturn id =>
      match lookup id (s_sets s) with
      | Some m => mkSys (call_setter m (s_dev s)) (s_world s) (s_ups s) (remove id (s_sets s))
      | None => s
      end
  | EOutside k r => mkSys (s_dev s) (change (s_world s) k r) (s_ups s) (s_sets s)
  end.
Definition run (s : sys) (es : list event) : sys := fold_left step es s.
Definition quiet (d : dev) (w : string -> reply) : sys := mkSys d w [] [].

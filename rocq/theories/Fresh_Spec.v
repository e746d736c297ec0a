(** Specification: what an object that was not yet updated may show. *)
From Verif Require Import Base Py Fresh_Model.
Open Scope string_scope.
Open Scope list_scope.

(** The full answer to a legacy discovery: the system information [d] *)
Definition full_answer (info : json) (d : dict json) : Prop :=
  exists i s, info = JObj i /\ dget "system" i = Some (JObj s) /\ dget "get_sysinfo" s = Some (JObj d) /\ d <> [].
(** The system information of cameras is inside another one *)
Definition plain (d : dict json) : Prop := dget "system" d = None.
(** The short answer to the newer discovery: neither system information nor anything that
    is called like a property of the object other than its model, address and id *)
Definition short_answer (d : dict json) : Prop :=
  dget "system" d = None /\
  forall k, In k ["is_on"; "rssi"; "hw_info"; "time"; "sys_info"; "modules"; "light_state"] -> dget k d = None.
(** A socket that is on according to the system information *)
Definition socket_on (d : dict json) (id : string) : Prop :=
  exists l c v, dget "children" d = Some (JArr l) /\ In (JObj c) l /\ dget "id" c = Some (JStr id) /\ dget "state" c = Some v /\ truthy v = true.
(** The sockets of a strip: each has an id of its own and a state *)
Definition proper_sockets (d : dict json) : Prop :=
  exists l, dget "children" d = Some (JArr (map JObj l)) /\ NoDup (map (dget "id") l) /\
    forall c, In c l -> exists i v, dget "id" c = Some (JStr i) /\ dget "state" c = Some v.
(** What the system information of the device says about its being on *)
Definition says_on (k : kind) (d : dict json) (b : bool) : Prop :=
  match k with
  | KPlug => exists v, dget "relay_state" d = Some v /\ truthy v = b
  | KBulb => exists ls v, dget "light_state" d = Some (JObj ls) /\ dget "on_off" ls = Some v /\ truthy v = b
  | KStrip => if b then exists id, socket_on d id else forall id, ~ socket_on d id
  | KCamera => b = true
  end.

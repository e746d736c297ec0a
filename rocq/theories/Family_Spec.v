(** What the list of children of a hub says (C135). *)
From Verif Require Import Base Py Smod_Model.
Open Scope string_scope.
Open Scope list_scope.

(** The id in an entry of a list *)
Definition id_of (i : json) : option string :=
  match i with JObj d => match dget "device_id" d with Some (JStr x) => Some x | _ => None end | _ => None end.
(** The hub's replies (internal_state) hold the list of children [l] and that of their components [cs]. *)
Definition reports (replies : dict reply) (l cs : list json) : Prop :=
  (exists o, dget "get_child_device_list" replies = Some (RVal (JObj o)) /\ dget "child_device_list" o = Some (JArr l)) /\
  (exists o, dget "get_child_device_component_list" replies = Some (RVal (JObj o)) /\ dget "child_component_list" o = Some (JArr cs)).
Definition has (l : list json) (x : string) : Prop := exists i, In i l /\ id_of i = Some x.
(** [i] is the last entry for [x]. *)
Definition last_entry (l : list json) (x : string) (i : json) : Prop :=
  exists before after, l = before ++ i :: after /\ id_of i = Some x /\ ~ has after x.
(** Every entry is an object; those of components have an id. *)
Definition objects (l : list json) : Prop := forall i, In i l -> exists d, i = JObj d.
Definition with_ids (l : list json) : Prop := forall i, In i l -> exists d v, i = JObj d /\ dget "device_id" d = Some v.

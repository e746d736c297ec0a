(** Specification: camera hubs with their children over a protocol, a transport and a device (C157). *)
From Verif Require Import Base Py Smart_Model Smart_Spec Child_Spec Hub_Spec Smod_Model Whole_Spec WholeCam_Model Family_Spec CamHub_Model.
Open Scope string_scope.
Open Scope list_scope.
Open Scope Z_scope.

(** The hub's replies hold the list of children [l] and that of their components [cs]. *)
Definition hub_reports (replies : dict reply) (l cs : list json) : Prop :=
  (exists o, dget "getChildDeviceList" replies = Some (RVal (JObj o)) /\ dget "child_device_list" o = Some (JArr l)) /\
  (exists o, dget "getChildDeviceComponentList" replies = Some (RVal (JObj o)) /\ dget "child_component_list" o = Some (JArr cs)).

(** The children that are no cameras, and those that are, by the category in the hub's list *)
Definition of_category (i : json) (cats : list string) : Prop := exists d c, i = JObj d /\ dget "category" d = Some (JStr c) /\ In c cats.
Definition is_smart (i : json) : Prop := of_category i
  ["plug.powerstrip.sub-plug"; "subg.plugswitch.switch"; "subg.trigger.contact-sensor"; "subg.trigger.temp-hmdt-sensor";
   "subg.trigger.water-leak-sensor"; "subg.trigger.motion-sensor"; "kasa.switch.outlet.sub-fan"; "kasa.switch.outlet.sub-dimmer";
   "subg.trv"; "subg.trigger.button"].
Definition is_camera (i : json) : Prop := of_category i ["camera"].
(** The object is of the class that goes with the category. *)
Definition fits (i : json) (k : child) : Prop := match k with Dev _ => is_smart i | Camera _ _ => is_camera i end.
Definition same_class (k k' : child) : Prop := match k, k' with Dev _, Dev _ | Camera _ _, Camera _ _ => True | _, _ => False end.

(** The ids that are to have an object: those in both lists that had one, or whose category is known *)
Definition due (old : list string) (l cs : list json) (x : string) : Prop :=
  x <> "" /\ has cs x /\ (In x old /\ has l x \/ exists i, In i l /\ id_of i = Some x /\ (is_smart i \/ is_camera i)).

(** The names under which the objects of all devices have what a hub tells of a camera *)
Definition kid_name (k : string) : string :=
  match dget k [("device_model", "model"); ("sw_ver", "fw_ver"); ("hw_id", "hwId")] with Some n => n | None => k end.
(** [i] is [b], each entry under its common name; of two entries with one common name it has one *)
Definition renamed_info (b : dict json) (i : json) : Prop :=
  exists m, i = JObj m /\ dwf m /\
    (forall n v, dget n m = Some v -> exists k, dget k b = Some v /\ kid_name k = n) /\
    (forall k v, dget k b = Some v -> exists v', dget (kid_name k) m = Some v' /\
       ((forall k', dget k' b <> None -> kid_name k' = kid_name k -> k' = k) -> v' = v)).
(** The object has what the hub tells of the child. *)
Definition told_of (i : json) (k : child) : Prop :=
  match k with
  | Dev d => info d = i
  | Camera c p => p = i /\ exists b, i = JObj b /\ (dwf b -> renamed_info b (k_info c))
  end.
(** The replies an object has *)
Definition replies (k : child) : dict reply := match k with Dev d => lu d | Camera c _ => k_lu c end.

(** No child was asked for a method that is a container of others. *)
Definition modest (rs : list (string * option (dict json))) : Prop :=
  forall x req, In (x, Some req) rs -> ~ In "multipleRequest" (dkeys req).
(** What the objects have after children were asked as [rs] says: of those methods exactly what the child
    answers to them, and nothing else.  [kans id m p]: the answer of child [id] to the method [m] with the
    parameters [p]. *)
Definition kids_shown (kans : string -> string -> option json -> answer) (rs : list (string * option (dict json))) (kids : dict child) : Prop :=
  forall x req k, In (x, Some req) rs -> dget x kids = Some k ->
  forall m, dget m (replies k) = match dget m req with Some p => Some (shown (dkeys req) (entry_of (kans x m (given p)))) | None => None end.

(** The children that are new in the lists can be made objects of: those that are no cameras answer, and the
    components of those that are can be read. *)
Definition can_be_made (kans : string -> string -> option json -> answer) (str : json -> string) (int : json -> res Z)
    (kid_init : list string -> json -> res (list cmod)) (old : list string) (l cs : list json) : Prop :=
  forall i x, In i l -> id_of i = Some x -> ~ In x old ->
    (is_smart i -> exists j, kans x "get_connect_cloud_state" None = AResult j) /\
    (is_camera i -> forall c, In c cs -> id_of c = Some x -> exists o comps names, c = JObj o /\ dget "component_list" o = Some (JArr comps) /\
       Forall2 (fun c n => exists o name version z, c = JObj o /\ dget "name" o = Some name /\ str name = n /\
                           dget "version" o = Some version /\ int version = Ok z) comps names /\
       forall i, exists mods, kid_init names i = Ok mods).
(** What an update leaves of the children; [fine]: the hub's own part was *)
Definition camhub_shown kans str int kid_init (make : string -> dict json -> json -> dict reply -> res dev) (is_hub uc : bool)
    (old : dict child) (h' : chub) rs (out : res unit) (fine : Prop) : Prop :=
  kids_shown kans rs (h_kids h') /\
  forall l cs, hub_reports (k_lu (h_cam h')) l cs ->
    (fine -> objects l -> with_ids cs -> (forall x i c r, exists d, make x i c r = Ok d) ->
       can_be_made kans str int kid_init (dkeys old) l cs -> out = Ok tt) /\
    (out = Ok tt ->
       (forall x, In x (dkeys (h_kids h')) <-> due (dkeys old) l cs x) /\
       (forall x k, dget x (h_kids h') = Some k -> exists i, last_entry l x i /\ told_of i k) /\
       (forall x k, dget x (h_kids h') = Some k ->
          match dget x old with Some k0 => same_class k0 k | None => exists i, In i l /\ id_of i = Some x /\ fits i k end) /\
       ((is_hub = true -> uc = true) -> map fst rs = dkeys (h_kids h')) /\
       ((exists x, ~ (In x (dkeys (h_kids h')) <-> In x (dkeys old))) -> map fst rs = dkeys (h_kids h'))).

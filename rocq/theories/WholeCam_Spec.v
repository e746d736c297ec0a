(** Specification: camera objects over a protocol, a transport and a camera (C154). *)
From Verif Require Import Base Py Smart_Model Smart_Spec CamQuery_Spec Smod_Model Whole_Spec.
Open Scope string_scope.
Open Scope list_scope.
Open Scope Z_scope.

(** [v] is the complete value of the method at the camera, asked with the parameters [p]; the method is
    none of the two that are never put in batches, and none of the names of the camera's own format. *)
Definition cam_known (ans : string -> option json -> answer) (k : string) (p : json) (v : rval) : Prop :=
  ~ In k ["getConnectStatus"; "scanApList"; ""] /\ ~ In k own_format /\ cam_whole ans k p v.
(** What an object has for a method after it asked for the methods of [req]: what [shown] says of the
    value that the camera gives for the parameters with which it was asked, or what it [held] before *)
Definition has_after (req : dict json) (val : string -> json -> rval) (held : string -> option reply) (k : string) : option reply :=
  match dget k req with Some p => Some (shown (dkeys req) (val k p)) | None => held k end.

(** What is basic in the information that a camera gives *)
Definition tells (v : rval) (b : dict json) : Prop :=
  exists x y, v = RJson (JObj x) /\ dget "device_info" x = Some (JObj y) /\ dget "basic_info" y = Some (JObj b).
(** ... in what the object has of it *)
Definition gives (r : option reply) (b : dict json) : Prop :=
  exists x y, r = Some (RVal (JObj x)) /\ dget "device_info" x = Some (JObj y) /\ dget "basic_info" y = Some (JObj b).
(** The components a camera says it has, with names and versions that can be read *)
Definition lists (str : json -> string) (int : json -> res Z) (v : rval) (comps : list string) : Prop :=
  exists x y l, v = RJson (JObj x) /\ dget "app_component" x = Some (JObj y) /\ dget "app_component_list" y = Some (JArr l) /\
    Forall2 (fun c n => exists o name version z, c = JObj o /\ dget "name" o = Some name /\ str name = n /\
                          dget "version" o = Some version /\ int version = Ok z) l comps.
(** The names under which the objects of all devices have it *)
Definition common_name (k : string) : string :=
  match dget k [("device_model", "model"); ("device_alias", "alias"); ("sw_version", "fw_ver"); ("hw_version", "hw_ver"); ("hw_id", "hwId");
                ("dev_id", "device_id")] with
  | Some n => n
  | None => k
  end.
(** [i] is what the camera tells, each entry under its common name; of two entries with one common name
    it has one *)
Definition same_info (b : dict json) (i : json) : Prop :=
  exists m, i = JObj m /\ dwf m /\
    (forall n v, dget n m = Some v -> exists k, dget k b = Some v /\ common_name k = n) /\
    (forall k v, dget k b = Some v -> exists v', dget (common_name k) m = Some v' /\
       ((forall k', dget k' b <> None -> common_name k' = common_name k -> k' = k) -> v' = v)).
(** What a module of a camera that asks for the methods of [q] gives of what the object has: the section
    of the only reply, or the reply if it has no such section; or all replies; or the error of a method *)
Definition cam_presents (q : list string) (section : string) (has : string -> option reply) (v : res view) : Prop :=
  match q with
  | [] => True
  | [k] => match has k with
           | Some (RVal (JObj (e :: d))) => v = Ok (One (match dget section (e :: d) with Some x => x | None => JObj (e :: d) end))
           | Some (RErr c) => v = Err (KDevice (Some c))
           | _ => exists e, v = Err e
           end
  | _ => match v with
         | Ok (Many l) => dwf l /\ (forall k, dget k l = if in_dec string_dec k q then match has k with Some (RVal j) => Some j | _ => None end else None) /\
                          (forall k, In k q -> exists j, has k = Some (RVal j))
         | Ok (One _) => False
         | Err e => e = KKasa /\ (exists k, In k q /\ has k = None) \/ exists k c, e = KDevice (Some c) /\ In k q /\ has k = Some (RErr c)
         end
  end.

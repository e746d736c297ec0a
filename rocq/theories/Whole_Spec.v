(** Specification: device objects over a protocol, a transport and a device (C146). *)
From Verif Require Import Base Py Smart_Model Smart_Spec Smod_Model Whole_Model.
Open Scope string_scope.
Open Scope list_scope.
Open Scope Z_scope.

(** [v] is the complete value of the method at the device, asked with the parameters [p]; the two
    methods the protocol never puts in batches, and a method without a name, give it in one reply. *)
Definition known (ans : string -> option json -> answer) (k : string) (p : json) (v : rval) : Prop :=
  whole ans k (eff_params p) v /\ (In k ["getConnectStatus"; "scanApList"; ""] -> simple ans k (eff_params p) v).

(** What an object has for a method after it asked for the methods [req]: the value, or in the place
    of a value the device's error code, or a general one if the method was asked for alone. *)
Definition shown (req : list string) (v : rval) : reply :=
  match v with
  | RJson j => RVal j
  | RCode c => match req with [_] => RErr (-100001) | _ => RErr c end
  end.
Definition first_methods : list string := ["component_nego"; "get_device_info"; "get_connect_cloud_state"].
(** ... and for any method, [held] before *)
Definition then_shown (req : list string) (val : string -> rval) (held : string -> option reply) (k : string) : option reply :=
  if in_dec string_dec k req then Some (shown req (val k)) else held k.

(** The information of a device that gives it *)
Definition informs (v : rval) (i : json) : Prop := v = RJson i /\ i <> JNull.

(** An update of the object as an event of the histories of [Smod_Model], with some replies *)
Inductive as_event : use -> event -> Prop :=
| as_update n init now : as_event (UUpdate init now) (EUpdate n init now)
| as_setter x q : as_event (USetter x q) (ESetter x).
Definition as_obs (o : outcome) : obs := match o with DidUpdate first now r _ => OUpdate first now r | DidSet x _ => OSetter x end.

(** What a module gives of the values of the device *)
Definition presents (query optional : list string) (has : string -> option reply) (v : res view) : Prop :=
  match v with
  | Ok (One j) => exists k, has k = Some (RVal j) /\ forall x, In x query <-> x = k
  | Ok (Many l) => dwf l /\ (forall k, dget k l = if in_dec string_dec k query then match has k with Some (RVal j) => Some j | _ => None end else None) /\
                   (forall k c, In k query -> has k = Some (RErr c) -> In k optional)
  | Err e => exists k c, e = KDevice (Some c) /\ In k query /\ ~ In k optional /\ has k = Some (RErr c)
  end.

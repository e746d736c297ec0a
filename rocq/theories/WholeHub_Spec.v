(** Specification: hubs with their children over a protocol, a transport and a device (C148). *)
From Verif Require Import Base Py Smart_Model Smart_Spec Child_Model Child_Spec Hub_Spec Smod_Model Whole_Model Whole_Spec Family_Model Family_Spec.
Open Scope string_scope.
Open Scope list_scope.
Open Scope Z_scope.

(** No child was asked for a method that is a container of others. *)
Definition modest (rs : list (string * report)) : Prop :=
  forall x r req, In (x, r) rs -> requested r = Some req -> ~ In "multipleRequest" req.
(** What the children's objects have after children were asked as [rs] says: of those methods exactly
    what the child answers to them, and nothing else.  [kans id m p]: the answer of child [id] to the
    method [m] with the parameters [p]. *)
Definition kids_shown (kans : string -> string -> option json -> answer) (kpar : string -> string -> json)
    (rs : list (string * report)) (kids : dict dev) : Prop :=
  forall x r req k, In (x, r) rs -> requested r = Some req -> dget x kids = Some k ->
  forall m, dget m (lu k) = if in_dec string_dec m req then Some (shown req (entry_of (kans x m (given (kpar x m))))) else None.
(** Every query of the program meets [P], whatever it is answered. *)
Fixpoint always {A R} (P : A -> Z -> Prop) (p : prog A R) : Prop :=
  match p with
  | Ret _ => True
  | Query q n k => P q n /\ forall r, always P (k r)
  end.
(** The questions for the children *)
Definition list_methods : list string := ["get_child_device_component_list"; "get_child_device_list"].
(** What an update leaves: the hub's replies, the children the hub lists, what it says of them and what
    they say themselves. *)
Definition family_shown (kans : string -> string -> option json -> answer) kpar (make : string -> json -> json -> res dev) (is_hub uc : bool) (f' : family) rs (out : res unit) (fine : Prop) : Prop :=
  kids_shown kans kpar rs (f_kids f') /\
  (forall l cs, fine -> Family_Spec.reports (lu (f_dev f')) l cs -> objects l -> with_ids cs -> (forall x i c, exists k, make x i c = Ok k) ->
     out = Ok tt /\ (forall x, In x (dkeys (f_kids f')) <-> x <> "" /\ has l x /\ has cs x) /\
     (forall x k, dget x (f_kids f') = Some k -> last_entry l x (info k)) /\
     ((is_hub = true -> uc = true) -> map fst rs = dkeys (f_kids f'))).

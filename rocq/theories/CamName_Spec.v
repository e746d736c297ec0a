(** What a camera is called: the words of C166. *)
From Verif Require Import Base Py DevType_Model DevType_Props Name_Model Name_Spec CamName_Model.
Open Scope string_scope.
Open Scope list_scope.

(** The basic info of a camera of the kind [f] and the model [m], named [name] *)
Definition tells_cam (b : dict string) (f m : string) (name : option string) : Prop :=
  dwf b /\ dget "device_type" b = Some f /\ dget "device_model" b = Some m /\ dget "sw_version" b <> None /\ dget "hw_version" b <> None /\
  dget "device_alias" b = name /\ dget "alias" b = None.
(** Every info the camera gives in a history is one of the kind [f] *)
Definition of_kind (h : list event) (f : string) : Prop := forall b c, In (Update (Said b) c) h -> dwf b /\ dget "device_type" b = Some f.
(** The answer of a camera of the kind [f] to a discovery: the model with its region, no name *)
Definition found_cam (d : dict string) (f m : string) (region : option string) : Prop :=
  dget "device_type" d = Some f /\ (exists full, dget "device_model" d = Some full /\ model_of full m region) /\ dget "alias" d = None.
Definition starts_cam (s : sdev) (f : string) : Prop := s = fresh \/ exists d m r, s = discovered d /\ found_cam d f m r.
(** What a hub tells of a camera of its own *)
Definition told_cam (b : dict string) (f m : string) (name : option string) : Prop :=
  dwf b /\ dget "device_type" b = Some f /\ dget "device_model" b = Some m /\ dget "sw_ver" b <> None /\ dget "hw_ver" b <> None /\
  dget "alias" b = name /\ dget "model" b = None.
(** The history of a camera on a hub in which the hub last told [b] *)
Definition last_told (h : list kevent) (b : dict string) : Prop :=
  exists h1 h2, h = h1 ++ KTold b :: h2 /\ forall b', ~ In (KTold b') h2.
(** Whatever the hub told, it was a device of the kind [f] *)
Definition told_kind (info : dict string) (h : list kevent) (f : string) : Prop :=
  dwf info /\ dget "device_type" info = Some f /\ forall b, In (KTold b) h -> dwf b /\ dget "device_type" b = Some f.

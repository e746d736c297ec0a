(** What a device is called: the words of C165. *)
From Verif Require Import Base Py Effect_Props DevType_Model DevType_Props Name_Model.
Open Scope string_scope.
Open Scope list_scope.

Definition looks (h : list event) : Prop := Forall (fun e => e = Look) h.
Definition fails (e : event) : Prop := match e with Update Refused _ => True | Silent _ => True | _ => False end.
(** The first update succeeded *)
Definition started (h : list event) (d0 : dict string) (comps : list string) : Prop :=
  exists h1 h2, h = h1 ++ Update (Said d0) (Said comps) :: h2 /\ looks h1.
(** The last update succeeded, and the device then said [d] *)
Definition last_said (h : list event) (d : dict string) : Prop :=
  exists h1 c h2, h = h1 ++ Update (Said d) c :: h2 /\ looks h2.
(** The device said [d] in an update, and has not answered, or refused, since *)
Definition lost (h : list event) (d : dict string) : Prop :=
  exists h1 c h2, h = h1 ++ Update (Said d) c :: h2 /\ Forall (fun e => e = Look \/ fails e) h2 /\ Exists fails h2.
(** The info of a SMART device of the family [p.f] and the model [m], named [name] *)
Definition tells_name (d : dict string) (family : string) (m : string) (name : option string) : Prop :=
  dget "model" d = Some m /\ dget "type" d = Some family /\ dget "fw_ver" d <> None /\ dget "hw_ver" d <> None /\
  match name with
  | Some a => a <> "" /\ is_text a /\ dget "nickname" d = Some (b64 a)
  | None => dget "nickname" d = None \/ dget "nickname" d = Some ""
  end.
Definition a_family (f : string) : Prop := exists p d, f = (p ++ "." ++ d)%string /\ lacks "." p /\ lacks "." d.
(** Every info the device gives in a history says the same family *)
Definition of_family (h : list event) (f : string) : Prop := forall d c, In (Update (Said d) c) h -> dget "type" d = Some f.
(** The answer to a discovery: the model with its region, no name *)
Definition found_as (d : dict string) (m : string) (region : option string) : Prop :=
  (exists full, dget "device_model" d = Some full /\ model_of full m region) /\ dget "nickname" d = None.
Definition starts (s : sdev) : Prop := s = fresh \/ exists d m r, s = discovered d /\ found_as d m r.

(** The system information of a legacy device *)
Definition tells_sys (sys : dict string) (m : string) : Prop :=
  (exists full region, dget "model" sys = Some full /\ model_of full m region) /\ dget "sw_ver" sys <> None /\ dget "hw_ver" sys <> None.

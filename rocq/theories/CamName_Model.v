(** What a camera object calls itself through its life: alias, model and the text of the object,
    kasa/smartcam/smartcamdevice.py, kasa/smartcam/smartcamchild.py, with what they inherit from
    kasa/smart/smartdevice.py and kasa/device.py.  The events and the state are those of SMART devices
    (Name_Model): [s_last] has the basic info as the camera gave it, [s_info] has it under the names
    of SMART devices.  No proofs. *)
From Verif Require Import Base Py Factory_Model DevType_Model Name_Model.
Open Scope string_scope.
Open Scope list_scope.

(** device_type, smartcamdevice.py:252-257, keeps what it finds *)
Definition clook (s : sdev) : sdev :=
  mkS (s_tried s) (s_ready s) (s_last s) (s_info s) (s_disco s) (s_comps s) (cam_type (s_type s) (s_info s)).
(** A later update, smartdevice.py:342-357 with smartcamdevice.py:67-70; without modules nothing is asked *)
Definition crefresh (i : reply (dict string)) (s : sdev) : sdev * res unit :=
  if negb (s_ready s) then (s, Err KKasa)
  else
    let s := mkS true true (match s_last s with Some (_, c) => Some (i, c) | None => None end) (s_info s) (s_disco s) (s_comps s) (s_type s) in
    match i with
    | Refused => (s, Err KKasa)
    | Said b => (mkS true true (s_last s) (renamed cam_keys b) (s_disco s) (s_comps s) (s_type s), Ok tt)
    end.
(** update, smartdevice.py:261-275, with _negotiate, smartcamdevice.py:201-222; the modules and children are
    taken to be made without an error.  A later update that gets no answer puts an error in the place of
    every reply, smartdevice.py:387-400. *)
Definition cstep (s : sdev) (e : event) : sdev * res unit :=
  match e with
  | Look => (clook s, Ok tt)
  | Silent e =>
      if negb (s_tried s) then (mkS true false (s_last s) (s_info s) (s_disco s) (s_comps s) (s_type s), Err e)
      else crefresh Refused s
  | Update i c =>
      if negb (s_tried s) then
        match i with
        | Refused => (mkS true false (Some (i, c)) (s_info s) (s_disco s) (s_comps s) (s_type s), Err KKasa)
        | Said b =>
            let info := renamed cam_keys b in
            match c with
            | Refused => (mkS true false (Some (i, c)) info (s_disco s) (s_comps s) (s_type s), Err PyTypeError)
            | Said l => (mkS true true (Some (i, c)) info (s_disco s) l (s_type s), Ok tt)
            end
        end
      else crefresh i s
  end.
Definition crun (s : sdev) (h : list event) : sdev := fold_left (fun s e => fst (cstep s e)) h s.

(** device_info, device.py:341-344, smartcamdevice.py:40-65: an error code has no items; the components
    are not looked at *)
Definition cinfo_of (s : sdev) : res dinfo :=
  match s_last s with
  | None => Err PyKeyError
  | Some (Refused, _) => Err PyTypeError
  | Some (Said b, _) => match s_disco s with
                        | Some (x :: d) => let! _ := dindex "device_model" b in
                                           let! m := dindex "device_model" (x :: d) in cam_info b (Some m)
                        | _ => cam_info b None
                        end
  end.
(** model, smartdevice.py:585-594 *)
Definition cmodel (s : sdev) : res string :=
  match s_last s with
  | Some _ => let! i := cinfo_of s in Ok (i_short i)
  | None => Ok (fst (partition "(" (str_of (dget "device_model" (s_info s)))))
  end.
(** alias, smartcamdevice.py:259-264: plain text, not encoded *)
Definition calias (s : sdev) : option string := dget "alias" (s_info s).
(** __repr__, device.py:503-510; [shown] is str() of a DeviceType *)
Definition crepr (shown : dtype -> string) (host : string) (s : sdev) : res string :=
  let t := shown (s_type (clook s)) in
  match s_last s, s_disco s with
  | None, None | None, Some [] => Ok (short_text t host)
  | l, _ => let! m := cmodel s in
            Ok (long_text t host (calias s) m (match l with None => true | Some _ => false end))
  end.

(** ** Cameras on a hub *)
(** [n_info]: _info; [n_told]: _child_info_from_parent; [n_asked]: the child itself has answered;
    smartcamchild.py:36-49, 75-86, smartchilddevice.py:38-55, 78-111 *)
Record kid := mkN { n_info : dict string; n_told : dict string; n_asked : bool; n_type : dtype }.
(** SmartCamChild.__init__ forgets the info again after the constructor of the base class has put it
    there, smartcamchild.py:45-49 *)
Definition born (info : dict string) : kid := mkN (renamed cam_child_keys info) [] false TUnknown.
(** The hub tells the child's info, smartcamchild.py:75-86; the child answers or fails to, which both
    leaves something in _last_update, smartchilddevice.py:96-106; a look at its type, smartcamchild.py:88-93 *)
Inductive kevent := KTold (info : dict string) | KAsked | KLook.
Definition kstep (c : kid) (e : kevent) : kid :=
  match e with
  | KTold info => mkN (renamed cam_child_keys info) info (n_asked c) (n_type c)
  | KAsked => mkN (n_info c) (n_told c) true (n_type c)
  | KLook => mkN (n_info c) (n_told c) (n_asked c) (cam_type (n_type c) (n_info c))
  end.
Definition krun (c : kid) (h : list kevent) : kid := fold_left kstep h c.
(** model, smartdevice.py:585-594 with smartcamchild.py:51-64, 95-121; without an info from the hub the
    child looks for its own, which is not there *)
Definition kid_model (c : kid) : res string :=
  if n_asked c then
    match n_told c with
    | [] => Err PyKeyError
    | told => let! i := cam_child_info told in Ok (i_short i)
    end
  else Ok (fst (partition "(" (str_of (dget "device_model" (n_info c))))).
(** __repr__, smartchilddevice.py:162-167, for a hub that has been updated *)
Definition kid_repr (shown : dtype -> string) (hub : string) (c : kid) : res string :=
  let! m := kid_model c in
  Ok ("<" ++ shown (cam_type (n_type c) (n_info c)) ++ " " ++ str_of (dget "alias" (n_info c)) ++ " (" ++ m ++ ") of " ++ hub ++ ">")%string.

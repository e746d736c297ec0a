(** A camera hub at work with its children: the update of kasa/smart/smartdevice.py:100-168 and 261-298
    with the methods of kasa/smartcam/smartcamdevice.py:79-166 and kasa/smartcam/smartcamchild.py, as
    programs that make queries to the hub and, through it, to its children.  [WholeCam_Model] has the
    hub's own part, [WholeHub_Model] the update of a child that is no camera.  Features are not part of
    this.  No proofs. *)
From Verif Require Import Base Py Smart_Model Smod_Model Family_Model Whole_Model WholeHub_Model CamQuery_Model WholeCam_Model.
Open Scope string_scope.
Open Scope list_scope.
Open Scope Z_scope.

(** A child of a camera hub: a SmartChildDevice, or a SmartCamChild with its _child_info_from_parent,
    smartcamchild.py:36-49 *)
Inductive child := Dev (d : dev) | Camera (c : cam) (from_parent : json).
(** SmartCamDevice with its _children and _logged_missing_child_ids, smartdevice.py:55-78 *)
Record chub := mkHub { h_cam : cam; h_kids : dict child; h_logged : list string }.

(** mappings, smartcamchild.py:68-72 *)
Definition child_mappings : dict string := [("device_model", "model"); ("sw_ver", "fw_ver"); ("hw_id", "hwId")].
(** _map_child_info_from_parent, smartcamchild.py:66-73 *)
Definition map_child_info (d : dict json) : json :=
  JObj (fold_left (fun acc (kv : string * json) =>
    dset (match dget (fst kv) child_mappings with Some x => x | None => fst kv end) (snd kv) acc) d []).
(** CHILD_DEVICE_TYPE_MAP, smartchilddevice.py:25-36 and smartcamchild.py:32-34 *)
Definition smart_categories : list string :=
  ["plug.powerstrip.sub-plug"; "subg.plugswitch.switch"; "subg.trigger.contact-sensor"; "subg.trigger.temp-hmdt-sensor";
   "subg.trigger.water-leak-sensor"; "subg.trigger.motion-sensor"; "kasa.switch.outlet.sub-fan"; "kasa.switch.outlet.sub-dimmer";
   "subg.trv"; "subg.trigger.button"].
Definition camera_categories : list string := ["camera"].
(** The branches of _try_create_child, smartcamdevice.py:151-166; a category that is no string is taken
    for an unknown one *)
Inductive kind := SmartKind | CameraKind | NoKind.
Definition kind_of (info : dict json) : kind :=
  match dget "category" info with
  | Some (JStr c) => if String.eqb c "" then NoKind else if smem c smart_categories then SmartKind
                     else if smem c camera_categories then CameraKind else NoKind
  | _ => NoKind
  end.

(** _update of a child that is a camera, smartchilddevice.py:78-118; [hub_child]: _is_hub_child,
    smartdevice.py:569-571.  Also the request. *)
Definition cam_kid_update (hub_child : bool) (now : Z) (c : cam) : prog (dict json) (cam * option (dict json) * res unit) :=
  let l := map (fun ms : cmod * mstate => let p := plan hub_child false now (as_smod (fst ms), snd ms) in (fst ms, fst p, snd p)) (k_mods c) in
  let req := c_request l in
  match req with
  | [] => Ret (begun (with_mods c (c_post_all now (k_lu c) (k_info c) l)), None, Ok tt)
  | _ => ask_for (fun k => match dget k req with Some p => p | None => JNull end) (dkeys req) (fun a => Ret
      match a with
      | Err e => (with_mods c (map fst l), Some req, Err e)
      | Ok resp => (begun (with_mods (with_lu c resp) (c_post_all now resp (k_info c) l)), Some req, Ok tt)
      end)
  end.
(** await child._update(), smartdevice.py:286-289; [kpar]: the parameters with which the modules of a
    child that is no camera ask, [parent]: the hub's replies *)
Definition child_update (kpar : string -> json) (is_hub : bool) (parent : dict reply) (now : Z) (k : child)
  : prog (dict json) (child * option (dict json) * res unit) :=
  match k with
  | Dev d => via (fun q => q) (kid_update kpar (Some parent) now d) (fun o =>
               let '(d, r, o) := o in Ret (Dev d, option_map (with_params kpar) (requested r), o))
  | Camera c i => via (fun q => q) (cam_kid_update is_hub now c) (fun o => let '(c, r, o) := o in Ret (Camera c i, r, o))
  end.

Section Hub.
(** A query to the hub and to a child of it *)
Context {A : Type}.
Variable hub : cam_request -> A.
Variable kid : string -> dict json -> A.
(** The parameters with which the modules of a child that is no camera ask *)
Variable kpar : string -> string -> json.
(** str and int of Python *)
Variable str : json -> string.
Variable int : json -> res Z.
(** _initialize_modules, smartcamdevice.py:168-178, of the hub and of a child that is a camera, which
    has no replies yet *)
Variable init : list string -> dict reply -> json -> res (list cmod).
Variable kid_init : list string -> json -> res (list cmod).
(** SmartChildDevice.create, smartchilddevice.py:117-140, with an id, its info, its components and the
    first reply *)
Variable make : string -> dict json -> json -> dict reply -> res dev.

(** _initialize_smartcam_child, smartcamdevice.py:123-140, with SmartCamChild.__init__,
    smartcamchild.py:36-49, SmartChildDevice.__init__, smartchilddevice.py:38-54, and _parse_components,
    smartcamdevice.py:194-199 *)
Definition new_camera (info : dict json) (comps : json) : res child :=
  let! l := jitem "component_list" comps in
  let! l := jiter l in
  let! names := parse str int l in
  let! mods := kid_init names (map_child_info info) in
  Ok (Camera (mkCam (map (fun m => (m, fresh)) mods) [] (map_child_info info) names false) (JObj [])).
(** _try_create_child, smartcamdevice.py:151-166, with _initialize_smart_child, 102-121: when the child
    can not be asked, initial_response is not bound *)
Definition try_create {R} (x : string) (info : dict json) (comps : json) (k : res (option child) -> prog A R) : prog A R :=
  match kind_of info with
  | NoKind => k (Ok None)
  | CameraKind => k (let! c := new_camera info comps in Ok (Some c))
  | SmartKind =>
      Query (kid x [("get_connect_cloud_state", JNull)]) RETRIES (fun r =>
        k match r with
          | Ok resp => let! d := make x info comps (keep resp) in Ok (Some (Dev (match resp with [] => d | _ => set_lu d (keep resp) end)))
          | Err e => if is_exception e then Err PyUnboundLocal else Err e
          end)
  end.

(** The loop of _create_delete_children at work: the children, the ids logged, the ids seen, changed *)
Record cacc := mkAcc { a_kids : dict child; a_logged : list string; a_seen : list string; a_changed : bool }.
Definition log_once (x : string) (a : cacc) : cacc :=
  mkAcc (a_kids a) (if smem x (a_logged a) then a_logged a else a_logged a ++ [x]) (a_seen a) (a_changed a).
(** One entry, smartdevice.py:122-166.  An id that is not a string is taken for a missing one. *)
Definition visit {R} (comps : dict json) (existing : list string) (info : json) (a : cacc) (k : cacc * res unit -> prog A R) : prog A R :=
  match info with
  | JObj d =>
      match dget "device_id" d with
      | Some (JStr x) =>
          if String.eqb x "" then k (log_once "" a, Ok tt)
          else match dget x comps with
               | None => k (log_once x a, Ok tt)
               | Some c =>
                   let a := mkAcc (a_kids a) (a_logged a) (a_seen a ++ [x]) (a_changed a) in
                   if smem x existing then k (a, Ok tt)
                   else try_create x d c (fun r =>
                     k match r with
                       | Err e => (a, Err e)
                       | Ok None => (log_once x a, Ok tt)
                       | Ok (Some c) => (mkAcc (dset x c (a_kids a)) (a_logged a) (a_seen a) true, Ok tt)
                       end)
               end
      | _ => k (log_once "" a, Ok tt)
      end
  | _ => k (a, Err PyAttributeError)
  end.
Fixpoint visit_all {R} (comps : dict json) (existing : list string) (l : list json) (a : cacc) (k : cacc * res unit -> prog A R) : prog A R :=
  match l with
  | [] => k (a, Ok tt)
  | i :: l => visit comps existing i a (fun o => match o with (a, Ok _) => visit_all comps existing l a k | (a, Err e) => k (a, Err e) end)
  end.
(** _create_delete_children, smartdevice.py:100-168, for the two replies *)
Definition create_delete {R} (child_info : json) (child_comps : reply) (h : chub) (k : chub * res (list json * bool) -> prog A R) : prog A R :=
  match (match child_comps with
         | RErr _ => Err PyTypeError                     (* an error code has no items *)
         | RVal c => let! l := jitem "child_component_list" c in let! l := jiter l in comp_dict l []
         end) with
  | Err e => k (h, Err e)
  | Ok comps =>
      match (let! l := jitem "child_device_list" child_info in jiter l) with
      | Err e => k (h, Err e)
      | Ok l =>
          let existing := dkeys (h_kids h) in
          visit_all comps existing l (mkAcc (h_kids h) (h_logged h) [] false) (fun o =>
            k match o with
              | (a, Err e) => (mkHub (h_cam h) (a_kids a) (a_logged a), Err e)
              | (a, Ok _) =>
                  let removed := filter (fun x => negb (smem x (a_seen a))) existing in
                  (mkHub (h_cam h) (fold_left (fun d x => ddel x d) removed (a_kids a)) (a_logged a),
                   Ok (l, a_changed a || match removed with [] => false | _ => true end))
              end)
      end
  end.
(** _update_internal_state, smartdevice.py:687-692 and smartcamchild.py:75-86 *)
Definition inform (i : dict json) (c : child) : child :=
  match c with Dev d => Dev (set_info d (JObj i)) | Camera c _ => Camera (with_info c (map_child_info i)) (JObj i) end.
(** self._children[child_id]._update_internal_state(info), smartcamdevice.py:92-98 *)
Definition push (kids : dict child) (i : json) : dict child :=
  match i with
  | JObj d =>
      match dget "device_id" d with
      | Some (JStr x) => match dget x kids with Some k => dset x (inform d k) kids | None => kids end
      | _ => kids
      end
  | _ => kids
  end.
(** _update_children_info, smartcamdevice.py:79-100: whether children came or went *)
Definition children_info {R} (h : chub) (k : chub * res bool -> prog A R) : prog A R :=
  match dget "getChildDeviceList" (k_lu (h_cam h)) with
  | Some (RVal v) =>
      if truthy v then
        match dget "getChildDeviceComponentList" (k_lu (h_cam h)) with
        | None => k (h, Err PyKeyError)
        | Some c =>
            create_delete v c h (fun o =>
              k match o with
                | (h, Err e) => (h, Err e)
                | (h, Ok (l, changed)) => (mkHub (h_cam h) (fold_left push l (h_kids h)) (h_logged h), Ok changed)
                end)
        end
      else k (h, Ok false)
  | _ => k (h, Ok false)
  end.

(** await child._update() for all children, smartdevice.py:285-289 *)
Fixpoint update_kids (is_hub : bool) (parent : dict reply) (now : Z) (kids : dict child)
  : prog A (dict child * list (string * option (dict json)) * res unit) :=
  match kids with
  | [] => Ret ([], [], Ok tt)
  | (x, k) :: kids =>
      via (kid x) (child_update (kpar x) is_hub parent now k) (fun o =>
        match o with
        | (k, r, Err e) => Ret ((x, k) :: kids, [(x, r)], Err e)
        | (k, r, Ok _) =>
            via (fun q => q) (update_kids is_hub parent now kids) (fun o => let '(kids, rs, o) := o in Ret ((x, k) :: kids, (x, r) :: rs, o))
        end)
  end.
(** update, smartdevice.py:261-298: [is_hub]: the device is a hub; [uc]: update_children.  Also what the
    hub was asked, and which children were and what. *)
Definition update_hub (is_hub uc : bool) (now : Z) (h : chub)
  : prog A (chub * option (dict json) * list (string * option (dict json)) * res unit) :=
  via hub (c_update str int init now (h_cam h) Ret) (fun o =>
    match o with
    | (c, r, Err e) => Ret (mkHub c (h_kids h) (h_logged h), r, [], Err e)
    | (c, r, Ok _) =>
        children_info (mkHub c (h_kids h) (h_logged h)) (fun o =>
          match o with
          | (h, Err e) => Ret (h, r, [], Err e)
          | (h, Ok changed) =>
              if changed || uc || negb is_hub then
                via (fun q => q) (update_kids is_hub (k_lu (h_cam h)) now (h_kids h)) (fun o =>
                  let '(kids, rs, o) := o in Ret (mkHub (h_cam h) kids (h_logged h), r, rs, o))
              else Ret (h, r, [], Ok tt)
          end)
    end).
End Hub.

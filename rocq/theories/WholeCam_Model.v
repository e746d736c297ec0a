(** Camera objects at work: the update of kasa/smartcam/smartcamdevice.py as a program that makes
    queries, to be run with any protocol, transport and camera below (see [Whole_Model]).  The children
    of camera hubs are not part of this model; the lists of them are.  No proofs. *)
From Verif Require Import Base Py Retry_Model Smart_Model Smod_Model Whole_Model CamQuery_Model.
Open Scope string_scope.
Open Scope list_scope.
Open Scope Z_scope.

(** A module of a camera: its name, its query with the parameters (smartcammodule.py:53-65 and the
    overriding methods), QUERY_GETTER_NAME and QUERY_MODULE_NAME, the minimum update interval,
    membership in FIRST_UPDATE_MODULES (smartcamdevice.py:24), and its hook as in [smod]. *)
Record cmod := mkCmod { c_name : string; c_query : dict json; c_getter : string; c_section : string; c_min : Z; c_first : bool;
                        c_hook : option (dict reply -> bool) }.
(** What the update cycle, which cameras inherit, sees of it *)
Definition as_smod (m : cmod) : smod := mkMod (c_name m) (dkeys (c_query m)) (c_min m) [] (c_first m) None.
(** data, smartcammodule.py:74-111 *)
Definition c_data (m : cmod) (own : dict reply) (sys_info : json) : res view :=
  cam_data (dkeys (c_query m)) (c_getter m) (c_section m) own sys_info.
(** _post_update_hook, smartmodule.py:145-151: whether it succeeds *)
Definition c_ok (m : cmod) (own : dict reply) (sys_info : json) : bool :=
  match c_hook m with
  | Some h => h own
  | None => match c_data m own sys_info with
            | Ok (One v) => truthy v
            | Ok (Many d) => match d with [] => false | _ => true end
            | Err _ => false
            end
  end.

(** A camera object: modules with their states, _last_update, _info, the names of the components,
    whether _last_update_time is set *)
Record cam := mkCam { k_mods : list (cmod * mstate); k_lu : dict reply; k_info : json; k_comps : list string; k_started : bool }.
Definition with_mods d x := mkCam x (k_lu d) (k_info d) (k_comps d) (k_started d).
Definition with_lu d x := mkCam (k_mods d) x (k_info d) (k_comps d) (k_started d).
Definition with_info d x := mkCam (k_mods d) (k_lu d) x (k_comps d) (k_started d).
Definition with_comps d x := mkCam (k_mods d) (k_lu d) (k_info d) x (k_started d).
Definition begun d := mkCam (k_mods d) (k_lu d) (k_info d) (k_comps d) true.

(** mappings, smartcamdevice.py:226-233 *)
Definition mappings : dict string :=
  [("device_model", "model"); ("device_alias", "alias"); ("sw_version", "fw_ver"); ("hw_version", "hw_ver"); ("hw_id", "hwId");
   ("dev_id", "device_id")].
(** _map_info, smartcamdevice.py:224-235 *)
Definition map_info (device_info : json) : res json :=
  let! basic_info := jitem "basic_info" device_info in
  match basic_info with
  | JObj d => Ok (JObj (fold_left (fun acc (kv : string * json) =>
                dset (match dget (fst kv) mappings with Some x => x | None => fst kv end) (snd kv) acc) d []))
  | _ => Err PyAttributeError
  end.
(** _update_internal_info, smartcamdevice.py:67-70 *)
Definition internal_info (resp : dict reply) : res json :=
  let! i := try_get "getDeviceInfo" resp in
  let! di := jitem "device_info" i in
  map_info di.

(** The request of _modular_update, smartdevice.py:325-340: req.update(query) *)
Definition c_planned (first : bool) (now : Z) (l : list (cmod * mstate)) : list (cmod * mstate * bool) :=
  map (fun ms : cmod * mstate => let p := plan false first now (as_smod (fst ms), snd ms) in (fst ms, fst p, snd p)) l.
Definition c_request (l : list (cmod * mstate * bool)) : dict json :=
  fold_left (fun req (x : cmod * mstate * bool) => if snd x then dupdate req (c_query (fst (fst x))) else req) l [].
(** The closing loop, smartdevice.py:360-363 *)
Definition c_post_all (now : Z) (own : dict reply) (inf : json) (l : list (cmod * mstate * bool)) : list (cmod * mstate) :=
  map (fun x : cmod * mstate * bool => match x with (m, st, a) => (m, post_update (c_ok m own inf) a now st) end) l.

(** _handle_modular_update_error, smartdevice.py:367-402 *)
Fixpoint c_alone {R} (req : dict json) (k : res (dict reply) -> prog cam_request R) : prog cam_request R :=
  match req with
  | [] => k (Ok [])
  | (x, p) :: req =>
      Query (QDict [(x, p)]) RETRIES (fun r =>
        match (match r with
               | Ok r => Ok (match dget x (keep r) with Some v => v | None => RErr INTERNAL end)
               | Err e => if is_exception e then Ok (RErr INTERNAL) else Err e
               end) with
        | Ok v => c_alone req (fun rest => k (let! rest := rest in Ok ((x, v) :: rest)))
        | Err e => k (Err e)
        end)
  end.
(** smartdevice.py:348-353 *)
Definition c_ask_for {R} (req : dict json) (k : res (dict reply) -> prog cam_request R) : prog cam_request R :=
  Query (QDict req) RETRIES (fun r =>
    match r with
    | Ok r => k (Ok (keep r))
    | Err e => if is_exception e then c_alone req k else k (Err e)
    end).
(** _modular_update, smartdevice.py:321-365; also the request that was made *)
Definition c_update_modules {R} (first : bool) (now : Z) (d : cam) (k : cam * option (dict json) * res unit -> prog cam_request R)
  : prog cam_request R :=
  let l := c_planned first now (k_mods d) in
  let req := c_request l in
  let d := with_mods d (map fst l) in
  c_ask_for req (fun a =>
    k match a with
      | Err e => (d, Some req, Err e)
      | Ok resp =>
          let d := with_lu d (dupdate (k_lu d) resp) in
          match internal_info (if first then k_lu d else resp) with
          | Err e => (d, Some req, Err e)
          | Ok i => let d := with_info d i in (with_mods d (c_post_all now (k_lu d) i l), Some req, Ok tt)
          end
      end).

(** The first query, smartcamdevice.py:207-211 *)
Definition c_initial : dict json :=
  [("getDeviceInfo", JObj [("device_info", JObj [("name", JArr [JStr "basic_info"; JStr "info"])])]);
   ("getAppComponentList", JObj [("app_component", JObj [("name", JStr "app_component_list")])]);
   ("getConnectionType", JObj [("network", JObj [("get_connection_type", JObj [])])])].
(** child_info_query, smartcamdevice.py:140-143 *)
Definition c_children : dict json :=
  [("getChildDeviceList", JObj [("childControl", JObj [("start_index", JInt 0)])]);
   ("getChildDeviceComponentList", JObj [("childControl", JObj [("start_index", JInt 0)])])].

Section Start.
(** str and int of Python *)
Variable str : json -> string.
Variable int : json -> res Z.
(** _initialize_modules, smartcamdevice.py:168-179: the modules that the components, what was said so
    far and the information give *)
Variable init : list string -> dict reply -> json -> res (list cmod).
(** _parse_components, smartcamdevice.py:194-199, the names only *)
Fixpoint parse (l : list json) : res (list string) :=
  match l with
  | [] => Ok []
  | comp :: l =>
      let! name := jitem "name" comp in
      let! version := jitem "version" comp in
      let! _ := int version in
      let! rest := parse l in
      Ok (str name :: rest)
  end.
(** smartcamdevice.py:216-219; an error code in the place of a reply can not be subscripted *)
Definition components (resp : dict reply) : res (list string) :=
  match dget "getAppComponentList" resp with
  | None => Err PyKeyError
  | Some (RErr _) => Err PyTypeError
  | Some (RVal j) =>
      let! raw := jitem "app_component" j in
      let! l := jitem "app_component_list" raw in
      let! l := jiter l in
      parse l
  end.
(** _initialize_modules and _modular_update of a first update, smartdevice.py:271-277; cameras have no
    cloud module *)
Definition c_first_modules {R} (now : Z) (d : cam) (k : cam * option (dict json) * res unit -> prog cam_request R) : prog cam_request R :=
  match init (k_comps d) (k_lu d) (k_info d) with
  | Err e => k (d, None, Err e)
  | Ok l => c_update_modules true now (with_mods d (map (fun m => (m, fresh)) l)) k
  end.
(** update, smartdevice.py:261-298 with _negotiate, smartcamdevice.py:201-223, and
    _initialize_children, 138-145; without the children *)
Definition c_update {R} (now : Z) (d : cam) (k : cam * option (dict json) * res unit -> prog cam_request R) : prog cam_request R :=
  if k_started d then c_update_modules false now d k
  else
    let d := begun d in
    Query (QDict c_initial) RETRIES (fun r =>
      match r with
      | Err e => k (d, None, Err e)
      | Ok resp =>
          let resp := keep resp in
          let d := with_lu d (dupdate (k_lu d) resp) in
          match internal_info resp with
          | Err e => k (d, None, Err e)
          | Ok i =>
              let d := with_info d i in
              match components resp with
              | Err e => k (d, None, Err e)
              | Ok comps =>
                  let d := with_comps d comps in
                  if smem "childControl" comps then
                    Query (QDict c_children) RETRIES (fun r =>
                      match r with
                      | Err e => k (d, None, Err e)
                      | Ok resp => c_first_modules now (with_lu d (dupdate (k_lu d) (keep resp))) k
                      end)
                  else c_first_modules now d k
              end
          end
      end).
End Start.

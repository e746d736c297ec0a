(** What a device object calls itself through its life: alias, model and the text of the object,
    kasa/device.py, kasa/smart/smartdevice.py, kasa/smart/smartchilddevice.py, kasa/iot/iotdevice.py.
    The texts of an info only.  No proofs. *)
From Verif Require Import Base Py Factory_Model DevType_Model Setup_Model.
Open Scope string_scope.
Open Scope list_scope.

(** A reply to one method of several: the result, or an error code in its place, smartprotocol.py:408-425,
    smartdevice.py:366-400 *)
Inductive reply (A : Type) := Said (a : A) | Refused.
Arguments Said {A}. Arguments Refused {A}.

(** str(v) of a text or None *)
Definition str_of (s : option string) : string := match s with Some s => s | None => "None" end.
(** f"<{device_type} at {host} - {alias} ({model}){update_needed}>", device.py:503-510 *)
Definition long_text (type host : string) (alias : option string) (model : string) (needed : bool) : string :=
  ("<" ++ type ++ " at " ++ host ++ " - " ++ str_of alias ++ " (" ++ model ++ ")" ++ (if needed then " - update() needed" else "") ++ ">")%string.
Definition short_text (type host : string) : string := ("<" ++ type ++ " at " ++ host ++ " - update() needed>")%string.

(** ** SMART devices *)
(** [s_tried]: _last_update_time is set; [s_ready]: there are modules; [s_last]: what _last_update has of
    get_device_info and component_nego; smartdevice.py:66-78, device.py:205-222 *)
Record sdev := mkS { s_tried : bool; s_ready : bool; s_last : option (reply (dict string) * reply (list string));
                     s_info : dict string; s_disco : option (dict string); s_comps : list string; s_type : dtype }.
Definition fresh : sdev := mkS false false None [] None [] TUnknown.
(** update_from_discover_info of a new object, smartdevice.py:729-735 *)
Definition discovered (d : dict string) : sdev := mkS false false None d (Some d) [] TUnknown.
(** An update the device answers so, an update it does not answer, and a look at its type *)
Inductive event := Update (info : reply (dict string)) (comps : reply (list string)) | Silent (e : exn) | Look.
(** device_type, smartdevice.py:838-855, keeps what it finds *)
Definition look (s : sdev) : sdev :=
  mkS (s_tried s) (s_ready s) (s_last s) (s_info s) (s_disco s) (s_comps s) (smart_type (s_type s) (s_info s) (s_comps s)).
(** A later update, smartdevice.py:342-357, 257-259; without modules nothing is asked *)
Definition refresh (i : reply (dict string)) (s : sdev) : sdev * res unit :=
  if negb (s_ready s) then (s, Err KKasa)
  else
    let s := mkS true true (match s_last s with Some (_, c) => Some (i, c) | None => None end) (s_info s) (s_disco s) (s_comps s) (s_type s) in
    match i with
    | Refused => (s, Err KKasa)
    | Said d => (mkS true true (s_last s) d (s_disco s) (s_comps s) (s_type s), Ok tt)
    end.
(** update, smartdevice.py:261-275, 206-232; the modules and children are taken to be made without an error.
    A later update that gets no answer puts an error in the place of every reply, smartdevice.py:387-400. *)
Definition step (s : sdev) (e : event) : sdev * res unit :=
  match e with
  | Look => (look s, Ok tt)
  | Silent e =>
      if negb (s_tried s) then (mkS true false (s_last s) (s_info s) (s_disco s) (s_comps s) (s_type s), Err e)
      else refresh Refused s
  | Update i c =>
      if negb (s_tried s) then
        match i with
        | Refused => (mkS true false (Some (i, c)) (s_info s) (s_disco s) (s_comps s) (s_type s), Err KKasa)
        | Said d =>
            match c with
            | Refused => (mkS true false (Some (i, c)) d (s_disco s) (s_comps s) (s_type s), Err PyTypeError)
            | Said l => (mkS true true (Some (i, c)) d (s_disco s) l (s_type s), Ok tt)
            end
        end
      else refresh i s
  end.
Definition run (s : sdev) (h : list event) : sdev := fold_left (fun s e => fst (step s e)) h s.

(** device_info, device.py:341-344, smartdevice.py:889-896: an error code has no items *)
Definition info_of (s : sdev) : res dinfo :=
  match s_last s with
  | None => Err PyKeyError
  | Some (i, c) =>
      match i with
      | Refused => Err PyTypeError
      | Said di => match c with
                   | Refused => Err PyTypeError
                   | Said l => match s_disco s with
                               | Some (x :: d) => let! m := dindex "device_model" (x :: d) in smart_info di l (Some m)
                               | _ => smart_info di l None
                               end
                   end
      end
  end.
(** model, smartdevice.py:585-594 *)
Definition model (s : sdev) : res string :=
  match s_last s with
  | Some _ => let! i := info_of s in Ok (i_short i)
  | None => Ok (fst (partition "(" (str_of (dget "device_model" (s_info s)))))
  end.
(** alias, smartdevice.py:596-602 *)
Definition nickname (info : dict string) : res (option string) :=
  match dget "nickname" info with
  | Some n => if String.eqb n "" then Ok None else let! a := decoded (JStr n) in Ok (Some a)
  | None => Ok None
  end.
(** __repr__, device.py:503-510; [shown] is str() of a DeviceType *)
Definition repr (shown : dtype -> string) (host : string) (s : sdev) : res string :=
  let t := shown (s_type (look s)) in
  match s_last s, s_disco s with
  | None, None | None, Some [] => Ok (short_text t host)
  | l, _ => let! a := nickname (s_info s) in
            let! m := model s in
            Ok (long_text t host a m (match l with None => true | Some _ => false end))
  end.

(** ** Children of SMART devices *)
(** The info the parent pushes, the components the parent told, and whether the child itself has
    answered; smartchilddevice.py:38-55, 78-111 *)
Record kid := mkK { k_info : dict string; k_comps : list string; k_asked : bool }.
(** device_info and model of a child, smartchilddevice.py:57-69, smartdevice.py:585-594 *)
Definition kid_model (c : kid) : res string :=
  if k_asked c then let! i := smart_info (k_info c) (k_comps c) None in Ok (i_short i)
  else Ok (fst (partition "(" (str_of (dget "device_model" (k_info c))))).

(** ** Legacy devices *)
(** [l_last]: the system information in _last_update; [l_sys]: _sys_info; iotdevice.py:189-201, device.py:205-222 *)
Record ldev := mkL { l_last : option (dict string); l_sys : option (dict string); l_disco : bool }.
Definition lfresh : ldev := mkL None None false.
(** update_from_discover_info, iotdevice.py:445-457: the answer of a device asked directly, and one of a
    device that answers on the other port *)
Definition lfound_sys (sys : dict string) : ldev := mkL (Some sys) (Some sys) true.
Definition lfound (info : dict string) : res ldev :=
  let! m := dindex "device_model" info in
  Ok (mkL None (Some (dset "model" (fst (partition "(" m)) info)) true).
(** update, iotdevice.py:292-329: with the system information it got, or without an answer *)
Definition lupdate (u : option (dict string)) (s : ldev) : ldev :=
  match u with Some sys => mkL (Some sys) (Some sys) (l_disco s) | None => s end.
Definition lrun (s : ldev) (h : list (option (dict string))) : ldev := fold_left (fun s u => lupdate u s) h s.
Section Legacy.
(** _get_device_type_from_sys_info, iotdevice.py:713-743 *)
Variable type_of : dict string -> res dtype.
(** model, iotdevice.py:473-480, under requires_update, 54-62 *)
Definition lmodel (s : ldev) : res string :=
  match l_last s with
  | Some sys => let! i := iot_info sys (type_of sys) false in Ok (i_short i)
  | None => match l_sys s with
            | None => Err KKasa
            | Some sys => match dget "model" sys with Some m => Ok m | None => Err KKasa end
            end
  end.
(** alias, iotdevice.py:484-488 *)
Definition lalias (s : ldev) : option string := match l_sys s with Some sys => dget "alias" sys | None => None end.
(** __repr__, device.py:503-510; the type is the one of the class *)
Definition lrepr (type host : string) (s : ldev) : res string :=
  match l_last s, l_disco s with
  | None, false => Ok (short_text type host)
  | l, _ => let! m := lmodel s in Ok (long_text type host (lalias s) m (match l with None => true | Some _ => false end))
  end.
End Legacy.

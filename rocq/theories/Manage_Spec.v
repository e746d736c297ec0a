(** Vocabulary for managing devices (C152). *)
From Verif Require Import Base Py Codes_Model Smart_Model Smart_Spec Child_Model Child_Spec Crypto_Model Effect_Props Manage_Model.
Open Scope string_scope.
Open Scope list_scope.
Open Scope Z_scope.

(** Which of the objects of a device is meant: the device, or the child with an id. *)
Definition place (o : object) : option string :=
  match o with Socket id | Kid id | CamKid id _ => Some id | _ => None end.
(** Request [m] of service [service] (legacy objects only) with parameters [p], for the object: as it is, or
    in the envelope for the child. *)
Definition addressed (o : object) (service m : string) (p : json) : sent :=
  Ask match o with
      | Plain | Light => [(service, JObj [(m, p)])]
      | Socket id => [("context", JObj [("child_ids", JArr [JStr id])]); (service, JObj [(m, p)])]
      | Smart | Camera => [(m, p)]
      | Kid id => [("control_child", JObj [("device_id", JStr id); ("requestData", JObj [("method", JStr m); ("params", p)])])]
      | CamKid id _ =>
          [("multipleRequest", JObj [("requests", JArr [JObj [("method", JStr "controlChild");
             ("params", JObj [("childControl", JObj [("device_id", JStr id);
                ("request_data", JObj [("method", JStr m); ("params", p)])])])]])])]
      end.
Definition is_legacy (o : object) : Prop := match o with Plain | Light | Socket _ => True | _ => False end.
(** [resp] carries answer [x] of the object to [m], which went well. *)
Definition answered (o : object) (service m : string) (x : json) (resp : dict json) : Prop :=
  match o with
  | Plain | Light | Socket _ =>
      exists s r, dget service resp = Some (JObj s) /\ dget "err_code" s = None /\ dget m s = Some (JObj r) /\
        (dget "err_code" r = None \/ dget "err_code" r = Some (JInt 0)) /\ x = JObj (ddel "err_code" r)
  | Smart | Camera => dget m resp = Some x
  | Kid _ => exists rd, relayed rd resp /\ reports (AResult x) rd /\ Child_Spec.plain x
  | CamKid _ _ => exists y, cam_responses [y] resp /\ cam_reply (fun _ _ => AResult x) (m, JNull) y
  end.
(** Names of SMART objects travel in base64. *)
Definition coded (o : object) : bool := match o with Smart | Kid _ | CamKid _ true => true | _ => false end.
Definition a_name (o : object) (a : string) : Prop := coded o = true -> is_text a /\ a <> "".
(** The request to call the object [a]. *)
Definition rename_service (o : object) : string := match o with Light => "smartlife.iot.common.system" | _ => "system" end.
Definition rename_method (o : object) : string :=
  match o with Plain | Light | Socket _ => "set_dev_alias" | Smart | Kid _ | CamKid _ true => "set_device_info" | Camera | CamKid _ false => "setDeviceAlias" end.
Definition rename_params (o : object) (a : string) : json :=
  match o with
  | Plain | Light | Socket _ => JObj [("alias", JStr a)]
  | Smart | Kid _ | CamKid _ true => JObj [("nickname", JStr (b64 a))]
  | Camera | CamKid _ false => JObj [("system", JObj [("sys", JObj [("dev_alias", JStr a)])])]
  end.
Definition rename_request (o : object) (a : string) : sent := addressed o (rename_service o) (rename_method o) (rename_params o a).
(** The information of the object says it is called [a]. *)
Definition called (o : object) (a : string) (d : dict json) : Prop :=
  match o with
  | Plain | Light | Socket _ | CamKid _ false => dwf d /\ dget "alias" d = Some (JStr a)
  | Smart | Kid _ | CamKid _ true => dget "nickname" d = Some (JStr (b64 a))
  | Camera => dwf d /\ dget "device_alias" d = Some (JStr a) /\ dget "alias" d = None
  end.
(** After the renaming the device reports the new name for the object, and the others as before. *)
Definition renamed (o : object) (a : string) (i i' : infos) : Prop :=
  match place o with
  | None => called o a (own i') /\ kids i' = kids i
  | Some id => own i' = own i /\ (exists d, dget id (kids i') = Some d /\ called o a d) /\
      forall id', id' <> id -> dget id' (kids i') = dget id' (kids i)
  end.
(** A device that obeys the request to call the object [a]. *)
Definition takes {S} (handle : S -> sent -> S * res (dict json)) (read : S -> infos) (s : S) (o : object) (a : string) (s' : S) : Prop :=
  exists resp x, handle s (rename_request o a) = (s', Ok resp) /\
    answered o (rename_service o) (rename_method o) x resp /\ renamed o a (read s) (read s').
(** A raw command gives back [x]: alone, or under the name of the method. *)
Definition gives (m : string) (x : json) (a : Manage_Model.answer) : Prop :=
  match a with AJson j => j = x | ADict d => dget m d = Some (RJson x) end.
(** The request to go back to factory settings *)
Definition reset_request (o : object) : sent :=
  match o with
  | Smart | Camera => AskName "device_reset"
  | Kid _ => addressed o "" "device_reset" JNull
  | _ => addressed o "system" "reset" (JObj [])
  end.
(** What a raw command passes on when no parameters are given *)
Definition no_params (o : object) : json := match o with Plain | Light | Socket _ => JObj [] | _ => JNull end.
Definition params_of (o : object) (lit : option json) : json := match lit with Some JNull | None => no_params o | Some j => j end.

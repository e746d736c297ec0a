(** Managing a device, or one of its children: renaming, rebooting, resetting, replacing its credentials, raw
    commands; and the commands of the tool for this (kasa/cli/device.py, kasa/cli/main.py), for one of the
    children if asked (kasa/cli/common.py).  What the tool prints besides the name is left out.  No proofs. *)
From Verif Require Import Base Py Iot_Model Smart_Model Child_Model Setup_Model Strip_Model.
Open Scope string_scope.
Open Scope list_scope.
Open Scope Z_scope.

(** The objects: a legacy device that is not a bulb, a bulb, a socket of a legacy strip, a SMART device, a
    child of one, a camera, a child of a camera hub (a SMART child or a camera). *)
Inductive object := Plain | Light | Socket (id : string) | Smart | Kid (id : string) | Camera | CamKid (id : string) (smart : bool).
(** What the device itself is asked: protocol.query with a dictionary or with the name of a method *)
Inductive sent := Ask (d : dict json) | AskName (m : string).
Inductive event := Sent (q : sent) | Updated.
(** What an update reads that matters here: the information of the device (of a camera: its basic_info), and
    that of its children by their ids. *)
Record infos := mkInfos { own : dict json; kids : dict (dict json) }.

(** dict comprehension {mappings.get(k, k): v}: smartcamdevice.py:225 and smartcamchild.py:73 *)
Definition map_keys (mappings : dict string) (d : dict json) : dict json :=
  fold_left (fun acc kv => dset (match dget (fst kv) mappings with Some k => k | None => fst kv end) (snd kv) acc) d [].
(** _map_info, smartcamdevice.py:224-235 *)
Definition cam_mappings : dict string :=
  [("device_model", "model"); ("device_alias", "alias"); ("sw_version", "fw_ver"); ("hw_version", "hw_ver"); ("hw_id", "hwId"); ("dev_id", "device_id")].
(** _map_child_info_from_parent, smartcamchild.py:66-73 *)
Definition camkid_mappings : dict string := [("device_model", "model"); ("sw_ver", "fw_ver"); ("hw_id", "hwId")].

Definition none_if {A} (o : option A) (f : A -> json) : json := match o with Some a => f a | None => JNull end.
(** alias: iotdevice.py:484-488, iotstrip.py:442-447 with 483-491, smartdevice.py:596-602 and
    smartcamdevice.py:259-264.  A child always has information: it is made of it. *)
Definition alias (o : object) (i : infos) : res json :=
  match o with
  | Plain | Light => Ok (none_if (iot_alias (Some (own i))) (fun v => v))
  | Socket id => match dget id (kids i) with Some d => dindex "alias" d | None => Err KKasa end
  | Smart => let! a := Setup_Model.alias (own i) in Ok (none_if a JStr)
  | Kid id | CamKid id true =>
      let! a := Setup_Model.alias (match dget id (kids i) with Some d => d | None => [] end) in Ok (none_if a JStr)
  | Camera => Ok (none_if (dget "alias" (map_keys cam_mappings (own i))) (fun v => v))
  | CamKid id false =>
      Ok (none_if (dget "alias" (map_keys camkid_mappings (match dget id (kids i) with Some d => d | None => [] end))) (fun v => v))
  end.

Section Device.
(** The device: its state, what a request makes of it and what it answers (through the protocol), and what
    an update reads *)
Variable S : Type.
Variable handle : S -> sent -> S * res (dict json).
Variable read : S -> infos.
(** The device, what the program last read of it, and what happened so far *)
Record world := mkWorld { phys : S; seen : infos; log : list event }.

(** protocol.query of the device itself *)
Definition query (q : sent) : M world (dict json) := fun w =>
  let (s, r) := handle (phys w) q in (mkWorld s (seen w) (log w ++ [Sent q]), r).
Definition dict_of (r : dict json) : dict rval := map (fun kv => (fst kv, RJson (snd kv))) r.
(** self.protocol.query of an object of a SMART device or a camera; a child's protocol is a wrapper,
    smartprotocol.py:487-518 and smartcamprotocol.py:220-258 *)
Definition ask (o : object) (r : child_request) : M world (dict rval) :=
  match o with
  | Kid id => do! resp <- query (Ask (wrap_child id r)) ;; mlift (unwrap_child (fst (method_and_params r)) resp)
  | CamKid id _ =>
      match r with
      | Child_Model.CName _ => mfail KKasa
      | CDict d => do! resp <- query (Ask (wrap_cam id d)) ;; mlift (cam_child_query (fun _ => Ok resp) id r)
      end
  | _ => match r with
         | Child_Model.CName m => do! resp <- query (AskName m) ;; mret (dict_of resp)
         | CDict d => do! resp <- query (Ask d) ;; mret (dict_of resp)
         end
  end.
(** _query_helper of a legacy object: iotdevice.py:246-284; of a socket: iotstrip.py:407-417 *)
Definition fields (j : json) : dict json := match j with JObj d => d | _ => [] end.
Definition helper (o : object) (target cmd : string) (arg : option json) : M world json := fun w =>
  let q := Ask (fields (create_request target cmd arg (match o with Socket id => Some [id] | _ => None end))) in
  let (w, r) := query q w in (w, query_helper target cmd (let! d := r in Ok (JObj d))).
Definition legacy (o : object) : bool := match o with Plain | Light | Socket _ => true | _ => false end.
Definition ignore {A} (m : M world A) : M world unit := do! _ <- m ;; mret tt.

(** set_alias: iotdevice.py:490-492, iotbulb.py:522-529, smartdevice.py:817-821, smartcamdevice.py:266-272 *)
Definition set_alias (o : object) (a : string) : M world unit :=
  match o with
  | Plain | Socket _ => ignore (helper o "system" "set_dev_alias" (Some (JObj [("alias", JStr a)])))
  | Light => ignore (helper o "smartlife.iot.common.system" "set_dev_alias" (Some (JObj [("alias", JStr a)])))
  | Smart | Kid _ | CamKid _ true => ignore (ask o (CDict [("set_device_info", JObj [("nickname", JStr (encoded a))])]))
  | Camera | CamKid _ false =>
      ignore (ask o (CDict [("setDeviceAlias", JObj [("system", JObj [("sys", JObj [("dev_alias", JStr a)])])])]))
  end.
(** reboot: iotdevice.py:594-600, smartdevice.py:823-829 *)
Definition reboot (o : object) (delay : Z) : M world unit :=
  if legacy o then ignore (helper o "system" "reboot" (Some (JObj [("delay", JInt delay)])))
  else ignore (ask o (CDict [("device_reboot", JObj [("delay", JInt delay)])])).
(** factory_reset: iotdevice.py:602-607, smartdevice.py:831-836 *)
Definition factory_reset (o : object) : M world unit :=
  if legacy o then ignore (helper o "system" "reset" None) else ignore (ask o (Child_Model.CName "device_reset")).
(** update: of the device, everything is read; of a child, nothing of its information, which comes from its
    parent: iotstrip.py:372-390, smartchilddevice.py:70-77 *)
Definition update_all : M world unit := fun w => (mkWorld (phys w) (read (phys w)) (log w ++ [Updated]), Ok tt).
Definition is_child (o : object) : bool := match o with Socket _ | Kid _ | CamKid _ _ => true | _ => false end.
Definition update (o : object) : M world unit := if is_child o then mret tt else update_all.
Definition name_of (o : object) : M world json := fun w => (w, alias o (seen w)).

(** Renaming in a program: set_alias, update of the object, alias *)
Definition api_rename (o : object) (a : string) : M world json :=
  do! _ <- set_alias o a ;; do! _ <- update o ;; name_of o.
(** alias NAME of the tool, cli/device.py:149-160; the update of a child is its parent's, cli/common.py:126-135 *)
Definition rename_cmd (o : object) (a : string) : M world json :=
  do! _ <- set_alias o a ;; do! _ <- update_all ;; name_of o.
(** The object of a command: pass_dev_or_child, cli/common.py:156-161; [kid]: the object of a child *)
Definition target (dev : object) (children : list Strip_Model.dev) (kid : string -> object) (o : child_opt) (index : option Z) : res object :=
  let! c := cli_child o index children in Ok (match c with Some k => kid (v_id k) | None => dev end).
Definition tool_rename dev children kid o index (a : string) : M world json :=
  do! t <- mlift (target dev children kid o index) ;; rename_cmd t a.

(** What a raw command gives back *)
Inductive answer := AJson (j : json) | ADict (d : dict rval).
(** command, cli/main.py:423-443.  [lit]: what ast.literal_eval makes of the parameters, if any.  Without
    module a legacy request has the name null, and None is in no answer. *)
Definition raw_cmd (o : object) (module : option string) (cmd : string) (lit : option (res json)) : M world answer :=
  do! args <- mlift (match lit with None => Ok None | Some r => let! j := r in Ok (match j with JNull => None | _ => Some j end) end) ;;
  if legacy o then
    match module with
    | Some m => do! j <- helper o m cmd args ;; mret (AJson j)
    | None => fun w =>
        let q := Ask (fields (create_request "null" cmd args (match o with Socket id => Some [id] | _ => None end))) in
        let (w, r) := query q w in
        (w, match r with Err e => if is_exception e then Err KKasa else Err e | Ok _ => Err KKasa end)
    end
  else do! d <- ask o (CDict [(cmd, match args with Some j => j | None => JNull end)]) ;; mret (ADict d).
(** With --child or --child-index the device is updated first, cli/common.py:181-190 *)
Definition asked (o : child_opt) (index : option Z) : bool := match o, index with CNone, None => false | _, _ => true end.
Definition tool_raw dev children kid o index (module : option string) cmd lit : M world answer :=
  do! _ <- (if asked o index then update_all else mret tt) ;;
  do! t <- mlift (target dev children kid o index) ;; raw_cmd t module cmd lit.

(** reboot, factory_reset and update_credentials of the tool, cli/device.py:169-204: they have no option for
    a child.  [yes]: what is answered when asked to confirm; click.confirm aborts otherwise.  error() ends
    the program.  [time]: what the update read as the time. *)
Definition tool_reboot (dev : object) (delay : Z) : M world unit := reboot dev delay.
Definition tool_reset (dev : object) (yes : bool) : M world unit := if yes then factory_reset dev else mfail PyOther.
Definition tool_credentials (dev : object) (yes : bool) (time : option json) (u p : string) : M world unit :=
  if legacy dev then mfail PyOther
  else if negb yes then mfail PyOther
  else match time with
       | None => mfail PyKeyError
       | Some t => ignore (ask dev (CDict [("set_qs_info", JObj [("account", account u p); ("time", t)])]))
       end.
End Device.
Arguments mkWorld {S}. Arguments phys {S}. Arguments seen {S}. Arguments log {S}.

(** A legacy device as its owner sees it (C150): what each service keeps, for the device itself or for one of
    its sockets, and how requests change it. *)
From Verif Require Import Base Py Service_Model.
Open Scope string_scope.
Open Scope list_scope.
Open Scope Z_scope.

(** What a service keeps.  Not every service uses all. *)
Record part := mkPart { enabled : bool; rule_ids : list string; runtime : list Z; energy : list Z; limit : Z; bound : option string; server : string }.
(** [None]: the device itself; [Some id]: its socket *)
Definition home := option string -> string -> part.
(** What the commands are for *)
Definition done (p : op) (x : part) : part :=
  match p with
  | SetEnabled b | AmbientEnable b => mkPart b (rule_ids x) (runtime x) (energy x) (limit x) (bound x) (server x)
  | DeleteRule id =>
      mkPart (enabled x) (filter (fun i => negb (String.eqb i id)) (rule_ids x)) (runtime x) (energy x) (limit x) (bound x) (server x)
  | DeleteAll => mkPart (enabled x) [] (runtime x) (energy x) (limit x) (bound x) (server x)
  | EraseUsage => mkPart (enabled x) (rule_ids x) [] (energy x) (limit x) (bound x) (server x)
  | EraseEnergy => mkPart (enabled x) (rule_ids x) (runtime x) [] (limit x) (bound x) (server x)
  | AmbientLimit z => mkPart (enabled x) (rule_ids x) (runtime x) (energy x) z (bound x) (server x)
  | CloudFirmwares => x
  | CloudServer u => mkPart (enabled x) (rule_ids x) (runtime x) (energy x) (limit x) (bound x) u
  | CloudConnect u _ => mkPart (enabled x) (rule_ids x) (runtime x) (energy x) (limit x) (Some u) (server x)
  | CloudDisconnect => mkPart (enabled x) (rule_ids x) (runtime x) (energy x) (limit x) None (server x)
  end.
(** The module a command belongs to *)
Definition belongs (p : op) (m : module) : Prop :=
  match p with
  | SetEnabled _ | DeleteRule _ | DeleteAll => m = Schedule \/ m = Antitheft \/ m = Countdown
  | EraseUsage => m = Usage
  | EraseEnergy => m = Energy
  | AmbientEnable _ | AmbientLimit _ => m = Ambient
  | CloudFirmwares | CloudServer _ | CloudConnect _ _ | CloudDisconnect => m = Cloud
  end.
Definition socket_of (o : owner) : option string := match o with OSocket id => Some id | _ => None end.

(** ** The services of devices
    Lights keep most of them under names of their own.  The names of schedule, energy, cloud and light sensor
    are those of the recorded devices in tests/fixtures/iot; none is recorded with anti-theft or countdown. *)
Definition is_light (o : owner) : bool := match o with OBulb => true | _ => false end.
Definition device_service (light : bool) (m : module) : string :=
  match m with
  | Schedule | Usage => if light then "smartlife.iot.common.schedule" else "schedule"
  | Antitheft => if light then "smartlife.iot.common.anti_theft" else "anti_theft"
  | Countdown => "countdown"
  | Energy => if light then "smartlife.iot.common.emeter" else "emeter"
  | Ambient => "smartlife.iot.LAS"
  | Cloud => if light then "smartlife.iot.common.cloud" else "cnCloud"
  end.
(** Which objects offer which module.  Energy of a strip is the sum of its sockets'. *)
Definition offers (o : owner) (m : module) : Prop :=
  match m with
  | Schedule | Usage | Antitheft => True
  | Countdown => o = OBulb \/ o = OStrip \/ exists id, o = OSocket id
  | Energy => o <> OStrip
  | Ambient => o = OSwitch
  | Cloud => forall id, o <> OSocket id
  end.

(** ** How a device takes a request *)
Definition text (k : string) (a : dict json) : option string := match dget k a with Some (JStr s) => Some s | _ => None end.
(** A command of the device's own language; unknown ones and wrong arguments change nothing. *)
Definition obeys (cmd : string) (a : dict json) (x : part) : part :=
  let is := String.eqb cmd in
  if is "set_overall_enable" then match dget "enable" a with Some (JBool b) => done (SetEnabled b) x | Some (JInt z) => done (SetEnabled (negb (z =? 0))) x | _ => x end
  else if is "set_enable" then match dget "enable" a with Some (JInt z) => done (AmbientEnable (negb (z =? 0))) x | _ => x end
  else if is "set_brt_level" then match dget "index" a, dget "value" a with Some (JInt 0), Some (JInt z) => done (AmbientLimit z) x | _, _ => x end
  else if is "delete_rule" then match text "id" a with Some i => done (DeleteRule i) x | None => x end
  else if is "delete_all_rules" then done DeleteAll x
  else if is "erase_runtime_stat" then done EraseUsage x
  else if is "erase_emeter_stat" then done EraseEnergy x
  else if is "set_server_url" then match text "server" a with Some u => done (CloudServer u) x | None => x end
  else if is "bind" then match text "username" a with Some u => done (CloudConnect u "") x | None => x end
  else if is "unbind" then done CloudDisconnect x
  else x.
(** Whom a request is for *)
Definition addressee (r : dict json) : option string :=
  match dget "context" r with
  | Some (JObj c) => match dget "child_ids" c with Some (JArr [JStr id]) => Some id | _ => None end
  | _ => None
  end.
Definition same_socket (a b : option string) : bool :=
  match a, b with Some x, Some y => String.eqb x y | None, None => true | _, _ => false end.
Definition takes (h : home) (req : json) : home :=
  match req with
  | JObj r => fun s svc =>
      if same_socket s (addressee r) && negb (String.eqb svc "context") then
        match dget svc r with
        | Some (JObj cmds) => fold_left (fun x (c : string * json) => match snd c with JObj a => obeys (fst c) a x | _ => x end) cmds (h s svc)
        | _ => h s svc
        end
      else h s svc
  | _ => h
  end.

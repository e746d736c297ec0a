(** What a user of the command line tool expects of its options. *)
From Verif Require Import Base Py Factory_Model Cli_Model.
Open Scope string_scope.
Open Scope list_scope.
Open Scope Z_scope.

Definition absent (s : option string) : Prop := s = None \/ s = Some "".

(** The account is given by both its parts. *)
Definition login_is (o : opts) (c : option (string * string)) : Prop :=
  match c with
  | Some (u, p) => o_user o = Some u /\ o_password o = Some p /\ u <> "" /\ p <> ""
  | None => absent (o_user o) \/ absent (o_password o)
  end.

(** Options that contradict each other. *)
Definition conflicting (o : opts) : Prop :=
  (o_target o <> "255.255.255.255" /\ ~ absent (o_host o))
  \/ o_sub o <> Some "discover" /\
     (o_alias o <> None /\ o_host o <> None
      \/ absent (o_user o) /\ ~ absent (o_password o)
      \/ ~ absent (o_user o) /\ absent (o_password o)
      \/ o_sub o <> None /\ o_host o = None /\ o_alias o = None).
(** The tool refuses to go on: nothing was sent and it ends with an error. *)
Definition refused {D} (x : list (ev D) * step unit) : Prop := x = ([], Stop Exit1) \/ x = ([], Stop Usage).

(** The connection the options describe, for a device that is reached without discovery. *)
Definition is_camera (o : opts) : Prop := o_type o = Some TCamera.
Definition described (o : opts) (c : config) : Prop :=
  c_host c = o_host o /\ c_port c = o_port o /\ c_timeout c = o_timeout o /\ c_hash c = o_hash o
  /\ login_is o (c_creds c) /\ http_port (c_conn c) = None
  /\ (is_camera o -> family_ (c_conn c) = SmartIpCamera /\ enc_ (c_conn c) = Aes
                     /\ https (c_conn c) = true /\ login_version (c_conn c) = Some 2)
  /\ (~ is_camera o -> family_value (family_ (c_conn c)) = o_family o
                     /\ (o_enc o = Some (enc_ (c_conn c)) \/ o_enc o = None /\ enc_ (c_conn c) = Klap)
                     /\ https (c_conn c) = o_https o /\ login_version (c_conn c) = Some (o_login o)).

(** What may be sent: only what the options name, with the account of the options. *)
Definition faithful {D} (o : opts) (e : ev D) : Prop :=
  match e with
  | Single h port c t dt => o_host o = Some h /\ port = o_port o /\ login_is o c /\ t = o_timeout o /\ dt = o_discovery o
  | Broadcast target port c t dt => absent (o_host o) /\ target = o_target o /\ port = o_port o /\ login_is o c
                                    /\ t = o_timeout o /\ dt = o_discovery o
  | ByAlias a target c => o_alias o = Some a /\ o_host o = None /\ target = o_target o /\ login_is o c
  | Connect c => described o c
  | Run s _ => o_sub o = Some s
  | Update _ | State _ | Disconnect _ => True
  end.

(** The older device types, the class each stands for and the connection they use. *)
Definition older (t : ty) (cls : device_class) : Prop :=
  match t with
  | TPlug => cls = IotPlug | TSwitch => cls = IotWallSwitch | TBulb => cls = IotBulb
  | TDimmer => cls = IotDimmer | TStrip => cls = IotStrip | TLightStrip => cls = IotLightStrip
  | TSmart | TCamera => False
  end.
Definition older_config (o : opts) (c : config) : Prop :=
  c_host c = o_host o /\ c_port c = o_port o /\ c_timeout c = o_timeout o /\ c_creds c = None /\ c_hash c = None
  /\ c_conn c = mkParams IotSmartPlugSwitch Xor None false None.

(** The device is read before a command uses it, unless the command sends raw requests. *)
Definition raw (s : string) : Prop := s = "command" \/ s = "raw-command".
Definition refreshed {D} (w : world D) (s : string) (d : D) (before l : list (ev D)) : Prop :=
  raw s /\ l = before \/ ~ raw s /\ w_update w before d = Ok tt /\ l = before ++ [Update d].

(** Devices that answer a broadcast have an address. *)
Definition real_hosts {D} (w : world D) : Prop := forall l f, w_broadcast w l = Ok f -> forall d, ~ In ("", d) f.

(** The device a command is meant for, and what happens before the command runs. *)
Inductive approach {D} (w : world D) (o : opts) (s : string) : list (ev D) -> D -> Prop :=
  | by_type t cls c l :
      o_type o = Some t -> older t cls -> older_config o c ->
      refreshed w s (w_legacy w cls c) [] l -> approach w o s l (w_legacy w cls c)
  | by_options c d :
      (o_type o = Some TSmart \/ o_type o = Some TCamera \/ o_type o = None /\ o_enc o <> None /\ o_family o <> "") ->
      described o c -> w_connect w [] c = Ok d -> approach w o s [Connect c] d
  | by_name a c d :
      o_type o = None -> (o_enc o = None \/ o_family o = "") -> o_alias o = Some a -> a <> "" -> login_is o c ->
      w_alias w [] a = Ok (Some d) -> approach w o s [ByAlias a (o_target o) c] d
  | by_address h c d l :
      o_type o = None -> (o_enc o = None \/ o_family o = "") -> o_host o = Some h -> h <> "" -> login_is o c ->
      w_single w [] h = Ok (Some d) ->
      refreshed w s d [Single h (o_port o) c (o_timeout o) (o_discovery o)] l -> approach w o s l d.

(** A device is released: something done to it is followed by a disconnect. *)
Definition touches {D} (d : D) (e : ev D) : Prop := e = Update d \/ e = State d \/ exists s, e = Run s d.
Definition released {D} (l : list (ev D)) : Prop :=
  forall d e a b, l = a ++ e :: b -> touches d e -> In (Disconnect d) b.

(** The options that `discover config` prints, typed in again with the same host and account. *)
Definition typed_in (p : printed) (c0 : devconfig) (o : opts) : Prop :=
  o_help o = false /\ o_type o = None /\ o_alias o = None /\ o_sub o <> Some "discover"
  /\ o_host o = Some (host c0) /\ o_target o = "255.255.255.255" /\ o_port o = port_override c0
  /\ timeout c0 = Some (o_timeout o) /\ login_is o (creds c0) /\ o_hash o = None
  /\ (absent (o_user o) <-> absent (o_password o))
  /\ o_family o = p_family p /\ (exists e, o_enc o = Some e /\ enc_value e = p_enc p) /\ o_https o = p_https p
  /\ o_login o = 2.                         (* the default of --login-version *)

(** ** Finding a device by its name *)
Definition named {D} (alias : string) (a : answer D) : Prop :=
  n_update a = Ok tt /\ exists n, n_alias a = Some n /\ n <> "" /\ lower n = lower alias.

(** Specification: legacy device objects over the network (C147). *)
From Verif Require Import Base Py Crypto_Model Iot_Model Iot_Spec IotUpd_Model WholeIot_Model.
Open Scope string_scope.
Open Scope list_scope.
Open Scope Z_scope.

(** What the object shows of command [c] of module [k] *)
Definition shows (o : lobj) (k c : string) : option json := field k c (l_lu o).
(** An update of the object asks for it: the system information, or a command of a module that has
    not once answered with an error *)
Definition wants (o : lobj) (k c : string) : Prop :=
  (k = "system" /\ c = "get_sysinfo") \/
  exists m, In m (l_mods o) /\ m_name m = k /\ In c (m_cmds m) /\ shows o k "err_code" = None.
(** No command is called like the two fields of an error, none occurs twice *)
Definition ordinary (mods : list imodule) : Prop :=
  forall m, In m mods -> ~ In "err_code" (m_cmds m) /\ ~ In "err_msg" (m_cmds m) /\ NoDup (m_cmds m).
(** A question: modules, commands without arguments, and no command called like the fields of an error *)
Definition question (q : json) : Prop :=
  jwf q /\ query_shaped q /\ forall k, ~ present [k; "err_code"] q /\ ~ present [k; "err_msg"] q.
(** ... about the system information and the commands of the modules [mods] *)
Definition within (mods : list imodule) (q : json) : Prop := forall k, present [k] q ->
  (k = "system" \/ exists m, In m mods /\ m_name m = k) /\
  forall c, present [k; c] q -> (k = "system" /\ c = "get_sysinfo") \/ exists m, In m mods /\ m_name m = k /\ In c (m_cmds m).
(** The device answers such questions with its [facts], and answering does not change them *)
Definition tells {D} (mods : list imodule) (dumps : json -> bytes) (dev_send : D -> bytes -> D * res json) (facts : D -> device) : Prop :=
  forall d q, question q -> within mods q -> exists d', dev_send d (dumps q) = (d', Ok (JObj (reply_to (facts d) q))) /\ facts d' = facts d.
(** Of [o] the update made [o']: everything wanted is as the device [w] has it, a wanted module the
    device does not know is marked, all else is as before. *)
Definition refreshed (w : device) (o o' : lobj) : Prop :=
  l_mods o' = l_mods o /\ l_limit o' = l_limit o /\
  forall k,
    match w k with
    | Some f => forall c, (wants o k c -> shows o' k c = Some (f c)) /\ (~ wants o k c -> shows o' k c = shows o k c)
    | None =>
        (forall c, c <> "err_code" -> c <> "err_msg" -> shows o' k c = shows o k c) /\
        ((exists c, wants o k c) -> shows o' k "err_code" = Some (JInt (-1)) /\ shows o' k "err_msg" = Some (JStr "module not support")) /\
        ((forall c, ~ wants o k c) -> forall c, shows o' k c = shows o k c)
    end.
(** The system information of the device: an object, that does not wrap another one *)
Definition informs (w : device) (s : dict json) : Prop :=
  exists f, w "system" = Some f /\ f "get_sysinfo" = JObj s /\ dget "system" s = None.
(** The modules the object has when its update asks for more than the system information *)
Definition modules_then (init : json -> list imodule) (o : lobj) (s : json) : list imodule :=
  match l_mods o with [] => init s | l => l end.
(** An object that knows only the system information *)
Definition informed (o : lobj) (mods : list imodule) (s : json) : lobj :=
  mkL [("system", [("get_sysinfo", s)])] (Some s) mods (l_limit o).

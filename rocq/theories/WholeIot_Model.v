(** A legacy device object over its protocol.  Models IotDevice.update, _modular_update and
    _query_helper (kasa/iot/iotdevice.py:246-284, 302-329, 395-434) as programs that make queries
    one after another, over IotProtocol.query (kasa/protocols/iotprotocol.py:76-137).  The requests
    and the merging are those of [Iot_Model] and [IotUpd_Model].  No proofs. *)
From Verif Require Import Base Py Crypto_Model Retry_Model Iot_Model IotUpd_Model Factory_Model.
Open Scope string_scope.
Open Scope list_scope.
Open Scope Z_scope.

(** What the object does: queries, and what it makes of what comes back, a reply or an exception.
    The query is a dictionary (iotprotocol.py:76-83). *)
Inductive iprog (R : Type) : Type :=
| IRet (r : R)
| IQuery (q : json) (k : res json -> iprog R).
Arguments IRet {R} _. Arguments IQuery {R} _ _.

Section Perform.
Context {D R : Type}.
(** json_dumps *)
Variable dumps : json -> bytes.
Variable dev_send : D -> bytes -> D * res json.
Variable treset : D -> D.
(** self.protocol.query(request), with the default of three retries (iotprotocol.py:76-83,
    139-160); nothing else of the protocol goes from one query to the next. *)
Fixpoint iperform (p : iprog R) (d : D) : D * R :=
  match p with
  | IRet r => (d, r)
  | IQuery q k => let '(d1, _, r) := iot_query (fun d => dev_send d (dumps q)) treset 3 d in iperform (k r) d1
  end.
End Perform.

(** The object: _last_update (inner values that are no dictionaries are left out, nothing reads
    them), _sys_info, the modules, max_device_response_size. *)
Record lobj := mkL { l_lu : dict (dict json); l_sys : option json; l_mods : list imodule; l_limit : Z }.
Definition set_lu (u : dict (dict json)) (o : lobj) : lobj := mkL u (l_sys o) (l_mods o) (l_limit o).
(** _set_sys_info, iotdevice.py:459-463, without the parsing of the features *)
Definition set_sys (j : json) (o : lobj) : lobj := mkL (l_lu o) (Some j) (l_mods o) (l_limit o).
Definition set_mods (l : list imodule) (o : lobj) : lobj := mkL (l_lu o) (l_sys o) l (l_limit o).
Definition as_json (u : dict (dict json)) : json := JObj (map (fun kv => (fst kv, JObj (snd kv))) u).

(** iotdevice.py:415-417: the first exception ends it *)
Fixpoint gather {R} (rs : list json) (got : list json) (k : res (list json) -> iprog R) : iprog R :=
  match rs with
  | [] => k (Ok got)
  | r :: rs => IQuery r (fun a => match a with Ok j => gather rs (got ++ [j]) k | Err e => k (Err e) end)
  end.
(** response.items() of each, iotdevice.py:424-425.  Of a reply that is no dictionary the replies
    before it have been merged into the inner dictionaries already; that is left out. *)
Fixpoint dicts (l : list json) : res (list (dict json)) :=
  match l with
  | [] => Ok []
  | JObj d :: l => let! ds := dicts l in Ok (d :: ds)
  | _ :: _ => Err PyAttributeError
  end.

(** iotdevice.py:324; an exception leaves the rest as it is *)
Definition with_sys (info : json) (o : lobj) (k : lobj -> lobj * res unit) : lobj * res unit :=
  match extract_sys_info info with Ok s => k (set_sys s o) | Err e => (o, Err e) end.
(** _modular_update and what follows it, iotdevice.py:395-434, 324.  The hooks and the features
    (325-329) are in other models. *)
Definition modular {R} (o : lobj) (k : lobj * res unit -> iprog R) : iprog R :=
  match requests (l_limit o) base (map (fun m => mkImod (supported m (l_lu o)) (m_size m) (query_of m)) (l_mods o)) with
  | Err e => k (o, Err e)
  | Ok rs => gather rs [] (fun a =>
      match bind a dicts with
      | Err e => k (o, Err e)
      | Ok ds => let o := set_lu (merge_replies (l_lu o) ds) o in k (with_sys (as_json (l_lu o)) o (fun o => (o, Ok tt)))
      end)
  end.
(** iotdevice.py:319-320; [init] gives the modules a kind of device has *)
Definition ready (init : json -> list imodule) (o : lobj) : lobj :=
  match l_mods o, l_sys o with [], Some s => set_mods (init s) o | _, _ => o end.
(** update, iotdevice.py:302-329 *)
Definition update_legacy {R} (init : json -> list imodule) (o : lobj) (k : lobj * res unit -> iprog R) : iprog R :=
  match l_lu o with
  | _ :: _ => modular (ready init o) k
  | [] => IQuery base (fun a =>                                        (* 313-317 *)
      match a with
      | Err e => k (o, Err e)
      | Ok (JObj d) =>
          let o := set_lu (merge_replies [] [d]) o in
          match extract_sys_info (JObj d) with
          | Err e => k (o, Err e)
          | Ok s => modular (ready init (set_sys s o)) k
          end
      | Ok _ => k (o, Err PyAttributeError)
      end)
  end.
(** A command, iotdevice.py:246-284 *)
Definition legacy_command {R} (target cmd : string) (arg : option json) (ids : option (list string)) (k : res json -> iprog R) : iprog R :=
  IQuery (create_request target cmd arg ids) (fun a => k (query_helper target cmd a)).

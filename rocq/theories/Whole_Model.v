(** A device object at work: updates and setters as programs that make queries, to be run with any
    protocol, transport and device below.  Models the update of kasa/smart/smartdevice.py once more,
    this time with the queries it makes and their parameters; [Smod_Model] has the same function with
    the replies given beforehand.  No proofs. *)
From Verif Require Import Base Py Retry_Model Smart_Model Smod_Model.
Open Scope string_scope.
Open Scope list_scope.
Open Scope Z_scope.

(** A program that makes queries: what it does next may depend on the replies it got.  [retries] is
    the argument retry_count of BaseProtocol.query (protocols/protocol.py:102). *)
Inductive prog (A R : Type) :=
| Ret (r : R)
| Query (q : A) (retries : Z) (k : res (dict rval) -> prog A R).
Arguments Ret {A R} _. Arguments Query {A R} _ _ _.
(** Running it: [one] makes one query *)
Fixpoint perform {D A R} (one : A -> Z -> world D -> world D * list act * res (dict rval)) (p : prog A R) (w : world D) : world D * R :=
  match p with
  | Ret r => (w, r)
  | Query q retries k => let '(w1, _, r) := one q retries w in perform one (k r) w1
  end.

(** retry_count: int = 3, smartprotocol.py:132 *)
Definition RETRIES : Z := 3.
(** A value of a reply as it is kept *)
Definition kept (v : rval) : reply := match v with RJson j => RVal j | RCode c => RErr c end.
Definition keep (d : dict rval) : dict reply := map (fun kv : string * rval => (fst kv, kept (snd kv))) d.

Section Update.
(** The parameters with which the modules ask for a method (Module.query; of two modules that ask for
    one method with different parameters the model knows nothing) *)
Variable par : string -> json.
Definition with_params (req : list string) : dict json := map (fun k => (k, par k)) req.

(** _handle_modular_update_error, smartdevice.py:367-402 *)
Fixpoint alone {R} (req : list string) (k : res (dict reply) -> prog (dict json) R) : prog (dict json) R :=
  match req with
  | [] => k (Ok [])
  | x :: req =>
      Query [(x, par x)] RETRIES (fun r =>
        match (match r with
               | Ok r => Ok (match dget x (keep r) with Some v => v | None => RErr INTERNAL end)
               | Err e => if is_exception e then Ok (RErr INTERNAL) else Err e
               end) with
        | Ok v => alone req (fun rest => k (let! rest := rest in Ok ((x, v) :: rest)))
        | Err e => k (Err e)
        end)
  end.
(** smartdevice.py:348-353 *)
Definition ask_for {R} (req : list string) (k : res (dict reply) -> prog (dict json) R) : prog (dict json) R :=
  Query (with_params req) RETRIES (fun r =>
    match r with
    | Ok r => k (Ok (keep r))
    | Err e => if is_exception e then alone req k else k (Err e)
    end).
(** _modular_update, smartdevice.py:321-365 *)
Definition update_modules {R} (first : bool) (now : Z) (d : dev) (k : dev * report * res unit -> prog (dict json) R) : prog (dict json) R :=
  let l := planned (hub_child d) first now (mods d) in
  let req := request (map (fun x => (fst (fst x), snd x)) l) in
  let d := set_mods d (map fst l) in
  ask_for req (fun a =>
    k match a with
      | Err e => (d, report_of (Some req) (lu d) None (info d) false l, Err e)
      | Ok resp =>
          let d := set_lu d (dupdate (lu d) resp) in
          match try_get "get_device_info" (if first then lu d else resp) with
          | Err e => (d, report_of (Some req) (lu d) None (info d) false l, Err e)
          | Ok i =>
              let d := set_info d i in
              (set_mods d (post_all now (lu d) None i l), report_of (Some req) (lu d) None i true l, Ok tt)
          end
      end).
(** The first query, smartdevice.py:213-218 *)
Definition initial_query : dict json := [("component_nego", JNull); ("get_device_info", JNull); ("get_connect_cloud_state", JNull)].
(** update, smartdevice.py:261-298 with _negotiate, 207-232, without the children *)
Definition update_object {R} (init : dict reply -> res (list smod)) (now : Z) (d : dev) (k : dev * report * res unit -> prog (dict json) R)
  : prog (dict json) R :=
  if started d then update_modules false now d k
  else
    let d := set_started d in
    Query initial_query RETRIES (fun r =>
      match r with
      | Err e => k (d, no_report, Err e)
      | Ok resp =>
          let resp := keep resp in
          let d := set_lu d (dupdate (lu d) resp) in
          match try_get "get_device_info" resp with
          | Err e => k (d, no_report, Err e)
          | Ok i =>
              let d := set_info d i in
              match init resp with
              | Err e => k (d, no_report, Err e)
              | Ok l =>
                  let d := set_mods d (map (fun m => (m, fresh)) l) in
                  update_modules true now (cloud_first now d) (fun x =>
                    let '(d', r, out) := x in k (d', mkRep (asked r) (requested r) (processed r) (cloud_report d), out))
              end
          end
      end).

(** What a user does with the object: update it, or call a setter of a module, which makes a query
    and lets the module be asked again, whatever comes of it (smartmodule.py:23-39, 161-168). *)
Inductive use := UUpdate (init : dict reply -> res (list smod)) (now : Z) | USetter (module : string) (q : dict json).
Inductive outcome := DidUpdate (first : bool) (now : Z) (r : report) (result : res unit) | DidSet (module : string) (result : res (dict rval)).
Fixpoint session {R} (us : list use) (d : dev) (k : dev * list outcome -> prog (dict json) R) : prog (dict json) R :=
  match us with
  | [] => k (d, [])
  | UUpdate init now :: us =>
      update_object init now d (fun x =>
        let '(d1, r, out) := x in
        session us d1 (fun y => k (fst y, DidUpdate (negb (started d)) now r out :: snd y)))
  | USetter x q :: us =>
      Query q RETRIES (fun r => session us (call_setter x d) (fun y => k (fst y, DidSet x r :: snd y)))
  end.
End Update.

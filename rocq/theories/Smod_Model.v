(** SMART modules and the update cycle.  Models kasa/smart/smartmodule.py and the
    update cycle of kasa/smart/smartdevice.py and smartchilddevice.py.  Time is in
    microseconds.  No proofs. *)
From Verif Require Import Base Py.
Open Scope string_scope.
Open Scope list_scope.
Open Scope Z_scope.

Definition SEC : Z := 1000000.

(** A reply to one method: its result, or the error code put in its place. *)
Inductive reply := RVal (j : json) | RErr (code : Z).

(** A module class: its name, the methods it queries (parameters are left out), the
    minimum update interval, the optional response keys, membership in
    FIRST_UPDATE_MODULES (smartdevice.py:53), and its post-update hook: the default
    one, or whether an overriding one succeeds on the device's replies. *)
Record smod := mkMod { m_name : string; m_query : list string; m_min : Z; m_optional : list string; m_first : bool;
                       m_hook : option (dict reply -> bool) }.
(** SmartModule.__init__, smartmodule.py:74-80: _last_update_time,
    _last_update_error is set, _error_count *)
Record mstate := mkSt { t_last : option Z; t_err : bool; t_count : Z }.
Definition fresh : mstate := mkSt None false 0.

(** _set_error, smartmodule.py:89-111; [ok]: no error *)
Definition set_error (ok : bool) (st : mstate) : mstate :=
  if ok then mkSt (t_last st) false 0 else mkSt (t_last st) true (t_count st + 1).
(** update_interval, smartmodule.py:112-121 *)
Definition update_interval (hub_child : bool) (m : smod) (st : mstate) : Z :=
  if t_err st then 30 * SEC * t_count st
  else if hub_child then 86400 * SEC
  else m_min m.
(** disabled, smartmodule.py:123-126 *)
Definition disabled (st : mstate) : bool := 10 <=? t_count st.
(** _should_update, smartmodule.py:128-134; a time of 0 is false *)
Definition should_update (hub_child : bool) (m : smod) (st : mstate) (now : Z) : bool :=
  (update_interval hub_child m st =? 0) ||
  match t_last st with
  | None => true
  | Some t => (t =? 0) || (update_interval hub_child m st <=? now - t)
  end.
(** allow_update_after, smartmodule.py:23-39: after a setter, whatever its outcome *)
Definition after_setter (st : mstate) : mstate := mkSt None (t_err st) (t_count st).

(** data, smartmodule.py:179-237.  [One]: an unwrapped reply, [Many]: a mapping. *)
Inductive view := One (j : json) | Many (d : dict json).
Fixpoint removable (opt : list string) (d : dict reply) : res (list string) :=
  match d with
  | [] => Ok []
  | (k, RVal _) :: d => removable opt d
  | (k, RErr c) :: d => if smem k opt then let! r := removable opt d in Ok (k :: r) else Err (KDevice (Some c))
  end.
Fixpoint values (d : dict reply) : dict json :=
  match d with
  | [] => []
  | (k, RVal v) :: d => (k, v) :: values d
  | (_, RErr _) :: d => values d
  end.
Definition data (m : smod) (own : dict reply) (parent : option (dict reply)) (sys_info : json) : res view :=
  match m_query m with
  | [] => Ok (One sys_info)
  | k0 :: _ =>
      let! src := (if dmem k0 own then Ok own
                   else match parent with
                        | Some p => if dmem k0 p then Ok p else Err KKasa
                        | None => Err KKasa
                        end) in
      let filtered := filter (fun kv : string * reply => smem (fst kv) (m_query m)) src in
      let! removed := removable (m_optional m) filtered in
      Ok (match values filtered, removed with
          | [(_, v)], [] => One v
          | d, _ => Many d
          end)
  end.
(** SmartCamModule.data, smartcam/smartcammodule.py:74-111, for a module that queries
    [q]; [getter] and [section] are QUERY_GETTER_NAME and QUERY_MODULE_NAME *)
Fixpoint cam_check (q : list string) (found : dict reply) : res unit :=
  match q with
  | [] => Ok tt
  | k :: q => match dget k found with
              | None => Err KKasa
              | Some (RErr c) => Err (KDevice (Some c))
              | Some (RVal _) => cam_check q found
              end
  end.
Definition cam_data (q : list string) (getter section : string) (own : dict reply) (sys_info : json) : res view :=
  match q with
  | [] => Ok (One sys_info)
  | [_] =>
      match dget getter own with
      | Some (RErr c) => Err (KDevice (Some c))
      | None => Err KKasa
      | Some (RVal v) =>
          if truthy v then
            match v with
            | JObj d => Ok (One (match dget section d with Some x => x | None => v end))
            | _ => Err PyAttributeError
            end
          else Err KKasa
      end
  | _ =>
      let found := filter (fun kv : string * reply => smem (fst kv) q) own in
      let! _ := cam_check q found in
      Ok (Many (values found))
  end.
(** _post_update_hook, smartmodule.py:145-151: whether it succeeds *)
Definition hook_ok (m : smod) (own : dict reply) (parent : option (dict reply)) (sys_info : json) : bool :=
  match m_hook m with
  | Some h => h own
  | None => match data m own parent sys_info with
            | Ok (One v) => truthy v
            | Ok (Many d) => match d with [] => false | _ => true end
            | Err _ => false
            end
  end.
(** _handle_module_post_update, smartdevice.py:300-319 *)
Definition post_update (ok had_query : bool) (now : Z) (st : mstate) : mstate :=
  if disabled st then st
  else
    let st := if had_query then mkSt (Some now) (t_err st) (t_count st) else st in
    if ok then set_error true st else if had_query then set_error false st else st.

(** The network: the n-th query of an update and the methods it asks for. *)
Definition net := nat -> list string -> res (dict reply).
Definition INTERNAL : Z := -100001.       (* exceptions.py:183 *)
(** _handle_modular_update_error, smartdevice.py:367-402: each method on its own *)
Fixpoint one_by_one (n : net) (i : nat) (req : list string) : res (dict reply) :=
  match req with
  | [] => Ok []
  | k :: req =>
      let! v := match n i [k] with
                | Ok r => Ok (match dget k r with Some v => v | None => RErr INTERNAL end)
                | Err e => if is_exception e then Ok (RErr INTERNAL) else Err e
                end in
      let! rest := one_by_one n (S i) req in
      Ok ((k, v) :: rest)
  end.
(** smartdevice.py:348-353 and smartchilddevice.py:100-105 *)
Definition ask (n : net) (req : list string) : res (dict reply) :=
  match n 1%nat req with
  | Ok r => Ok r
  | Err e => if is_exception e then one_by_one n 2 req else Err e
  end.
(** req.update(query) *)
Definition add_keys (req q : list string) : list string :=
  fold_left (fun r k => if smem k r then r else r ++ [k]) q req.
(** _try_get_response without default, smartdevice.py:180-198 *)
Definition try_get (k : string) (d : dict reply) : res json :=
  match dget k d with
  | Some (RVal JNull) | Some (RErr _) | None => Err KKasa
  | Some (RVal v) => Ok v
  end.

(** A device: modules with their states, _last_update, _info, whether
    _last_update_time is set, whether it is the child of a hub. *)
Record dev := mkDev { mods : list (smod * mstate); lu : dict reply; info : json; started : bool; hub_child : bool }.
Definition set_mods d x := mkDev x (lu d) (info d) (started d) (hub_child d).
Definition set_lu d x := mkDev (mods d) x (info d) (started d) (hub_child d).
Definition set_info d x := mkDev (mods d) (lu d) x (started d) (hub_child d).
Definition set_started d := mkDev (mods d) (lu d) (info d) true (hub_child d).

(** What an update did: the modules asked for, the methods requested, for every
    processed module whether its hook succeeded, and the same for the cloud module
    processed early. *)
Record report := mkRep { asked : list string; requested : option (list string); processed : list (string * bool);
                         early : list (string * bool) }.
Definition no_report : report := mkRep [] None [] [].

(** One module in the planning loop of _modular_update, smartdevice.py:325-340: its
    state, and whether it is asked *)
Definition plan (hub first : bool) (now : Z) (ms : smod * mstate) : mstate * bool :=
  let (m, st) := ms in
  if (first || negb (disabled st)) && match m_query m with [] => false | _ => true end then
    if first && m_first m then (mkSt (Some now) (t_err st) (t_count st), false)
    else (st, should_update hub m st now)
  else (st, false).
(** The request: the queries of the modules asked *)
Definition request (l : list (smod * bool)) : list string :=
  fold_left (fun req (mb : smod * bool) => if snd mb then add_keys req (m_query (fst mb)) else req) l [].
(** The closing loop, smartdevice.py:360-363 and smartchilddevice.py:108-111 *)
Definition post_all (now : Z) (own : dict reply) (parent : option (dict reply)) (inf : json)
    (l : list (smod * mstate * bool)) : list (smod * mstate) :=
  map (fun x => match x with (m, st, a) => (m, post_update (hook_ok m own parent inf) a now st) end) l.
Definition report_of (req : option (list string)) (own : dict reply) (parent : option (dict reply)) (inf : json) (done : bool)
    (l : list (smod * mstate * bool)) : report :=
  mkRep (map (fun x => m_name (fst (fst x))) (filter (fun x => snd x) l)) req
        (if done then map (fun x => (m_name (fst (fst x)), hook_ok (fst (fst x)) own parent inf)) l else []) [].

Definition planned (hub first : bool) (now : Z) (l : list (smod * mstate)) : list (smod * mstate * bool) :=
  map (fun ms => let p := plan hub first now ms in (fst ms, fst p, snd p)) l.
(** _modular_update, smartdevice.py:321-365 *)
Definition modular_update (n : net) (first : bool) (now : Z) (d : dev) : dev * report * res unit :=
  let l := planned (hub_child d) first now (mods d) in
  let req := request (map (fun x => (fst (fst x), snd x)) l) in
  let d := set_mods d (map fst l) in
  match ask n req with
  | Err e => (d, report_of (Some req) (lu d) None (info d) false l, Err e)
  | Ok resp =>
      let d := set_lu d (dupdate (lu d) resp) in
      match try_get "get_device_info" (if first then lu d else resp) with
      | Err e => (d, report_of (Some req) (lu d) None (info d) false l, Err e)
      | Ok i =>
          let d := set_info d i in
          (set_mods d (post_all now (lu d) None i l), report_of (Some req) (lu d) None i true l, Ok tt)
      end
  end.

(** _negotiate, smartdevice.py:207-232, and _initialize_modules, 419-468: [init]
    says which modules the components give.  Children are not part of this model. *)
Definition negotiate (n : net) (init : dict reply -> res (list smod)) (d : dev) : dev * res unit :=
  match n 0%nat ["component_nego"; "get_device_info"; "get_connect_cloud_state"] with
  | Err e => (d, Err e)
  | Ok resp =>
      let d := set_lu d (dupdate (lu d) resp) in
      match try_get "get_device_info" resp with
      | Err e => (d, Err e)
      | Ok i =>
          let d := set_info d i in
          match init resp with
          | Err e => (d, Err e)
          | Ok l => (set_mods d (map (fun m => (m, fresh)) l), Ok tt)
          end
      end
  end.
(** The cloud module is processed at once, smartdevice.py:273-275 *)
Definition cloud_first (now : Z) (d : dev) : dev :=
  set_mods d (map (fun ms : smod * mstate =>
    if String.eqb (m_name (fst ms)) "Cloud" then (fst ms, post_update (hook_ok (fst ms) (lu d) None (info d)) true now (snd ms)) else ms)
    (mods d)).
Definition cloud_report (d : dev) : list (string * bool) :=
  map (fun ms : smod * mstate => (m_name (fst ms), hook_ok (fst ms) (lu d) None (info d)))
    (filter (fun ms : smod * mstate => String.eqb (m_name (fst ms)) "Cloud") (mods d)).
(** update, smartdevice.py:261-298, without the children *)
Definition update (n : net) (init : dict reply -> res (list smod)) (now : Z) (d : dev) : dev * report * res unit :=
  if started d then modular_update n false now d
  else
    match negotiate n init (set_started d) with
    | (d, Err e) => (d, no_report, Err e)
    | (d, Ok _) =>
        let '(d', r, out) := modular_update n true now (cloud_first now d) in
        (d', mkRep (asked r) (requested r) (processed r) (cloud_report d), out)
    end.

(** _update of a child, smartchilddevice.py:78-118: [parent] holds the replies of
    the parent.  Its own replies are replaced, not merged (106). *)
Definition child_update (n : net) (parent : option (dict reply)) (now : Z) (d : dev) : dev * report * res unit :=
  let l := planned (hub_child d) false now (mods d) in
  let req := request (map (fun x => (fst (fst x), snd x)) l) in
  match req with
  | [] => (set_started (set_mods d (post_all now (lu d) parent (info d) l)), report_of None (lu d) parent (info d) true l, Ok tt)
  | _ =>
      match ask n req with
      | Err e => (set_mods d (map fst l), report_of (Some req) (lu d) parent (info d) false l, Err e)
      | Ok resp =>
          (set_started (set_lu (set_mods d (post_all now resp parent (info d) l)) resp), report_of (Some req) resp parent (info d) true l, Ok tt)
      end
  end.

(** The setter of the named module was called *)
Definition call_setter (x : string) (d : dev) : dev :=
  set_mods d (map (fun ms : smod * mstate => if String.eqb (m_name (fst ms)) x then (fst ms, after_setter (snd ms)) else ms) (mods d)).

(** Histories of a device and of a child *)
Inductive event :=
| EUpdate (n : net) (init : dict reply -> res (list smod)) (now : Z)
| EChild (n : net) (parent : option (dict reply)) (now : Z)
| ESetter (x : string).
Inductive obs := OUpdate (first : bool) (now : Z) (r : report) | OSetter (x : string).
Definition step (d : dev) (e : event) : dev * obs :=
  match e with
  | EUpdate n init now => let '(d', r, _) := update n init now d in (d', OUpdate (negb (started d)) now r)
  | EChild n parent now => let '(d', r, _) := child_update n parent now d in (d', OUpdate false now r)
  | ESetter x => (call_setter x d, OSetter x)
  end.
Fixpoint run (d : dev) (es : list event) : dev * list obs :=
  match es with
  | [] => (d, [])
  | e :: es => let (d1, o) := step d e in let (d2, os) := run d1 es in (d2, o :: os)
  end.
Definition new_dev : dev := mkDev [] [] JNull false false.
Definition new_child (hub : bool) (l : list smod) (i : json) (last : dict reply) : dev :=
  mkDev (map (fun m => (m, fresh)) l) last i false hub.

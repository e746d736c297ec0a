(** Legacy (IOT) devices: merging and splitting of update queries, commands, and the
    replies of strips.  Models parts of kasa/iot/iotmodule.py, iotdevice.py and
    iotstrip.py.  No proofs. *)
From Verif Require Import Base Py.
Open Scope string_scope.
Open Scope list_scope.
Open Scope Z_scope.

(** _merge_dict(dest, source), iotmodule.py:17-24.  [source] is a dictionary; iterating
    anything else is an error.  When [dest] is not a dictionary the first iteration
    raises TypeError: neither `k in dest` nor `dest[k] = v` works on it. *)
Fixpoint merge (dest source : json) {struct source} : res json :=
  match source with
  | JObj s =>
      match dest with
      | JObj d =>
          (fix go (s : list (string * json)) (d : dict json) : res json :=
             match s with
             | [] => Ok (JObj d)
             | (k, v) :: s =>
                 match v, dget k d with
                 | JObj _, Some dv => let! dv' := merge dv v in go s (dset k dv' d)
                 | _, _ => go s (dset k v d)
                 end
             end) s d
      | _ => match s with [] => Ok dest | _ => Err PyTypeError end
      end
  | _ => Err PyAttributeError
  end.

(** ** The update query *)
(** A module as _modular_update sees it: is_supported, the estimated size of its
    reply, its query *)
Record imod := mkImod { i_supported : bool; i_size : Z; i_query : json }.
(** The loop of _modular_update, iotdevice.py:395-413.  [req]: the request being
    built, [est] its estimated reply, [out] the finished requests. *)
Fixpoint split (limit : Z) (l : list imod) (req : json) (est : Z) (out : list json) : res (list json) :=
  match l with
  | [] => Ok (out ++ [req])
  | m :: l =>
      if i_supported m then
        let est := est + i_size m in
        let '(out, req, est) := if limit <? est then (out ++ [req], JObj [], i_size m) else (out, req, est) in
        let! req := merge req (i_query m) in
        split limit l req est out
      else split limit l req est out
  end.
(** The requests sent: [if request] drops empty ones, iotdevice.py:415-417 *)
Definition requests (limit : Z) (req : json) (l : list imod) : res (list json) :=
  let est := match jcontains "system" req with Ok true => 1024 | _ => 0 end in
  let! rs := split limit l req est [] in
  Ok (filter truthy rs).

(** is_supported, iotmodule.py:69-76, for a module with a query *)
Definition is_supported (name : string) (last_update : dict (dict json)) : bool :=
  match dget name last_update with
  | None => true
  | Some data => negb (dmem "err_code" data)
  end.
(** The replies merged onto the last update, iotdevice.py:423-434: only dictionary
    values count.  Values only; the sharing of inner dictionaries is below. *)
Definition merge_reply (u : dict (dict json)) (reply : dict json) : dict (dict json) :=
  fold_left (fun u (kv : string * json) =>
    match snd kv with
    | JObj v => dset (fst kv) (dupdate (match dget (fst kv) u with Some x => x | None => [] end) v) u
    | _ => u
    end) reply u.
Definition merge_replies (u : dict (dict json)) (replies : list (dict json)) : dict (dict json) := fold_left merge_reply replies u.

(** ** A command: _query_helper, iotdevice.py:246-284 *)
Definition err_code_bad (result : json) : res bool :=
  let! has := jcontains "err_code" result in
  if has then
    let! c := jitem "err_code" result in
    Ok (negb (match c with JInt z => z =? 0 | JBool b => negb b | JFloat s => negb (truthy (JFloat s)) | _ => false end))
  else Ok false.
Definition query_helper (target cmd : string) (reply : res json) : res json :=
  match reply with
  | Err e => if is_exception e then Err KKasa else Err e
  | Ok response =>
      let! has := jcontains target response in
      if negb has then Err KKasa else
      let! result := jitem target response in
      let! bad := err_code_bad result in
      if bad then Err KKasa else
      let! has := jcontains cmd result in
      if negb has then Err KKasa else
      let! result := jitem cmd result in
      let! bad := err_code_bad result in
      if bad then Err KKasa else
      let! has := jcontains "err_code" result in
      if has then match result with JObj d => Ok (JObj (ddel "err_code" d)) | _ => Err PyTypeError end
      else Ok result
  end.
(** _create_request, iotdevice.py:225-238; a socket's commands, iotstrip.py:405-415, go through
    its strip's, with the socket's id *)
Definition create_request (target cmd : string) (arg : option json) (child_ids : option (list string)) : json :=
  let a := match arg with Some a => a | None => JObj [] end in
  match child_ids with
  | None => JObj [(target, JObj [(cmd, a)])]
  | Some ids => JObj [("context", JObj [("child_ids", JArr (map JStr ids))]); (target, JObj [(cmd, a)])]
  end.
(** A target "context" is not a use of it. *)
(** A socket's own _create_request, iotstrip.py:392-403, of which its modules build their update
    queries; without arguments they are null *)
Definition socket_request (id target cmd : string) (arg : option json) : json :=
  JObj [("context", JObj [("child_ids", JArr [JStr id])]); (target, JObj [(cmd, match arg with Some a => a | None => JNull end)])].
(** The update query of a socket's module: the requests of its commands merged, as in
    rulemodule.py:61-64 and usage.py:13-25 *)
Fixpoint socket_query_from (id target : string) (l : list (string * option json)) (q : json) : res json :=
  match l with
  | [] => Ok q
  | (cmd, arg) :: l => let! q := merge q (socket_request id target cmd arg) in socket_query_from id target l q
  end.
Definition socket_query (id target : string) (first : string * option json) (rest : list (string * option json)) : res json :=
  socket_query_from id target rest (socket_request id target (fst first) (snd first)).

(** ** Strips: inner dictionaries are shared objects *)
(** The store of inner dictionaries, and for the strip and every socket its
    _last_update: the addresses of the inner dictionaries. *)
Record strip := mkStrip { store : list (dict json); parent_lu : dict nat; sockets : list (dict nat) }.
Fixpoint set_nth {A} (n : nat) (x : A) (l : list A) : list A :=
  match l, n with
  | [], _ => []
  | _ :: l, O => x :: l
  | y :: l, S n => y :: set_nth n x l
  end.
(** update.setdefault(k, {}).update( **v ), iotdevice.py:433-434: in place *)
Definition put (k : string) (v : dict json) (s : list (dict json) * dict nat) : list (dict json) * dict nat :=
  let (st, lu) := s in
  match dget k lu with
  | Some a => (set_nth a (dupdate (nth a st []) v) st, lu)
  | None => (st ++ [dupdate [] v], dset k (length st) lu)
  end.
Definition put_all (reply : dict (dict json)) (s : list (dict json) * dict nat) : list (dict json) * dict nat :=
  fold_left (fun s (kv : string * dict json) => put (fst kv) (snd kv) s) reply s.
(** The first update of a strip: its own replies, then its sockets are made with its
    _last_update (iotstrip.py:124-151, 324-332); [n] sockets *)
Definition make_strip (reply : dict (dict json)) (n : nat) : strip :=
  let (st, lu) := put_all reply ([], []) in mkStrip st lu (repeat lu n).
Inductive event := EParent (reply : dict (dict json)) | ESocket (i : nat) (reply : dict (dict json)).
(** Later updates of the strip and of a socket (iotstrip.py:374-390) *)
Definition step (s : strip) (e : event) : strip :=
  match e with
  | EParent reply => let (st, lu) := put_all reply (store s, parent_lu s) in mkStrip st lu (sockets s)
  | ESocket i reply =>
      match nth_error (sockets s) i with
      | None => s
      | Some lu0 => let (st, lu) := put_all reply (store s, lu0) in mkStrip st (parent_lu s) (set_nth i lu (sockets s))
      end
  end.
Definition run (s : strip) (es : list event) : strip := fold_left step es s.
(** module data of socket [i]: _last_update[k], iotmodule.py:52-66 *)
Definition socket_data (i : nat) (k : string) (s : strip) : option (dict json) :=
  match nth_error (sockets s) i with
  | None => None
  | Some lu => option_map (fun a => nth a (store s) []) (dget k lu)
  end.

(** Queries to children as they happen: the hub's query and what is made of its result.  No proofs. *)
From Verif Require Import Base Py Smart_Model Child_Model.

(** A result of the hub's query; one method alone never has a code for a result *)
Definition as_json (v : rval) : json := match v with RJson j => j | RCode c => JInt c end.
Definition jsons (d : dict rval) : dict json := map (fun kv => (fst kv, as_json (snd kv))) d.

Section Over.
(** [hub]: the query of the hub's protocol, with the retry count; [W]: the world, [T]: what is
    remembered of a query *)
Variables W T : Type.
Variable hub : dict json -> Z -> W -> W * list T * res (dict rval).
(** _ChildProtocolWrapper.query, smartprotocol.py:485-518 *)
Definition child_over (id : string) (req : child_request) (rc : Z) (w : W) : W * list T * res (dict rval) :=
  let '(w1, tr, r) := hub (wrap_child id req) rc w in
  (w1, tr, let! out := r in child_query (fun _ => Ok (jsons out)) id req).
(** _ChildCameraProtocolWrapper.query, smartcamprotocol.py:218-258 *)
Definition cam_child_over (id : string) (req : child_request) (rc : Z) (w : W) : W * list T * res (dict rval) :=
  match req with
  | CName _ => (w, [], Err KKasa)
  | CDict d =>
      let '(w1, tr, r) := hub (wrap_cam id d) rc w in
      (w1, tr, let! out := r in cam_child_query (fun _ => Ok (jsons out)) id req)
  end.
End Over.
Arguments child_over {W T}. Arguments cam_child_over {W T}.

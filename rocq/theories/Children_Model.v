(** Children of a SMART hub.  Models the child bookkeeping of
    kasa/smart/smartdevice.py.  No proofs. *)
From Verif Require Import Base Py.
Open Scope string_scope.
Open Scope list_scope.

(** An entry of child_device_list: its device_id when it has one (a string), and the
    rest of it. *)
Record entry := mkEntry { e_id : option string; e_info : json }.
(** Child devices are objects; [nat] is their identity. *)
Record hub := mkHub { children : dict nat; next : nat; logged : list string; log : list string }.
Definition new_hub : hub := mkHub [] 0 [] [].

(** "log once", smartdevice.py:144-146, 149-151, 163-164; the empty string stands for
    entries without id *)
Definition log_once (x : string) (h : hub) : hub :=
  if smem x (logged h) then h else mkHub (children h) (next h) (logged h ++ [x]) (log h ++ [x]).
(** children[child_id] = child, smartdevice.py:137-142 *)
Definition add_child (x : string) (h : hub) : hub :=
  mkHub (dset x (next h) (children h)) (S (next h)) (logged h) (log h).
(** The body of the loop, smartdevice.py:123-167.  [comps]: the ids with components;
    [existing]: the ids before the loop; [create]: _try_create_child, whether it
    makes a device.  Gives the ids seen and whether something changed. *)
Definition visit (comps existing : list string) (create : entry -> res bool) (e : entry) (acc : list string * bool)
  : M hub (list string * bool) := fun h =>
  match e_id e with
  | Some x =>
      if String.eqb x "" then (log_once "" h, Ok acc)
      else if smem x comps then
        let acc := (fst acc ++ [x], snd acc) in
        if smem x existing then (h, Ok acc)
        else match create e with
             | Err ex => (h, Err ex)
             | Ok true => (add_child x h, Ok (fst acc, true))
             | Ok false => (log_once x h, Ok acc)
             end
      else (log_once x h, Ok acc)
  | None => (log_once "" h, Ok acc)
  end.
Fixpoint visit_all (comps existing : list string) (create : entry -> res bool) (l : list entry) (acc : list string * bool)
  : M hub (list string * bool) :=
  match l with
  | [] => mret acc
  | e :: l => do! acc <- visit comps existing create e acc ;; visit_all comps existing create l acc
  end.
(** _create_delete_children, smartdevice.py:100-168 *)
Definition create_delete (comps : list string) (create : entry -> res bool) (l : list entry) : M hub bool := fun h =>
  let existing := dkeys (children h) in
  (do! acc <- visit_all comps existing create l ([], false) ;;
   fun h =>
     let removed := filter (fun x => negb (smem x (fst acc))) existing in
     let h := mkHub (fold_left (fun d x => ddel x d) removed (children h)) (next h) (logged h) (log h) in
     (h, Ok (snd acc || match removed with [] => false | _ => true end))) h.

(** The categories of children, smartcamdevice.py:165-183: a camera hub makes devices
    of known categories only and fails on a SMART child it cannot reach; any other
    hub (smartdevice.py:89-98) makes all. *)
Inductive category := SmartKnown | CamKnown | OtherCategory | NoCategory.
Definition cam_create (cat : entry -> category) (reachable : entry -> res bool) (e : entry) : res bool :=
  match cat e with
  | NoCategory | OtherCategory => Ok false
  | CamKnown => Ok true
  | SmartKnown => match reachable e with
                  | Ok _ => Ok true
                  | Err ex => if is_exception ex then Err PyUnboundLocal else Err ex   (* 111-122 *)
                  end
  end.

(** Histories of updates: each brings a list, its components and its creations. *)
Record event := mkEv { v_comps : list string; v_create : entry -> res bool; v_list : list entry }.
Fixpoint run (h : hub) (es : list event) : hub * list (res bool) :=
  match es with
  | [] => (h, [])
  | e :: es => let (h1, r) := create_delete (v_comps e) (v_create e) (v_list e) h in
               let (h2, rs) := run h1 es in (h2, r :: rs)
  end.

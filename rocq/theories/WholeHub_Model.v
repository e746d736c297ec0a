(** A hub or strip at work with its children: the update of kasa/smart/smartdevice.py:80-298 and that of
    kasa/smart/smartchilddevice.py:78-118 as programs that make queries to the hub and, through it, to its
    children.  [Family_Model] has the same functions with the replies given beforehand.  No proofs. *)
From Verif Require Import Base Py Smart_Model Smod_Model Family_Model Whole_Model.
Open Scope string_scope.
Open Scope list_scope.
Open Scope Z_scope.

(** A program as part of a larger one, its queries made through [f]: await protocol.query of a device's
    own protocol, device.py:208-210, and of a child's, smartchilddevice.py:48-49 *)
Fixpoint via {A B X R} (f : A -> B) (p : prog A X) (k : X -> prog B R) : prog B R :=
  match p with
  | Ret x => k x
  | Query q n c => Query (f q) n (fun r => via f (c r) k)
  end.

(** _update of a child, smartchilddevice.py:78-118; [par]: the parameters its modules ask with, [parent]:
    the replies of the hub *)
Definition kid_update (par : string -> json) (parent : option (dict reply)) (now : Z) (d : dev) : prog (dict json) (dev * report * res unit) :=
  let l := planned (hub_child d) false now (mods d) in
  let req := request (map (fun x => (fst (fst x), snd x)) l) in
  match req with
  | [] => Ret (set_started (set_mods d (post_all now (lu d) parent (info d) l)), report_of None (lu d) parent (info d) true l, Ok tt)
  | _ => ask_for par req (fun a => Ret
      match a with
      | Err e => (set_mods d (map fst l), report_of (Some req) (lu d) parent (info d) false l, Err e)
      | Ok resp =>
          (set_started (set_lu (set_mods d (post_all now resp parent (info d) l)) resp), report_of (Some req) resp parent (info d) true l, Ok tt)
      end)
  end.

(** The query for the children, smartdevice.py:82-86 *)
Definition lists_query : dict json := [(COMPONENTS, JNull); (LIST, JNull)].

Section Own.
Variable par : string -> json.
(** The hub's own part of update, smartdevice.py:266-277 with _negotiate, 207-232.  [comps]: whether the
    components include child devices; [init]: the modules the replies give. *)
Definition own_object (comps : dict reply -> res bool) (init : dict reply -> res (list smod)) (now : Z) (f : family)
  : prog (dict json) (dev * report * res unit) :=
  let d := f_dev f in
  if started d then update_modules par false now d Ret
  else
    let d := set_started d in
    Query initial_query RETRIES (fun r =>
      match r with
      | Err e => Ret (d, no_report, Err e)
      | Ok resp =>
          let resp := keep resp in
          let d := set_lu d (dupdate (lu d) resp) in
          match try_get "get_device_info" resp with
          | Err e => Ret (d, no_report, Err e)
          | Ok i =>
              let d := set_info d i in
              let rest d :=
                match init resp with
                | Err e => Ret (d, no_report, Err e)
                | Ok l => update_modules par true now (cloud_first now (set_mods d (map (fun m => (m, fresh)) l))) Ret
                end in
              match comps resp with
              | Err e => Ret (d, no_report, Err e)
              | Ok b =>
                  if b && negb (match f_kids f with [] => false | _ => true end) then
                    Query lists_query RETRIES (fun r =>
                      match r with
                      | Err e => Ret (d, no_report, Err e)
                      | Ok r => rest (set_lu d (dupdate (lu d) (keep r)))
                      end)
                  else rest d
              end
          end
      end).
End Own.

Section Family.
(** A query to the hub and to a child of it *)
Context {A : Type}.
Variable hub : dict json -> A.
Variable kid : string -> dict json -> A.
(** The parameters with which the modules of the hub and of a child ask *)
Variable par : string -> json.
Variable kpar : string -> string -> json.
Variable make : string -> json -> json -> res dev.

(** await child._update() for all children, smartdevice.py:285-289 *)
Fixpoint update_kids (parent : dict reply) (now : Z) (kids : dict dev) : prog A (dict dev * list (string * report) * res unit) :=
  match kids with
  | [] => Ret ([], [], Ok tt)
  | (x, k) :: kids =>
      via (kid x) (kid_update (kpar x) (Some parent) now k) (fun o =>
        match o with
        | (k, r, Err e) => Ret ((x, k) :: kids, [(x, r)], Err e)
        | (k, r, Ok _) =>
            via (fun q => q) (update_kids parent now kids) (fun o => let '(kids, rs, o) := o in Ret ((x, k) :: kids, (x, r) :: rs, o))
        end)
  end.
(** update, smartdevice.py:261-298, with what the hub's own part did *)
Definition update_family (is_hub uc : bool) (comps : dict reply -> res bool) (init : dict reply -> res (list smod)) (now : Z) (f : family)
  : prog A (family * report * list (string * report) * res unit) :=
  via hub (own_object par comps init now f) (fun o =>
    match o with
    | (d, r, Err e) => Ret (mkFam d (f_kids f) (f_logged f), r, [], Err e)
    | (d, r, Ok _) =>
        match children_info make (mkFam d (f_kids f) (f_logged f)) with
        | (f, Err e) => Ret (f, r, [], Err e)
        | (f, Ok changed) =>
            if changed || uc || negb is_hub then
              via (fun q => q) (update_kids (lu (f_dev f)) now (f_kids f)) (fun o =>
                let '(kids, rs, o) := o in Ret (mkFam (f_dev f) kids (f_logged f), r, rs, o))
            else Ret (f, r, [], Ok tt)
        end
    end).
End Family.

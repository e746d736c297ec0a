(** The update of a SMART hub or strip together with its children: kasa/smart/smartdevice.py:80-298
    over the module cycle of Smod_Model.  No proofs. *)
From Verif Require Import Base Py Smod_Model.
Open Scope string_scope.
Open Scope list_scope.

Definition LIST : string := "get_child_device_list".
Definition COMPONENTS : string := "get_child_device_component_list".

(** SmartDevice with its _children and _logged_missing_child_ids, smartdevice.py:55-78 *)
Record family := mkFam { f_dev : dev; f_kids : dict dev; f_logged : list string }.
Definition new_family : family := mkFam new_dev [] [].

(** {child["device_id"]: child for child in ...}, smartdevice.py:114-117.  Only ids that are strings
    are kept: others match no listed id that is a string. *)
Fixpoint comp_dict (l : list json) (acc : dict json) : res (dict json) :=
  match l with
  | [] => Ok acc
  | c :: l =>
      let! i := jitem "device_id" c in
      comp_dict l (match i with JStr x => dset x c acc | _ => acc end)
  end.

Section Make.
(** SmartChildDevice.create, smartchilddevice.py:117-140, for an id, its info and its components: a
    new child or an exception *)
Variable make : string -> json -> json -> res dev.

(** The loop of _create_delete_children at work: the children, the ids logged, the ids seen, changed *)
Record acc := mkAcc { a_kids : dict dev; a_logged : list string; a_seen : list string; a_changed : bool }.
Definition log_once (x : string) (a : acc) : acc :=
  mkAcc (a_kids a) (if smem x (a_logged a) then a_logged a else a_logged a ++ [x]) (a_seen a) (a_changed a).
(** One entry, smartdevice.py:122-166.  An id that is not a string is taken for a missing one. *)
Definition visit (comps : dict json) (existing : list string) (info : json) : M acc unit := fun a =>
  match jget "device_id" info with
  | Err e => (a, Err e)
  | Ok (JStr x) =>
      if String.eqb x "" then (log_once "" a, Ok tt)
      else match dget x comps with
           | None => (log_once x a, Ok tt)
           | Some c =>
               let a := mkAcc (a_kids a) (a_logged a) (a_seen a ++ [x]) (a_changed a) in
               if smem x existing then (a, Ok tt)
               else match make x info c with
                    | Err e => (a, Err e)
                    | Ok k => (mkAcc (dset x k (a_kids a)) (a_logged a) (a_seen a) true, Ok tt)
                    end
           end
  | Ok _ => (log_once "" a, Ok tt)
  end.
Fixpoint visit_all (comps : dict json) (existing : list string) (l : list json) : M acc unit :=
  match l with
  | [] => mret tt
  | i :: l => do! _ <- visit comps existing i ;; visit_all comps existing l
  end.
(** _create_delete_children, smartdevice.py:100-168, for the two replies *)
Definition create_delete (child_info : json) (child_comps : reply) (f : family) : family * res (list json * bool) :=
  match (match child_comps with
         | RErr _ => Err PyTypeError                     (* an error code has no items *)
         | RVal c => let! l := jitem "child_component_list" c in let! l := jiter l in comp_dict l []
         end) with
  | Err e => (f, Err e)
  | Ok comps =>
      match (let! l := jitem "child_device_list" child_info in jiter l) with
      | Err e => (f, Err e)
      | Ok l =>
          let existing := dkeys (f_kids f) in
          match visit_all comps existing l (mkAcc (f_kids f) (f_logged f) [] false) with
          | (a, Err e) => (mkFam (f_dev f) (a_kids a) (a_logged a), Err e)
          | (a, Ok _) =>
              let removed := filter (fun x => negb (smem x (a_seen a))) existing in
              (mkFam (f_dev f) (fold_left (fun d x => ddel x d) removed (a_kids a)) (a_logged a),
               Ok (l, a_changed a || match removed with [] => false | _ => true end))
          end
      end
  end.
(** self._children[child_id]._update_internal_state(info), smartdevice.py:246-253 and 687-692 *)
Definition push (kids : dict dev) (i : json) : dict dev :=
  match i with
  | JObj d =>
      match dget "device_id" d with
      | Some (JStr x) => match dget x kids with Some k => dset x (set_info k i) kids | None => kids end
      | _ => kids
      end
  | _ => kids
  end.
(** _update_children_info, smartdevice.py:234-255: whether children came or went *)
Definition children_info (f : family) : family * res bool :=
  match dget LIST (lu (f_dev f)) with
  | Some (RVal v) =>
      if truthy v then
        match dget COMPONENTS (lu (f_dev f)) with
        | None => (f, Err PyKeyError)
        | Some c =>
            match create_delete v c f with
            | (f, Err e) => (f, Err e)
            | (f, Ok (l, changed)) => (mkFam (f_dev f) (fold_left push l (f_kids f)) (f_logged f), Ok changed)
            end
        end
      else (f, Ok false)
  | _ => (f, Ok false)
  end.

(** await child._update() for all children, smartdevice.py:285-289; [kn]: what each child answers,
    [parent]: the hub's replies *)
Fixpoint update_kids (kn : string -> net) (parent : dict reply) (now : Z) (kids : dict dev)
  : dict dev * list (string * report) * res unit :=
  match kids with
  | [] => ([], [], Ok tt)
  | (x, k) :: kids =>
      match child_update (kn x) (Some parent) now k with
      | (k, r, Err e) => ((x, k) :: kids, [(x, r)], Err e)
      | (k, r, Ok _) =>
          let '(kids, rs, o) := update_kids kn parent now kids in ((x, k) :: kids, (x, r) :: rs, o)
      end
  end.

(** _negotiate with _initialize_children, smartdevice.py:80-87 and 207-232, and _initialize_modules.
    [comps]: whether the components include child devices; [lists]: the reply to the query for the
    two lists of children. *)
Definition negotiate (n : net) (comps : dict reply -> res bool) (lists : res (dict reply))
    (init : dict reply -> res (list smod)) (kids : bool) (d : dev) : dev * res unit :=
  match n 0%nat ["component_nego"; "get_device_info"; "get_connect_cloud_state"] with
  | Err e => (d, Err e)
  | Ok resp =>
      let d := set_lu d (dupdate (lu d) resp) in
      match try_get "get_device_info" resp with
      | Err e => (d, Err e)
      | Ok i =>
          let d := set_info d i in
          match comps resp with
          | Err e => (d, Err e)
          | Ok b =>
              match (if b && negb kids then let! r := lists in Ok (set_lu d (dupdate (lu d) r)) else Ok d) with
              | Err e => (d, Err e)
              | Ok d =>
                  match init resp with
                  | Err e => (d, Err e)
                  | Ok l => (set_mods d (map (fun m => (m, fresh)) l), Ok tt)
                  end
              end
          end
      end
  end.

(** What the outside world gives to one update *)
Record world := mkWorld {
  w_net : net; w_comps : dict reply -> res bool; w_lists : res (dict reply); w_init : dict reply -> res (list smod);
  w_kids : string -> net }.
(** The hub's own part of update, smartdevice.py:266-277 *)
Definition own_update (w : world) (now : Z) (f : family) : dev * report * res unit :=
  let d := f_dev f in
  if started d then modular_update (w_net w) false now d
  else
    match negotiate (w_net w) (w_comps w) (w_lists w) (w_init w) (match f_kids f with [] => false | _ => true end) (set_started d) with
    | (d, Err e) => (d, no_report, Err e)
    | (d, Ok _) => modular_update (w_net w) true now (cloud_first now d)
    end.
(** update, smartdevice.py:261-298: [is_hub]: the device is a hub; [uc]: update_children *)
Definition family_update (is_hub uc : bool) (w : world) (now : Z) (f : family)
  : family * list (string * report) * res unit :=
  match own_update w now f with
  | (d, _, Err e) => (mkFam d (f_kids f) (f_logged f), [], Err e)
  | (d, _, Ok _) =>
      match children_info (mkFam d (f_kids f) (f_logged f)) with
      | (f, Err e) => (f, [], Err e)
      | (f, Ok changed) =>
          if changed || uc || negb is_hub then
            let '(kids, rs, o) := update_kids (w_kids w) (lu (f_dev f)) now (f_kids f) in
            (mkFam (f_dev f) kids (f_logged f), rs, o)
          else (f, [], Ok tt)
      end
  end.
End Make.

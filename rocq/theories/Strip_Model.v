(** Strips and child lookup.  Models parts of kasa/iot/iotstrip.py, kasa/device.py and
    kasa/cli/common.py.  No proofs. *)
From Verif Require Import Base Py Factory_Model OnSince_Model.
Open Scope string_scope.
Open Scope list_scope.
Open Scope Z_scope.

(** An entry of sys_info["children"]: id, bool(state), on_time *)
Record child := mkChild { c_id : string; c_state : bool; c_on_time : option Z }.
(** _get_child_info, iotstrip.py:483-491 *)
Definition child_info (infos : list child) (id : string) : res child :=
  match find (fun c => String.eqb (c_id c) id) infos with Some c => Ok c | None => Err KKasa end.
(** IotStripPlug.is_on, iotstrip.py:417-422 *)
Definition plug_is_on (infos : list child) (id : string) : res bool :=
  let! c := child_info infos id in Ok (c_state c).

(** A switch command: the socket it is for and the state asked for
    (iotplug.py:75-81 through iotstrip.py:405-415). *)
Definition command := (string * Z)%type.
Section Send.
Variable send : command -> res unit.   (* what becomes of a command *)
(** turn_on and turn_off, iotstrip.py:162-174 *)
Fixpoint switch_all (on : bool) (infos : list child) (plugs : list string) : M (list command) unit :=
  match plugs with
  | [] => mret tt
  | p :: plugs =>
      do! b <- mlift (plug_is_on infos p) ;;
      if Bool.eqb b on then switch_all on infos plugs
      else
        do! _ <- (fun log => (log ++ [(p, if on then 1 else 0)], send (p, if on then 1 else 0))) ;;
        switch_all on infos plugs
  end.
End Send.
(** IotStrip.is_on, iotstrip.py:118-122: any() stops at the first that is on *)
Fixpoint strip_is_on (infos : list child) (plugs : list string) : res bool :=
  match plugs with
  | [] => Ok false
  | p :: plugs => let! b := plug_is_on infos p in if b then Ok true else strip_is_on infos plugs
  end.

(** IotStripPlug.on_since for a socket with its cached start; iotstrip.py:456-474 *)
Definition plug_on_since (infos : list child) (clock : Z) (p : string * option Z) : (string * option Z) * res (option Z) :=
  match child_info infos (fst p) with
  | Err e => (p, Err e)
  | Ok c => let (cache, r) := on_since KSocket (snd p) (mkRd (c_state c) (c_on_time c) clock) in ((fst p, cache), r)
  end.
(** min(plug.on_since for plug in children if plug.on_since is not None): the starts
    found, in order.  Each is read twice. *)
Fixpoint starts (infos : list child) (clock : Z) (plugs : list (string * option Z)) : res (list Z) :=
  match plugs with
  | [] => Ok []
  | p :: plugs =>
      let (p1, r1) := plug_on_since infos clock p in
      let! v := r1 in
      match v with
      | None => starts infos clock plugs
      | Some _ =>
          let (_, r2) := plug_on_since infos clock p1 in
          let! v := r2 in
          let! l := starts infos clock plugs in
          match v with Some z => Ok (z :: l) | None => Err PyTypeError end
      end
  end.
(** min of a list *)
Fixpoint zmin (l : list Z) : option Z :=
  match l with [] => None | z :: l => Some (match zmin l with Some m => Z.min z m | None => z end) end.
(** IotStrip.on_since, iotstrip.py:176-183 *)
Definition strip_on_since (infos : list child) (clock : Z) (plugs : list (string * option Z)) : res (option Z) :=
  let! on := strip_is_on infos (map fst plugs) in
  if negb on then Ok None
  else
    let! l := starts infos clock plugs in
    match zmin l with Some z => Ok (Some z) | None => Err PyValueError end.

(** ** Child lookup, device.py:372-401 *)
(** A child: its key in _children and its alias. *)
Record dev := mkDev { v_id : string; v_alias : option string }.
Definition alias_is (name : string) (c : dev) : bool :=
  match v_alias c with Some a => negb (String.eqb a "") && String.eqb (lower a) name | None => false end.
Definition get_child_device (name : string) (children : list dev) : option dev :=
  match find (fun c => String.eqb (v_id c) name) children with
  | Some c => Some c
  | None => find (alias_is (lower name)) children
  end.
Definition get_plug_by_name (name : string) (children : list dev) : res dev :=
  match find (fun c => match v_alias c with Some a => String.eqb a name | None => false end) children with
  | Some c => Ok c
  | None => Err KKasa
  end.
Definition get_plug_by_index (index : Z) (children : list dev) : res dev :=
  if (Z.of_nat (length children) <? index + 1) || (index <? 0) then Err KKasa
  else match nth_error children (Z.to_nat index) with Some c => Ok c | None => Err PyIndexError end.
(** _get_child_device, cli/common.py:167-227.  error() ends the program (an exception
    here).  [prompt]: the index typed in when --child is given without value, already
    restricted by click to the valid ones. *)
Inductive child_opt := CNone | CPrompt (index : Z) | CName (s : string).
Definition cli_child (o : child_opt) (index : option Z) (children : list dev) : res (option dev) :=
  let by_index (i : Z) : res (option dev) :=
    if (Z.of_nat (length children) <? i + 1) || (i <? 0) then Err KKasa
    else match nth_error children (Z.to_nat i) with Some c => Ok (Some c) | None => Err PyIndexError end in
  match o, index with
  | CNone, None => Ok None
  | _, _ =>
      match children with
      | [] => Err KKasa
      | _ =>
          match o, index with
          | CPrompt _, Some _ | CName _, Some _ => Err PyOther
          | CPrompt i, None => by_index i
          | CName s, None => match get_child_device s children with Some c => Ok (Some c) | None => Err KKasa end
          | CNone, Some i => by_index i
          | CNone, None => Ok None
          end
      end
  end.

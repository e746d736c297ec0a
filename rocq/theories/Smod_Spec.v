(** Specification of the module update cycle, in terms of what updates did. *)
From Verif Require Import Base Smod_Model.
Open Scope string_scope.
Open Scope list_scope.
Open Scope Z_scope.

(** What the history says about one module: the failed queries since its last
    success, and when it was last asked (nothing after a setter was called). *)
Record account := mkAcc { errors : Z; last_asked : option Z }.
Definition spec_step (m : smod) (a : account) (o : obs) : account :=
  match o with
  | OSetter x => if String.eqb x (m_name m) then mkAcc (errors a) None else a
  | OUpdate first now r =>
      let a := match dget (m_name m) (early r) with
               | Some ok => mkAcc (if ok then 0 else errors a + 1) (Some now)
               | None => a
               end in
      (* modules served by the negotiation count as asked on the first update *)
      let a := match requested r, first && m_first m, m_query m with
               | Some _, true, _ :: _ => mkAcc (errors a) (Some now)
               | _, _, _ => a
               end in
      match dget (m_name m) (processed r) with
      | None => a
      | Some ok =>
          if 10 <=? errors a then a
          else mkAcc (if ok then 0 else if smem (m_name m) (asked r) then errors a + 1 else errors a)
                     (if smem (m_name m) (asked r) then Some now else last_asked a)
      end
  end.
Definition account_of (m : smod) (os : list obs) : account := fold_left (spec_step m) os (mkAcc 0 None).
(** The delay before a module is asked again *)
Definition delay (hub : bool) (m : smod) (a : account) : Z :=
  if 0 <? errors a then 30 * SEC * errors a else if hub then 86400 * SEC else m_min m.
Definition due (hub : bool) (m : smod) (a : account) (now : Z) : Prop :=
  delay hub m a = 0 \/ match last_asked a with None => True | Some t => delay hub m a <= now - t end.

(** Histories: clock readings are positive, modules have distinct names. *)
Definition event_ok (e : event) : Prop :=
  match e with
  | EUpdate _ init now => 0 < now /\ forall r l, init r = Ok l -> NoDup (map m_name l)
  | EChild _ _ now => 0 < now
  | ESetter _ => True
  end.
(** A device sees no child updates, a child only those. *)
Definition event_for (child : bool) (e : event) : Prop :=
  match e with EUpdate _ _ _ => child = false | EChild _ _ _ => child = true | ESetter _ => True end.
(** Where a history starts *)
Definition start_ok (child : bool) (d : dev) : Prop :=
  if child then exists hub l i last, d = new_child hub l i last /\ NoDup (map m_name l) else d = new_dev.
(** What a module reads is not empty: the values Python counts as false are null,
    false, zero and whatever has no elements. *)
Definition empty_json (j : json) : Prop :=
  j = JNull \/ j = JBool false \/ j = JInt 0 \/ j = JFloat "0.0" \/ j = JFloat "-0.0" \/ j = JStr "" \/ j = JArr [] \/ j = JObj [].
Definition nothing (v : view) : Prop := match v with One j => empty_json j | Many d => d = [] end.
(** The replies of the parent an update can fall back to *)
Definition parent_of (e : event) : option (dict reply) := match e with EChild _ p _ => p | _ => None end.
(** A module that accepts whatever was answered, as the one for the device info does
    (devicemodule.py:13-18) *)
Definition accepts_all (m : smod) : Prop := exists h, m_hook m = Some h /\ forall r, h r = true.

(** Specification vocabulary for legacy updates and commands (C31-C34). *)
From Verif Require Import Base Py Iot_Model.
Open Scope string_scope.
Open Scope list_scope.
Open Scope Z_scope.

(** The value found by following keys. *)
Fixpoint at_keys (p : list string) (v : json) : option json :=
  match p with
  | [] => Some v
  | k :: p => match v with
              | JObj d => match dget k d with Some x => at_keys p x | None => None end
              | _ => None
              end
  end.
Definition is_dict (v : json) : Prop := exists d, v = JObj d.
Definition leaf (p : list string) (v j : json) : Prop := at_keys p j = Some v /\ ~ is_dict v.
Definition present (p : list string) (j : json) : Prop := at_keys p j <> None.
(** Every dictionary inside has distinct keys, like every Python dictionary. *)
Inductive jwf : json -> Prop :=
| Wf_dict d : dwf d -> (forall k v, In (k, v) d -> jwf v) -> jwf (JObj d)
| Wf_leaf v : ~ is_dict v -> jwf v.
(** [s] puts a plain value at [p] or above it. *)
Definition covers (s : json) (p : list string) : Prop := exists q r v, p = q ++ r /\ leaf q v s.
(** At no position does one hold a plain value and the other something else. *)
Definition compatible (a b : json) : Prop :=
  forall p va vb, at_keys p a = Some va -> at_keys p b = Some vb -> (is_dict va /\ is_dict vb) \/ va = vb.
(** The same positions and the same plain values, whatever the order of the keys. *)
Definition same_content (a b : json) : Prop :=
  forall p, (present p a <-> present p b) /\ (forall v, leaf p v a <-> leaf p v b).

(** ** Updates *)
Definition total (l : list imod) : Z := fold_right (fun m n => i_size m + n) 0 l.
(** [b] is [a] with the queries of [l] merged in one after another. *)
Inductive merged : json -> list imod -> json -> Prop :=
| Merged_nil a : merged a [] a
| Merged_cons a m l b c : merge a (i_query m) = Ok b -> merged b l c -> merged a (m :: l) c.
(** A query as modules build them: modules, then commands, then arguments. *)
Definition query_shaped (q : json) : Prop :=
  exists d, q = JObj d /\ forall k v, In (k, v) d -> is_dict v.

(** The field [f] of module [k] in an update, and what a sequence of replies says
    about it: the last reply that gives it. *)
Definition field (k f : string) (u : dict (dict json)) : option json :=
  match dget k u with Some d => dget f d | None => None end.
Definition reply_field (k f : string) (reply : dict json) : option json :=
  match dget k reply with Some (JObj d) => dget f d | _ => None end.
Fixpoint latest (k f : string) (replies : list (dict json)) : option json :=
  match replies with
  | [] => None
  | r :: rs => match latest k f rs with Some v => Some v | None => reply_field k f r end
  end.
Definition reply_wf (r : dict json) : Prop := dwf r /\ forall k d, In (k, JObj d) r -> dwf d.

(** ** Commands *)
(** No error code, or the code 0. *)
Definition fine (d : dict json) : Prop := dget "err_code" d = None \/ dget "err_code" d = Some (JInt 0).
Definition numeric_code (d : dict json) : Prop := forall c, dget "err_code" d = Some c -> exists z, c = JInt z.

(** ** Strips *)
(** What the replies to socket [i] say about field [f] of module [k]. *)
Definition socket_replies (i : nat) (es : list event) : list (dict (dict json)) :=
  flat_map (fun e => match e with ESocket j r => if Nat.eqb i j then [r] else [] | _ => [] end) es.
Fixpoint last_field (k f : string) (rs : list (dict (dict json))) : option json :=
  match rs with
  | [] => None
  | r :: rs => match last_field k f rs with Some v => Some v | None => field k f r end
  end.
Definition socket_field (i : nat) (k f : string) (s : strip) : option json :=
  match socket_data i k s with Some d => dget f d | None => None end.

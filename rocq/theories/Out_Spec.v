(** Specification of the output of the tool. *)
From Verif Require Import Base Out_Model.
Open Scope string_scope.
Open Scope list_scope.
Open Scope Z_scope.

(** The JSON value that shows a Python value: containers entry by entry, a device by
    its state, other objects by their text *)
Inductive shows (int_str : Z -> string) : pv -> json -> Prop :=
| shows_none : shows int_str PNone JNull
| shows_bool b : shows int_str (PBool b) (JBool b)
| shows_int z : shows int_str (PInt z) (JInt z)
| shows_float s : shows int_str (PFloat s) (JFloat s)
| shows_str s : shows int_str (PStr s) (JStr s)
| shows_obj s : shows int_str (PObj s) (JStr s)
| shows_device h st j : shows int_str st j -> shows int_str (PDevice h st) j
| shows_list l js : Forall2 (shows int_str) l js -> shows int_str (PList l) (JArr js)
| shows_dict d js : Forall2 (fun kv sj => shows_key int_str (fst kv) (fst sj) /\ shows int_str (snd kv) (snd sj)) d js ->
    shows int_str (PDict d) (JObj js)
with shows_key (int_str : Z -> string) : pkey -> string -> Prop :=
| key_str s : shows_key int_str (KStr s) s
| key_int z : shows_key int_str (KInt z) (int_str z)
| key_true : shows_key int_str (KBool true) "true"
| key_false : shows_key int_str (KBool false) "false"
| key_none : shows_key int_str KNone "null".

(** All keys of a value can be written *)
Inductive writable : pv -> Prop :=
| w_none : writable PNone
| w_bool b : writable (PBool b)
| w_int z : writable (PInt z)
| w_float s : writable (PFloat s)
| w_str s : writable (PStr s)
| w_obj s : writable (PObj s)
| w_device h st : writable st -> writable (PDevice h st)
| w_list l : Forall writable l -> writable (PList l)
| w_dict d : Forall (fun kv => fst kv <> KOther /\ writable (snd kv)) d -> writable (PDict d).

(** A command keeps to echo *)
Definition disciplined (a : action) : Prop := forall s, In s (says a) -> exists x, s = Echo x.
(** The lines it would say *)
Definition words (s : said) : string := match s with Echo x => x | Direct x => x end.

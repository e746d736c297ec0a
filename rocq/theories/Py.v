(** Python operations on JSON-like values, shared by the models.  No proofs. *)
From Verif Require Import Base.

(** bool(v).  A float is an opaque literal; only "0.0" and "-0.0" are falsy. *)
Definition truthy (v : json) : bool :=
  match v with
  | JNull => false
  | JBool b => b
  | JInt z => negb (z =? 0)%Z
  | JFloat s => negb (String.eqb s "0.0") && negb (String.eqb s "-0.0")
  | JStr s => negb (String.eqb s "")
  | JArr l => match l with [] => false | _ => true end
  | JObj d => match d with [] => false | _ => true end
  end.

(** v.get(k): only dictionaries have [get]; a missing key gives None. *)
Definition jget (k : string) (v : json) : res json :=
  match v with
  | JObj d => Ok (match dget k d with Some x => x | None => JNull end)
  | _ => Err PyAttributeError
  end.

(** v[k] for a string key *)
Definition jitem (k : string) (v : json) : res json :=
  match v with
  | JObj d => dindex k d
  | _ => Err PyTypeError
  end.

(** iter(v) *)
Definition jiter (v : json) : res (list json) :=
  match v with
  | JArr l => Ok l
  | JObj d => Ok (map (fun kv => JStr (fst kv)) d)
  | JStr s => Ok (map (fun c => JStr (String c "")) (list_ascii_of_string s))
  | _ => Err PyTypeError
  end.

(** isinstance(v, list) *)
Definition is_list (v : json) : bool := match v with JArr _ => true | _ => false end.

(** v used as a number in a comparison: int and bool; a float is not modelled
    here and is treated like the types that raise TypeError. *)
Definition as_int (v : json) : option Z :=
  match v with
  | JInt z => Some z
  | JBool true => Some 1%Z
  | JBool false => Some 0%Z
  | _ => None
  end.

(** k in v for a string k *)
Definition jcontains (k : string) (v : json) : res bool :=
  match v with
  | JObj d => Ok (dmem k d)
  | JArr l => Ok (existsb (fun x => match x with JStr s => String.eqb k s | _ => false end) l)
  | JStr s => Ok (match String.index 0 k s with Some _ => true | None => false end)
  | _ => Err PyTypeError
  end.

(** State-and-exception computations: an action on a world [W]. *)
Definition M (W A : Type) := W -> W * res A.
Definition mret {W A} (a : A) : M W A := fun w => (w, Ok a).
Definition mfail {W A} (e : exn) : M W A := fun w => (w, Err e).
Definition mbind {W A B} (m : M W A) (f : A -> M W B) : M W B :=
  fun w => match m w with
           | (w', Ok a) => f a w'
           | (w', Err e) => (w', Err e)
           end.
Definition mlift {W A} (r : res A) : M W A := fun w => (w, r).
Notation "'do!' x '<-' m ';;' k" := (mbind m (fun x => k))
  (at level 200, x pattern, m at level 100, k at level 200, right associativity).

(** ** Strings as sequences of characters *)

(** s[:n] *)
Fixpoint stake (n : nat) (s : string) : string :=
  match n, s with
  | S n', String c s' => String c (stake n' s')
  | _, _ => EmptyString
  end.
(** s[n:] *)
Fixpoint sdrop (n : nat) (s : string) : string :=
  match n, s with
  | S n', String _ s' => sdrop n' s'
  | O, _ => s
  | _, EmptyString => EmptyString
  end.
(** c in s for one character *)
Fixpoint smem_char (c : ascii) (s : string) : bool :=
  match s with
  | EmptyString => false
  | String c' s' => Ascii.eqb c c' || smem_char c s'
  end.
Fixpoint smap (f : ascii -> ascii) (s : string) : string :=
  match s with EmptyString => EmptyString | String c s' => String (f c) (smap f s') end.

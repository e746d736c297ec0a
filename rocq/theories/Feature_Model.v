(** Features.  Models kasa/feature.py.  No proofs. *)
From Verif Require Import Base Py.
From Coq Require Import QArith.
Open Scope list_scope.
Open Scope Z_scope.

(** A float: a finite number, an infinity or not a number. *)
Inductive pyfloat := Fin (q : Q) | PosInf | NegInf | NaN.
(** The values a caller may pass. *)
Inductive value := VInt (z : Z) | VFloat (f : pyfloat) | VBool (b : bool) | VStr (s : string) | VNone | VEnum (name : string).

(** Feature.Type, feature.py:88-105, and Feature.Category, 117-131 *)
Inductive ftype := Sensor | BinarySensor | Switch | Action | Number | Choice | UnknownType.
Inductive category := Primary | Config | Info | Debug | Unset.
(** A setter: a callable or the name of a method.  [None]: read-only. *)
Inductive setter := SCallable | SName (n : string).
(** bool(setter): a callable is true, a name unless it is empty *)
Definition setter_truthy (s : option setter) : bool :=
  match s with Some SCallable => true | Some (SName n) => negb (String.eqb n "") | None => false end.

(** The declaration of a feature: the fields that matter here. *)
Record decl := mkDecl { f_type : ftype; f_category : category; f_setter : option setter; has_range : bool; has_choices : bool;
                        has_getter : bool }.

(** __post_init__, feature.py:167-191 *)
Definition post_init (d : decl) : res decl :=
  let c := match f_category d with Unset => if setter_truthy (f_setter d) then Config else Info | c => c end in
  let d' := mkDecl (f_type d) c (f_setter d) (has_range d) (has_choices d) (has_getter d) in
  match f_type d with
  | Sensor | BinarySensor =>
      match c, f_setter d with
      | Config, _ => Err PyValueError
      | _, Some _ => Err PyValueError
      | _, None => Ok d'
      end
  | _ => Ok d'
  end.

(** The device at the moment of a call: what the range getter and the choices
    getter answer, and whether the container has the named setter. *)
Record world := mkWorld { w_range : res (option (Z * Z)); w_choices : res (option (list string)); w_setter : bool }.

(** A feature: its declaration, the cached range (feature.py:212-215, a cached_property), and
    the calls made to the setter ([None]: called without argument). *)
Record feature := mkFeature { decl_ : decl; cached : option (option (Z * Z)); calls : list (option value) }.
Definition new (d : decl) : res feature := let! d := post_init d in Ok (mkFeature d None []).

Definition DEFAULT_MAX : Z := 65536.        (* 115 *)

(** range, feature.py:212-215 *)
Definition range (w : world) : M feature (option (Z * Z)) := fun f =>
  match cached f with
  | Some r => (f, Ok r)
  | None =>
      let r := if has_range (decl_ f) then w_range w else Ok None in
      match r with
      | Ok r => (mkFeature (decl_ f) (Some r) (calls f), Ok r)
      | Err e => (f, Err e)
      end
  end.
(** maximum_value and minimum_value, feature.py:217-229 *)
Definition minimum (r : option (Z * Z)) : Z := match r with Some (lo, _) => lo | None => 0 end.
Definition maximum (r : option (Z * Z)) : Z := match r with Some (_, hi) => hi | None => DEFAULT_MAX end.

(** isinstance(value, int | float): a bool is an int *)
Definition as_number (v : value) : option pyfloat :=
  match v with
  | VInt z => Some (Fin (inject_Z z))
  | VFloat f => Some f
  | VBool b => Some (Fin (if b then 1 else 0))
  | _ => None
  end.
(** value < lo, value > hi *)
Definition below (v : pyfloat) (z : Z) : bool :=
  match v with Fin q => negb (Qle_bool (inject_Z z) q) | NegInf => true | PosInf | NaN => false end.
Definition above (v : pyfloat) (z : Z) : bool :=
  match v with Fin q => negb (Qle_bool q (inject_Z z)) | PosInf => true | NegInf | NaN => false end.
(** value in choices *)
Definition in_choices (v : value) (l : list string) : bool :=
  match v with VStr s => existsb (String.eqb s) l | _ => false end.

(** The call of the setter, feature.py:263-272; the setter's own result is not modelled *)
Definition call_setter (w : world) (v : value) : M feature unit := fun f =>
  match f_setter (decl_ f) with
  | Some (SName _) => if w_setter w then (mkFeature (decl_ f) (cached f) (calls f ++ [match f_type (decl_ f) with Action => None | _ => Some v end]), Ok tt)
                      else (f, Err PyAttributeError)
  | Some SCallable => (mkFeature (decl_ f) (cached f) (calls f ++ [match f_type (decl_ f) with Action => None | _ => Some v end]), Ok tt)
  | None => (f, Err PyValueError)
  end.
(** set_value, feature.py:244-272 *)
Definition set_value (w : world) (v : value) : M feature unit := fun f =>
  match f_setter (decl_ f) with
  | None => (f, Err PyValueError)
  | Some _ =>
      match f_type (decl_ f) with
      | Number =>
          match as_number v with
          | None => (f, Err PyValueError)
          | Some x =>
              (do! r <- range w ;;
               if below x (minimum r) || above x (maximum r) then mfail PyValueError
               else call_setter w v) f
          end
      | Choice =>
          match (if has_choices (decl_ f) then w_choices w else Ok None) with
          | Err e => (f, Err e)
          | Ok (Some (c :: l)) => if in_choices v (c :: l) then call_setter w v f else (f, Err PyValueError)
          | Ok _ => (f, Err PyValueError)
          end
      | _ => call_setter w v f
      end
  end.

(** value, feature.py:231-242: what it is for an action, an error without getter, else the
    getter's answer *)
Definition get_value (answer : res value) (f : feature) : res value :=
  match f_type (decl_ f) with
  | Action => Ok (VStr "<Action>")
  | _ => if has_getter (decl_ f) then answer else Err PyValueError
  end.

(** A life of a feature: settings, and readings of its range. *)
Inductive event := ESet (w : world) (v : value) | ERange (w : world).
Definition step (f : feature) (e : event) : feature :=
  match e with ESet w v => fst (set_value w v f) | ERange w => fst (range w f) end.
Definition run (f : feature) (es : list event) : feature := fold_left step es f.

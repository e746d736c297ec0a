(** Vocabulary shared by all models: Python exceptions as values, results,
    insertion-ordered dictionaries, JSON-like values.  No proofs here. *)
From Coq Require Export String Ascii Arith NArith ZArith Bool List.
Export ListNotations.
Open Scope list_scope.

(** * Exceptions.  [K*] are the library's own classes, kasa/exceptions.py:11-59.
    [KDevice]/[KAuth]/[KRetry] carry the optional [error_code] keyword.
    The remaining constructors are the built-in exceptions the modelled code
    can raise; [Cancelled] stands for a [BaseException] that is not an
    [Exception] (asyncio.CancelledError, KeyboardInterrupt). *)
Inductive exn : Type :=
| KKasa                          (* KasaException itself *)
| KTimeout                       (* TimeoutError(KasaException, asyncio.TimeoutError) *)
| KConn                          (* _ConnectionError(KasaException) *)
| KUnsupported                   (* UnsupportedDeviceError(KasaException) *)
| KDevice (code : option Z)      (* DeviceError(KasaException) *)
| KAuth (code : option Z)        (* AuthenticationError(DeviceError) *)
| KRetry (code : option Z)       (* _RetryableError(DeviceError) *)
| PyKeyError | PyTypeError | PyValueError | PyIndexError | PyAttributeError
| PyStructError | PyUnboundLocal | PyZeroDivision | PyRuntime | PyAssertion
| PyUnicode | PyTimeout | PyOSError | PyOther
| Cancelled.

(** isinstance(e, KasaException) *)
Definition is_kasa (e : exn) : bool :=
  match e with
  | KKasa | KTimeout | KConn | KUnsupported | KDevice _ | KAuth _ | KRetry _ => true
  | _ => false
  end.

(** isinstance(e, DeviceError) *)
Definition is_device_error (e : exn) : bool :=
  match e with KDevice _ | KAuth _ | KRetry _ => true | _ => false end.

(** isinstance(e, Exception) *)
Definition is_exception (e : exn) : bool :=
  match e with Cancelled => false | _ => true end.

(** * Results *)
Inductive res (A : Type) : Type :=
| Ok (a : A)
| Err (e : exn).
Arguments Ok {A} a.
Arguments Err {A} e.

Definition bind {A B} (r : res A) (f : A -> res B) : res B :=
  match r with Ok a => f a | Err e => Err e end.
Notation "'let!' x ':=' r 'in' k" := (bind r (fun x => k))
  (at level 200, x pattern, r at level 100, k at level 200).

(** * Python dictionaries with string keys: association lists in insertion
    order.  A well-formed dictionary has no repeated key. *)
Definition dict (A : Type) := list (string * A).

Definition dkeys {A} (d : dict A) : list string := map fst d.

(** d.get(k) *)
Fixpoint dget {A} (k : string) (d : dict A) : option A :=
  match d with
  | [] => None
  | (k', v) :: d' => if String.eqb k k' then Some v else dget k d'
  end.

(** k in d *)
Definition dmem {A} (k : string) (d : dict A) : bool :=
  match dget k d with Some _ => true | None => false end.

(** d[k] = v : replaced in place when present, appended otherwise *)
Fixpoint dset {A} (k : string) (v : A) (d : dict A) : dict A :=
  match d with
  | [] => [(k, v)]
  | (k', v') :: d' => if String.eqb k k' then (k, v) :: d' else (k', v') :: dset k v d'
  end.

(** d.pop(k, None) *)
Fixpoint ddel {A} (k : string) (d : dict A) : dict A :=
  match d with
  | [] => []
  | (k', v') :: d' => if String.eqb k k' then ddel k d' else (k', v') :: ddel k d'
  end.

(** d.update(e) *)
Definition dupdate {A} (d e : dict A) : dict A :=
  fold_left (fun acc kv => dset (fst kv) (snd kv) acc) e d.

(** d[k] *)
Definition dindex {A} (k : string) (d : dict A) : res A :=
  match dget k d with Some v => Ok v | None => Err PyKeyError end.

Definition dwf {A} (d : dict A) : Prop := NoDup (dkeys d).

(** x in l for strings *)
Definition smem (x : string) (l : list string) : bool := existsb (String.eqb x) l.

(** * JSON-like values.  Floating point numbers are kept as an opaque literal. *)
Inductive json : Type :=
| JNull
| JBool (b : bool)
| JInt (z : Z)
| JFloat (lit : string)
| JStr (s : string)
| JArr (l : list json)
| JObj (d : list (string * json)).

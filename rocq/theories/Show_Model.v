(** The text of a feature and the listing of features.  Models Feature.__repr__ of
    kasa/feature.py:274-327 and _echo_features, _echo_all_features of kasa/cli/feature.py:18-78.
    No proofs. *)
From Verif Require Import Base Py Feature_Model.
From Coq Require Import Decimal DecimalString.
Open Scope string_scope.
Open Scope list_scope.
Open Scope Z_scope.

(** What a choices getter may give: nothing, a list of texts, something else *)
Inductive choices := CNone | CList (l : list string) | COther.
(** A unit: nothing, a text, a member of an enumeration *)
Inductive unit_ := UNone | UText (s : string) | UEnum (name : string).
(** A feature as it is read at one moment *)
Record reading := mkReading { r_id : string; r_name : string; r_type : ftype; r_category : category;
  r_value : res value; r_choices : res choices; r_unit : res unit_; r_range : res (option (Z * Z)); r_precision : option Z }.

Section Text.
(** str() of a value, repr() of a member of an enumeration, str() of an exception, round() *)
Variable text : value -> string.
Variable enum_repr : string -> string.
Variable err_text : exn -> string.
Variable round_to : Z -> pyfloat -> pyfloat.

(** choice == value or value is a member of that name, feature.py:305-308 *)
Definition current (v : value) (c : string) : bool :=
  match v with VStr s => String.eqb c s | VEnum n => String.eqb c n | _ => false end.
Definition mark (v : value) (c : string) : string := if current v c then "*" ++ c ++ "*" else c.
(** (value not in choices) and (isinstance(value, Enum) and value.name not in choices), feature.py:291-293 *)
Definition invalid (v : value) (l : list string) : bool :=
  negb (in_choices v l) && match v with VEnum n => negb (existsb (String.eqb n) l) | _ => false end.
(** f"{choices}" of a list is not spelt out *)
Variable list_text : list string -> string.
(** feature.py:312-316 *)
Definition rounded (r : reading) (v : value) : value :=
  match r_precision r, v with Some n, VFloat f => VFloat (round_to n f) | _, _ => v end.
Definition digits (z : Z) : string := NilZero.string_of_int (Z.to_int z).
Definition head (r : reading) : string := r_name r ++ " (" ++ r_id r ++ "): ".
(** The rest, feature.py:317-327 *)
Definition finish (r : reading) (shown : string) : res string :=
  let s := (head r ++ shown)%string in
  let! u := r_unit r in
  let s := match u with UNone => s | UText t => (s ++ " " ++ t)%string | UEnum n => (s ++ " " ++ enum_repr n)%string end in
  match r_type r with
  | Number => let! g := r_range r in Ok (s ++ " (range: " ++ digits (minimum g) ++ "-" ++ digits (maximum g) ++ ")")%string
  | _ => Ok s
  end.
Definition plain_text (r : reading) (v : value) : string :=
  match rounded r v with VEnum n => enum_repr n | w => text w end.
(** __repr__, feature.py:274-327 *)
Definition repr (r : reading) : res string :=
  match (let! v := r_value r in let! c := r_choices r in Ok (v, c)) with
  | Err e => Ok ("Unable to read value (" ++ r_id r ++ "): " ++ err_text e)%string
  | Ok (v, c) =>
      match r_type r with
      | Choice =>
          match c with
          | CList l =>
              if invalid v l then Ok (head r ++ "invalid value '" ++ text v ++ "' not in " ++ list_text l)%string
              else finish r (String.concat " " (map (mark v) l))
          | _ => Ok (head r ++ "improperly defined choice set.")%string
          end
      | _ => finish r (plain_text r v)
      end
  end.

(** The lines of the listing.  The rich markup and the indentation are left out *)
Inductive line := LTitle (c : category) | LFeature (id : string) (s : string) | LFailed (id : string) (e : exn) | LBlank.
Definition category_eqb (a b : category) : bool :=
  match a, b with Primary, Primary | Config, Config | Info, Info | Debug, Debug | Unset, Unset => true | _, _ => false end.
Definition feature_line (r : reading) : line :=
  match repr r with Ok s => LFeature (r_id r) s | Err e => LFailed (r_id r) e end.
(** _echo_features, cli/feature.py:18-41, without --verbose *)
Definition echo_features (fs : list reading) (c : category) : list line :=
  LTitle c :: map feature_line (filter (fun r => category_eqb (r_category r) c) fs).
(** _echo_all_features, cli/feature.py:44-78 *)
Definition echo_all (fs : list reading) : list line :=
  echo_features fs Primary ++ [LBlank] ++ echo_features fs Info ++ [LBlank] ++ echo_features fs Config ++ [LBlank] ++ echo_features fs Debug.
End Text.

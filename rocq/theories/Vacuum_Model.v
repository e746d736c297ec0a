(** Robot vacuums: kasa/smart/modules/clean.py, cleanrecords.py, consumables.py.  No proofs. *)
From Verif Require Import Base Py Gadget_Model.
Open Scope string_scope.
Open Scope list_scope.
Open Scope Z_scope.

(** ** Status and errors *)
(** Status, clean.py:16-30; ErrorCode, 32-48: the values the device uses.  The member
    UnknownInternal, -1000, is one of the enumeration too. *)
Definition UNKNOWN_INTERNAL : Z := -1000.
Definition STATUS_ERROR : Z := 100.
Definition status_values : list Z := [0; 1; 2; 4; 5; 6; 7; 8; STATUS_ERROR; UNKNOWN_INTERNAL].
Definition error_values : list Z := [0; 2; 3; 4; 6; 7; 14; 15; 16; 21; 22; UNKNOWN_INTERNAL].
(** Enum(v): the member with that value; floats are not modelled *)
Definition enum (values : list Z) (v : json) : option Z :=
  match as_int v with
  | Some z => if existsb (Z.eqb z) values then Some z else None
  | None => None
  end.
(** Whether v can be put in a set *)
Definition hashable (v : json) : bool := match v with JArr _ | JObj _ => false | _ => true end.
(** The module: the reply to getVacStatus as the device object keeps it, and _error_code *)
Record vac := mkVac { v_status : dict json; v_error : Z }.
(** Clean._post_update_hook, clean.py:226-254.  The list of errors is changed in place.
    Warnings, and the set of codes already warned about, are left out: the latter only
    matters for codes that cannot be put in a set. *)
Definition clean_hook (st : vac) : vac * res unit :=
  let errors := match dget "err_status" (v_status st) with Some v => v | None => JNull end in
  if negb (truthy errors) then (mkVac (v_status st) 0, Ok tt)
  else match errors with
       | JArr (error :: rest) =>
           let kept := dset "err_status" (JArr rest) (v_status st) in
           match enum error_values error with
           | Some c => (mkVac kept c, Ok tt)
           | None => if hashable error then (mkVac kept UNKNOWN_INTERNAL, Ok tt) else (mkVac kept (v_error st), Err PyTypeError)
           end
       | JStr _ => (st, Err PyAttributeError)
       | JObj _ => (st, Err PyKeyError)
       | _ => (st, Err PyTypeError)
       end.
(** A new reply replaces the old one before the hook runs. *)
Definition clean_update (reply : dict json) (st : vac) : vac * res unit := clean_hook (mkVac reply (v_error st)).
(** error, clean.py:308-311; status, 357-372 *)
Definition vac_error (st : vac) : Z := v_error st.
Definition vac_status (st : vac) : res Z :=
  if negb (v_error st =? 0) then Ok STATUS_ERROR
  else
    let! code := dindex "status" (v_status st) in
    match enum status_values code with
    | Some s => Ok s
    | None => if hashable code then Ok UNKNOWN_INTERNAL else Err PyTypeError
    end.

(** ** Commands *)
Section Commands.
Variable reply : cmd -> res json.
(** set_pause, clean.py:296-298; set_return_home, 304-306; resume, 292-294; return_home, 300-302 *)
Definition set_pause (b : bool) : M (list cmd) json := send reply (mkCmd "setRobotPause" [("pause", JBool b)]).
Definition set_return_home (b : bool) : M (list cmd) json := send reply (mkCmd "setSwitchCharge" [("switch_charge", JBool b)]).
Definition resume : M (list cmd) json := set_pause false.
Definition return_home : M (list cmd) json := set_return_home true.
(** start, clean.py:268-283; pause, 285-290 *)
Definition start (st : vac) : M (list cmd) json :=
  do! s <- mlift (vac_status st) ;;
  if s =? 7 then resume
  else send reply (mkCmd "setSwitchClean" [("clean_mode", JInt 0); ("clean_on", JBool true); ("clean_order", JBool true); ("force_clean", JBool false)]).
Definition pause (st : vac) : M (list cmd) json :=
  do! s <- mlift (vac_status st) ;;
  if s =? 4 then set_return_home false else set_pause true.
(** FanSpeed, clean.py:51-58 *)
Definition fan_speeds : list (string * Z) := [("Quiet", 1); ("Standard", 2); ("Turbo", 3); ("Max", 4); ("Ultra", 5)].
(** fan_speed_preset, clean.py:313-316; [settings]: the reply to getCleanAttr *)
Definition fan_speed (settings : dict json) : res string :=
  let! v := dindex "suction" settings in
  match find (fun p : string * Z => match as_int v with Some z => snd p =? z | None => false end) fan_speeds with
  | Some (n, _) => Ok n
  | None => Err PyValueError
  end.
(** set_fan_speed_preset, clean.py:318-325, with _change_setting, 327-335 *)
Definition change_setting (name : string) (v : Z) : M (list cmd) json :=
  send reply (mkCmd "setCleanAttr" (dset "type" (JStr "global") [(name, JInt v)])).
Definition set_fan_speed (speed : string) : M (list cmd) json :=
  match dget speed fan_speeds with
  | None => mfail PyValueError
  | Some v => change_setting "suction" v
  end.
End Commands.

(** ** Cleaning records *)
(** The parts of a record that are read: minutes, area, dust collection and timestamp.  The
    optional fields are left out. *)
Record crecord := mkRec { r_time : Z; r_area : Z; r_dust : bool; r_stamp : Z }.
Record crecords := mkRecs { t_time : Z; t_area : Z; t_count : Z; t_list : list crecord; t_last : crecord }.
(** Deserialisation by mashumaro of a required field: MissingField is a LookupError, which the
    model writes as KeyError; InvalidFieldValue is a ValueError.  int() and bool() conversions
    of other types are left out. *)
Definition field_int (k : string) (d : dict json) : res Z :=
  match dget k d with None => Err PyKeyError | Some (JInt z) => Ok z | Some _ => Err PyValueError end.
Definition field_bool (k : string) (d : dict json) : res bool :=
  match dget k d with None => Err PyKeyError | Some (JBool b) => Ok b | Some _ => Err PyValueError end.
Definition record_of (v : json) : res crecord :=
  match v with
  | JObj d =>
      let! t := field_int "clean_time" d in
      let! a := field_int "clean_area" d in
      let! c := field_bool "dust_collection" d in
      let! s := field_int "timestamp" d in
      Ok (mkRec t a c s)
  | _ => Err PyValueError
  end.
Fixpoint records_of (l : list json) : res (list crecord) :=
  match l with
  | [] => Ok []
  | v :: l => let! r := record_of v in let! rs := records_of l in Ok (r :: rs)
  end.
(** A failure inside a nested value is an InvalidFieldValue of the outer field *)
Definition nested {A} (r : res A) : res A := match r with Ok a => Ok a | Err _ => Err PyValueError end.
(** ldr[i]: a list is indexed; looking up a number in a dictionary fails; a string gives a
    character *)
Definition index (i : nat) (v : json) : res json :=
  match v with
  | JArr l => match nth_error l i with Some x => Ok x | None => Err PyIndexError end
  | JObj _ => Err PyKeyError
  | JStr s => match nth_error (list_ascii_of_string s) i with Some c => Ok (JStr (String c "")) | None => Err PyIndexError end
  | _ => Err PyTypeError
  end.
(** Records.__pre_deserialize__, cleanrecords.py:87-96: changes the reply in place *)
Definition pre_deserialize (d : dict json) : res (dict json) :=
  match dget "lastest_day_record" d with
  | Some ldr =>
      if truthy ldr then
        let! a := index 0 ldr in
        let! b := index 1 ldr in
        let! c := index 2 ldr in
        let! e := index 3 ldr in
        Ok (dset "lastest_day_record" (JObj [("timestamp", a); ("clean_time", b); ("clean_area", c); ("dust_collection", e)]) d)
      else Ok d
  | None => Ok d
  end.
(** Records.from_dict, cleanrecords.py:69-85 *)
Definition parse_records (d : dict json) : res crecords :=
  let! t := field_int "total_time" d in
  let! a := field_int "total_area" d in
  let! n := field_int "total_number" d in
  let! l := match dget "record_list" d with
            | None => Err PyKeyError
            | Some (JArr l) => nested (records_of l)
            | Some _ => Err PyValueError
            end in
  let! r := match dget "lastest_day_record" d with None => Err PyKeyError | Some v => nested (record_of v) end in
  Ok (mkRecs t a n l r).
(** CleanRecords._post_update_hook, cleanrecords.py:105-109: the reply as kept, and the parsed
    records *)
Definition records_hook (d : dict json) (old : option crecords) : (dict json * option crecords) * res unit :=
  match pre_deserialize d with
  | Err e => ((d, old), Err e)
  | Ok d => match parse_records d with
            | Err e => ((d, old), Err e)
            | Ok r => ((d, Some r), Ok tt)
            end
  end.

(** ** Consumables *)
(** CONSUMABLE_METAS, consumables.py:48-80: id, data key, lifetime in minutes *)
Definition metas : list (string * (string * Z)) :=
  [("main_brush", ("roll_brush_time", 400 * 60)); ("side_brush", ("edge_brush_time", 200 * 60)); ("filter", ("filter_time", 200 * 60));
   ("sensor", ("sensor_time", 30 * 60)); ("charging_contacts", ("charge_contact_time", 30 * 60))].
(** Consumable, consumables.py:30-45; minutes *)
Record consumable := mkCons { c_key : string; c_lifetime : Z; c_used : Z; c_remaining : Z }.
(** Replies are minutes by key. *)
Definition creply := dict Z.
(** The first update, consumables.py:139-152 *)
Definition fill (r : creply) (ms : list (string * (string * Z))) (cs : dict consumable) : dict consumable :=
  fold_left (fun cs m => match m with (i, (k, life)) =>
               match dget k r with Some u => dset i (mkCons k life u (life - u)) cs | None => cs end end) ms cs.
(** Later ones, consumables.py:153-156: stop at the first missing key *)
Fixpoint refresh (r : creply) (cs : dict consumable) : dict consumable * res unit :=
  match cs with
  | [] => ([], Ok tt)
  | (i, c) :: cs =>
      match dget (c_key c) r with
      | None => ((i, c) :: cs, Err PyKeyError)
      | Some u => let (cs', e) := refresh r cs in ((i, mkCons (c_key c) (c_lifetime c) u (c_lifetime c - u)) :: cs', e)
      end
  end.
(** Consumables._post_update_hook, consumables.py:137-156.  The dictionary is an attribute of
    the class, 89: all modules of all devices share it. *)
Definition consumables_hook (r : creply) (shared : dict consumable) : dict consumable * res unit :=
  match shared with
  | [] => (fill r metas [], Ok tt)
  | _ => refresh r shared
  end.
(** A history: the updates of the devices, in order.  [consumables i] of any device is the
    shared dictionary (167-170). *)
Definition history (ups : list (nat * creply)) : dict consumable :=
  fold_left (fun shared u => fst (consumables_hook (snd u) shared)) ups [].
(** reset_consumable, consumables.py:158-165; removesuffix("_time") *)
Definition removesuffix (suf s : string) : string :=
  let n := (String.length s - String.length suf)%nat in
  if (String.length suf <=? String.length s)%nat && String.eqb (sdrop n s) suf then stake n s else s.
Definition reset_consumable (reply : cmd -> res json) (shared : dict consumable) (i : string) : M (list cmd) json :=
  do! c <- mlift (dindex i shared) ;;
  send reply (mkCmd "resetConsumablesTime" [("reset_list", JArr [JStr (removesuffix "_time" (c_key c))])]).

(** Commands of the command line tool (kasa/cli/light.py, schedule.py, feature.py, device.py, hub.py,
    vacuum.py), the turn-on behaviour of legacy bulbs (kasa/iot/iotbulb.py) and rule lists
    (kasa/iot/modules/rulemodule.py).  Output is left out.  No proofs. *)
From Verif Require Import Base Py IotLight_Model SmartLight_Model Preset_Model Cli_Model.
Open Scope string_scope.
Open Scope list_scope.
Open Scope Z_scope.

(** l[i] with Python's negative indices *)
Definition py_nth {A} (l : list A) (i : Z) : option A :=
  if i <? 0 then (if i + Z.of_nat (List.length l) <? 0 then None else nth_error l (Z.to_nat (i + Z.of_nat (List.length l))))
  else nth_error l (Z.to_nat i).
Definition is_none {A} (o : option A) : bool := match o with None => true | Some _ => false end.

(** ** presets modify, light.py:140-182.  The result is the call of save_preset: the name and the
    state.  LightState (interfaces/light.py) has no attribute temperature. *)
Definition overwrite (new old : option arg) : option arg :=
  match new, old with Some _, Some _ => new | _, _ => old end.
Definition presets_modify (presets : dict light_state) (index : Z) (b h s t : option arg) : step (string * light_state) :=
  if Z.of_nat (List.length presets) - 1 <? index then Stop Exit1                       (* 155-157 *)
  else if is_none b && is_none h && is_none s && is_none t then Stop Exit1           (* 159-161 *)
  else
    match py_nth (preset_list presets) (index + 1) with                              (* 164 *)
    | None => Stop (Raise PyIndexError)
    | Some name =>
        match py_nth (map snd presets) index with                                    (* 165 *)
        | None => Stop (Raise PyIndexError)
        | Some p =>
            match t with
            | Some _ => Stop (Raise PyAttributeError)                                (* 175 *)
            | None => Go (name, mkLight (light_on p) (overwrite b (brightness p)) (overwrite h (hue p))
                                 (overwrite s (saturation p)) (color_temp p) (transition p))
            end
        end
    end.

(** ** Turn-on behaviour, iotbulb.py:36-82 and 306-325 *)
Inductive bmode := LastStatus | CustomizePreset | Circadian.
Definition mode_value (m : bmode) : string :=
  match m with LastStatus => "last_status" | CustomizePreset => "customize_preset" | Circadian => "circadian" end.
Definition mode_of (v : json) : res bmode :=
  match v with
  | JStr s => if String.eqb s "last_status" then Ok LastStatus else if String.eqb s "customize_preset" then Ok CustomizePreset
              else if String.eqb s "circadian" then Ok Circadian else Err PyValueError
  | _ => Err PyValueError
  end.
Record behavior := mkB {
  b_mode : bmode; b_preset : option Z; b_brightness : option Z; b_temp : option Z; b_hue : option Z; b_sat : option Z }.
Record behaviors := mkBs { soft : behavior; hard : behavior }.
(** An optional integer field of a mashumaro dataclass; other values than integers are taken as
    invalid (mashumaro would convert some). *)
Definition opt_int (k : string) (d : dict json) : res (option Z) :=
  match dget k d with
  | None | Some JNull => Ok None
  | Some (JInt z) => Ok (Some z)
  | Some _ => Err PyValueError
  end.
Definition behavior_from (v : json) : res behavior :=
  match v with
  | JObj d =>
      let! m := match dget "mode" d with Some v => mode_of v | None => Err PyValueError end in
      let! p := opt_int "index" d in
      let! b := opt_int "brightness" d in
      let! t := opt_int "color_temp" d in
      let! h := opt_int "hue" d in
      let! s := opt_int "saturation" d in
      Ok (mkB m p b t h s)
  | _ => Err PyValueError
  end.
(** omit_none and serialize_by_alias, iotbulb.py:57-62 *)
Definition int_field (k : string) (o : option Z) : dict json := match o with Some z => [(k, JInt z)] | None => [] end.
Definition behavior_dict (b : behavior) : dict json :=
  ("mode", JStr (mode_value (b_mode b))) :: int_field "index" (b_preset b) ++ int_field "brightness" (b_brightness b)
    ++ int_field "color_temp" (b_temp b) ++ int_field "hue" (b_hue b) ++ int_field "saturation" (b_sat b).
(** TurnOnBehaviors.from_dict: by the aliases soft_on and hard_on, iotbulb.py:74-82 *)
Definition behaviors_from (v : json) : res behaviors :=
  match v with
  | JObj d =>
      let! s := match dget "soft_on" d with Some v => behavior_from v | None => Err PyValueError end in
      let! h := match dget "hard_on" d with Some v => behavior_from v | None => Err PyValueError end in
      Ok (mkBs s h)
  | _ => Err PyValueError
  end.
(** to_dict of TurnOnBehaviors, which has no serialize_by_alias: the names of the fields *)
Definition behaviors_dict (b : behaviors) : dict json :=
  [("soft", JObj (behavior_dict (soft b))); ("hard", JObj (behavior_dict (hard b)))].

(** What the commands below do to a device. *)
Inductive bcall := GetBehavior | SetBehavior (d : dict json).
(** turn_on_behavior, light.py:190-221, for an IotBulb; [reply]: what get_default_behavior gives.
    The result: the settings when only shown. *)
Inductive which := Soft | Hard.
Definition set_preset_of (b : behavior) (p : option Z) : behavior :=
  mkB (b_mode b) p (b_brightness b) (b_temp b) (b_hue b) (b_sat b).
Definition turn_on_behavior (reply : res json) (type : option which) (last : bool) (preset : option Z)
  : list bcall * step (option behaviors) :=
  match (let! r := reply in behaviors_from r) with
  | Err e => ([GetBehavior], Stop (Raise e))
  | Ok st =>
      let wanted := match preset with Some z => negb (z =? 0) | None => false end in
      match type with
      | None => if negb last && negb wanted then ([GetBehavior], Go (Some st)) else ([GetBehavior], Go None)
      | Some t =>
          let change b := if last then set_preset_of b None
                          else match preset with Some p => set_preset_of b (Some p) | None => b end in
          let st := match t with Soft => mkBs (change (soft st)) (hard st) | Hard => mkBs (soft st) (change (hard st)) end in
          ([GetBehavior; SetBehavior (behaviors_dict st)], Go None)
      end
  end.

(** ** Rules, rulemodule.py.  The light state of a rule is kept as it is. *)
Record rule := mkRule {
  r_id : json; r_name : json; r_enable : Z; r_wday : list Z; r_repeat : Z;
  r_sact : option Z; r_stime : option Z; r_smin : option Z;
  r_eact : option Z; r_etime : option Z; r_emin : option Z; r_light : option (dict json) }.
Fixpoint ints (l : list json) : res (list Z) :=
  match l with
  | [] => Ok []
  | JInt z :: l => let! r := ints l in Ok (z :: r)
  | _ :: _ => Err PyValueError
  end.
(** An enum of the integers lo..hi, rulemodule.py:15-30 *)
Definition opt_enum (k : string) (lo hi : Z) (d : dict json) : res (option Z) :=
  let! o := opt_int k d in
  match o with
  | None => Ok None
  | Some z => if (lo <=? z) && (z <=? hi) then Ok (Some z) else Err PyValueError
  end.
Definition req (k : string) (d : dict json) : res json := match dget k d with Some v => Ok v | None => Err PyValueError end.
Definition req_int (k : string) (d : dict json) : res Z :=
  match dget k d with Some (JInt z) => Ok z | _ => Err PyValueError end.
(** Rule.from_dict, rulemodule.py:33-53 *)
Definition rule_from (v : json) : res rule :=
  match v with
  | JObj d =>
      let! id := req "id" d in
      let! name := req "name" d in
      let! en := req_int "enable" d in
      let! wd := match dget "wday" d with Some (JArr l) => ints l | _ => Err PyValueError end in
      let! rp := req_int "repeat" d in
      let! sa := opt_enum "sact" (-1) 2 d in
      let! st := opt_enum "stime_opt" (-1) 2 d in
      let! sm := opt_int "smin" d in
      let! ea := opt_enum "eact" (-1) 2 d in
      let! et := opt_enum "etime_opt" (-1) 2 d in
      let! em := opt_int "emin" d in
      let! li := match dget "s_light" d with None | Some JNull => Ok None | Some (JObj l) => Ok (Some l) | Some _ => Err PyValueError end in
      Ok (mkRule id name en wd rp sa st sm ea et em li)
  | _ => Err PyValueError
  end.
Fixpoint each {A B} (f : A -> res B) (l : list A) : res (list B) :=
  match l with [] => Ok [] | a :: l => let! b := f a in let! r := each f l in Ok (b :: r) end.
(** rules, rulemodule.py:66-75: any exception gives an empty list *)
Definition rules (data : dict json) : list rule :=
  match (let! g := req "get_rules" data in
         match g with
         | JObj g => let! l := req "rule_list" g in match l with JArr l => each rule_from l | _ => Err PyTypeError end
         | _ => Err PyTypeError
         end) with
  | Ok l => l
  | Err _ => []
  end.
(** delete_rule, rulemodule.py:80-82: the module, the command, its parameters *)
Definition delete_rule (module : string) (r : rule) : string * string * json := (module, "delete_rule", JObj [("id", r_id r)]).
(** _schedule_list, schedule.py:21-32: what is printed, and the end.  The else of a for loop without
    break always runs. *)
Definition schedule_list (data : dict json) : list rule * step (list rule) := (rules data, Stop Exit1).
(** delete_rule of the tool, schedule.py:35-46 *)
Definition has_id (id : string) (r : rule) : bool := match r_id r with JStr s => String.eqb s id | _ => false end.
Definition schedule_delete (data : dict json) (id : string) : list (string * string * json) * step unit :=
  match find (has_id id) (rules data) with
  | Some r => ([delete_rule "schedule" r], Go tt)
  | None => ([], Stop Exit1)
  end.

(** ** feature, feature.py:83-154.  [V]: values.  A text is parsed by ast.literal_eval; the features
    are given by whether each is an action; setting, updating and reading are the world's. *)
Inductive fop (V : Type) := FRead (name : string) | FSet (name : string) (v : option V) | FUpdate.
Arguments FRead {V}. Arguments FSet {V}. Arguments FUpdate {V}.
Inductive parsed (V : Type) := Literal (v : V) | NoLiteral (e : exn).
Arguments Literal {V}. Arguments NoLiteral {V}.
Section Feature.
Context {V : Type}.
Variable literal : string -> parsed V.
Variable outcome : fop V -> res unit.     (* what each operation gives *)
Fixpoint ops (todo done : list (fop V)) : list (fop V) * step unit :=
  match todo with
  | [] => (done, Go tt)
  | o :: todo => match outcome o with Ok _ => ops todo (done ++ [o]) | Err e => (done ++ [o], Stop (Raise e)) end
  end.
Definition feature (features : dict bool) (name : option string) (value : option string) : list (fop V) * step unit :=
  match name with
  | None => ([], Go tt)                                           (* 101-113: lists the features *)
  | Some name =>
      if String.eqb name "" then ([], Go tt)
      else match dget name features with
      | None => ([], Stop Exit1)                                  (* 115-117 *)
      | Some action =>
          match value with
          | None => if action then ops [FSet name None] [] else ops [FRead name] []    (* 121-130 *)
          | Some text =>
              match literal text with
              | NoLiteral PyValueError | NoLiteral PyOther => ([], Stop Usage)         (* 132-144; PyOther: SyntaxError *)
              | NoLiteral e => ([], Stop (Raise e))
              | Literal v => ops [FRead name; FSet name (Some v); FUpdate; FRead name] []   (* 146-151 *)
              end
          end
      end
  end.
End Feature.

(** ** unpair, hub.py:75-95: [before], [after] are the ids of the children before and after the update *)
Inductive hop := HUnpair (id : string) | HUpdate.
Definition hub_unpair (before after : list string) (unpaired updated : res unit) (id : string) : list hop * step unit :=
  if negb (existsb (String.eqb id) before) then ([], Stop Exit1)
  else match unpaired with
  | Err e => ([HUnpair id], Stop (Raise e))
  | Ok _ =>
      match updated with
      | Err e => ([HUnpair id; HUpdate], Stop (Raise e))
      | Ok _ => ([HUnpair id; HUpdate], if existsb (String.eqb id) after then Stop Exit1 else Go tt)
      end
  end.

(** ** brightness, temperature, effect, hsv, light.py:23-118.  What the tool knows of the light: what it
    supports and what it reports.  The ranges are checked by click before the command runs.  The
    arguments of hsv are filled from the left; more than three are refused by click. *)
Inductive lcmd :=
| Brightness (value transition : option Z)
| Temperature (value transition : option Z)
| Effect (name : option string)
| Hsv (values : list Z) (transition : option Z).
Inductive lcall :=
| SetBrightness (v : Z) (transition : option Z)
| SetTemperature (v : Z) (transition : option Z)
| SetEffect (name : string)
| SetHsv (h s v : Z) (transition : option Z).
Inductive lval := VInt (z : Z) | VPair (a b : Z) | VStr (s : string) | VHsv (h s v : Z) | VDone.
Record lamp := mkLamp {
  has_brightness : bool; has_temperature : bool; has_effect : bool; has_hsv : bool;
  at_brightness : Z; at_temperature : Z; temperature_range : Z * Z; at_effect : string; effect_list : list string;
  at_hsv : Z * Z * Z }.
Definition in_range (lo hi z : Z) : bool := (lo <=? z) && (z <=? hi).
Definition in_range_opt (lo hi : Z) (o : option Z) : bool := match o with Some z => in_range lo hi z | None => true end.
Definition light_command (l : lamp) (c : lcmd) : list lcall * step lval :=
  match c with
  | Brightness v t =>
      if negb (in_range_opt 0 100 v) then ([], Stop Usage)                       (* 24 *)
      else if negb (has_brightness l) then ([], Stop Exit1)                      (* 29-33 *)
      else match v with
           | None => ([], Go (VInt (at_brightness l)))                           (* 35-37 *)
           | Some v => ([SetBrightness v t], Go VDone)                           (* 38-40 *)
           end
  | Temperature v t =>
      if negb (in_range_opt 2500 9000 v) then ([], Stop Usage)                   (* 44-46 *)
      else if negb (has_temperature l) then ([], Stop Exit1)                     (* 51-55 *)
      else match v with
           | None => ([], Go (let (a, b) := temperature_range l in VPair a b))   (* 57-67 *)
           | Some v => ([SetTemperature v t], Go VDone)                          (* 68-70 *)
           end
  | Effect name =>
      if negb (has_effect l) then ([], Stop Exit1)                               (* 79-81 *)
      else match name with
           | None => ([], Go (VStr (at_effect l)))                               (* 82-87 *)
           | Some e => if negb (existsb (String.eqb e) (effect_list l)) then ([], Stop Usage)   (* 89-92 *)
                       else ([SetEffect e], Go VDone)                            (* 94-95 *)
           end
  | Hsv values t =>
      match values with
      | [] => if negb (has_hsv l) then ([], Stop Exit1) else let '(h, s, v) := at_hsv l in ([], Go (VHsv h s v))   (* 112-114 *)
      | [h] => if negb (in_range 0 360 h) then ([], Stop Usage)
               else if negb (has_hsv l) then ([], Stop Exit1) else ([], Stop Usage)                   (* 115-116 *)
      | [h; s] => if negb (in_range 0 360 h && in_range 0 100 s) then ([], Stop Usage)
                  else if negb (has_hsv l) then ([], Stop Exit1) else ([], Stop Usage)
      | [h; s; v] => if negb (in_range 0 360 h && in_range 0 100 s && in_range 0 100 v) then ([], Stop Usage)
                     else if negb (has_hsv l) then ([], Stop Exit1) else ([SetHsv h s v t], Go VDone)  (* 117-119 *)
      | _ => ([], Stop Usage)
      end
  end.

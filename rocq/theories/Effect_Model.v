(** Light effects: kasa/smart/modules/lighteffect.py, lightstripeffect.py and
    kasa/iot/modules/lighteffect.py.  Text is its UTF-8 bytes.  No proofs. *)
From Verif Require Import Base Py Crypto_Model Gadget_Model Vacuum_Model.
Open Scope string_scope.
Open Scope list_scope.
Open Scope Z_scope.

(** ** base64.b64decode(s).decode() *)
(** binascii.a2b_base64 in its default mode: characters outside the alphabet are skipped, and
    a sequence of pads that completes a group ends the text.  The bits kept so far make the
    state. *)
Inductive pending := P0 | P6 (s : sextet) | P4 (a b c d : bool) | P2 (a b : bool).
Fixpoint a2b (st : pending) (pads : nat) (t : bytes) : res bytes :=
  match t with
  | [] => match st with P0 => Ok [] | _ => Err PyValueError end
  | c :: t =>
      if Ascii.eqb c pad_char then
        match st with
        | P0 | P6 _ => a2b st pads t
        | P4 _ _ _ _ => if (4 <=? 2 + S pads)%nat then Ok [] else a2b st (S pads) t
        | P2 _ _ => if (4 <=? 3 + S pads)%nat then Ok [] else a2b st (S pads) t
        end
      else match char_sx c with
           | None => a2b st pads t
           | Some (Sx x5 x4 x3 x2 x1 x0) =>
               match st with
               | P0 => a2b (P6 (Sx x5 x4 x3 x2 x1 x0)) 0 t
               | P6 (Sx a7 a6 a5 a4 a3 a2) => let! r := a2b (P4 x3 x2 x1 x0) 0 t in Ok (Ascii x4 x5 a2 a3 a4 a5 a6 a7 :: r)
               | P4 b7 b6 b5 b4 => let! r := a2b (P2 x1 x0) 0 t in Ok (Ascii x2 x3 x4 x5 b4 b5 b6 b7 :: r)
               | P2 c7 c6 => let! r := a2b P0 0 t in Ok (Ascii x0 x1 x2 x3 x4 x5 c6 c7 :: r)
               end
           end
  end.
(** Whether bytes are well-formed UTF-8, as bytes.decode() requires *)
Definition in_range (lo hi : N) (b : byte) : bool := (lo <=? bval b)%N && (bval b <=? hi)%N.
Definition cont : byte -> bool := in_range 128 191.
Fixpoint utf8 (t : bytes) : bool :=
  match t with
  | [] => true
  | a :: t =>
      if in_range 0 127 a then utf8 t
      else match t with
      | [] => false
      | b :: t =>
          if in_range 194 223 a then cont b && utf8 t
          else match t with
          | [] => false
          | c :: t =>
              if in_range 224 224 a then in_range 160 191 b && cont c && utf8 t
              else if in_range 237 237 a then in_range 128 159 b && cont c && utf8 t
              else if in_range 225 239 a then cont b && cont c && utf8 t
              else match t with
              | [] => false
              | d :: t =>
                  if in_range 240 240 a then in_range 144 191 b && cont c && cont d && utf8 t
                  else if in_range 241 243 a then cont b && cont c && cont d && utf8 t
                  else if in_range 244 244 a then in_range 128 143 b && cont c && cont d && utf8 t
                  else false
              end
          end
      end
  end.
Definition is_ascii (b : byte) : bool := in_range 0 127 b.
(** The name of an effect, lighteffect.py:37-46: only binascii.Error is suppressed; text that is
    not ASCII raises a ValueError and a result that is not text a UnicodeDecodeError. *)
Definition scene_text (s : string) : res string :=
  let t := list_ascii_of_string s in
  if negb (forallb is_ascii t) then Err PyValueError
  else match a2b P0 0 t with
       | Err _ => Ok s
       | Ok b => if utf8 b then Ok (string_of_list_ascii b) else Err PyUnicode
       end.
(** AVAILABLE_BULB_EFFECTS, lighteffect.py:21-24 *)
Definition bulb_effects : dict string := [("L1", "Party"); ("L2", "Relax")].

(** ** LightEffect (bulbs) *)
(** A rule is the dictionary the device sent. *)
Definition str_item (k : string) (d : dict json) : res string :=
  let! v := dindex k d in match v with JStr s => Ok s | _ => Err PyTypeError end.
(** {effect["id"]: effect for effect in rules}; ids that are not strings are not modelled *)
Fixpoint by_id (rules : list (dict json)) (acc : dict (dict json)) : res (dict (dict json)) :=
  match rules with
  | [] => Ok acc
  | r :: rules => let! i := str_item "id" r in by_id rules (dset i r acc)
  end.
Definition name_rule (r : dict json) : res (dict json) :=
  let! v := dindex "scene_name" r in
  if negb (truthy v) then
    let! i := str_item "id" r in
    let! n := dindex i bulb_effects in
    Ok (dset "scene_name" (JStr n) r)
  else match v with
       | JStr s => let! n := scene_text s in Ok (dset "scene_name" (JStr n) r)
       | _ => Err PyTypeError
       end.
Fixpoint name_rules (d : dict (dict json)) : res (dict (dict json)) :=
  match d with
  | [] => Ok []
  | (i, r) :: d => let! r := name_rule r in let! d := name_rules d in Ok ((i, r) :: d)
  end.
(** The name and the id of every rule *)
Fixpoint names_of (d : dict (dict json)) : res (list (string * string)) :=
  match d with
  | [] => Ok []
  | (_, r) :: d => let! n := str_item "scene_name" r in let! i := str_item "id" r in let! l := names_of d in Ok ((n, i) :: l)
  end.
Definition OFF : string := "Off".
(** _effect_state_list, _effect_list, _scenes_names_to_id, _effect *)
Record effects := mkEff { f_rules : dict (dict json); f_list : list string; f_ids : dict string; f_active : string }.
(** _post_update_hook, lighteffect.py:31-61; [active]: dynamic_light_effect_id when
    dynamic_light_effect_enable is set *)
Definition effect_hook (rules : list (dict json)) (active : option string) : res effects :=
  let! d := by_id rules [] in
  let! d := name_rules d in
  let! l := names_of d in
  let! a := match active with
            | Some i => let! r := dindex i d in str_item "scene_name" r
            | None => Ok OFF
            end in
  Ok (mkEff d (OFF :: map fst l) (fold_left (fun acc p => dset (fst p) (snd p) acc) l []) a).
Section Commands.
Variable reply : cmd -> res json.
(** _replace_brightness, lighteffect.py:146-152 *)
Definition replace_brightness (b : Z) (v : json) : res json :=
  let! x := index 1 v in
  let! y := index 2 v in
  let! z := index 3 v in
  Ok (JArr [JInt b; x; y; z]).
Fixpoint replace_all (b : Z) (l : list json) : res (list json) :=
  match l with
  | [] => Ok []
  | v :: l => let! v := replace_brightness b v in let! l := replace_all b l in Ok (v :: l)
  end.
(** set_brightness, lighteffect.py:135-160; [i] is the effect's id (current_rule_id when none is
    given) *)
Definition set_effect_brightness (e : effects) (i : string) (b : Z) : M (list cmd) json :=
  do! r <- mlift (dindex i (f_rules e)) ;;
  do! l <- mlift (dindex "color_status_list" r) ;;
  do! l <- mlift (jiter l) ;;
  do! l <- mlift (replace_all b l) ;;
  send reply (mkCmd "edit_dynamic_light_effect_rule" (dset "color_status_list" (JArr l) r)).
(** set_effect, lighteffect.py:77-110; [now]: the brightness the device reports *)
Definition set_effect (e : effects) (now : Z) (name : string) (b : option Z) : M (list cmd) json :=
  if negb (String.eqb name OFF) && negb (dmem name (f_ids e)) then mfail PyValueError
  else if String.eqb name OFF then send reply (mkCmd "set_dynamic_light_effect_rule_enable" [("enable", JBool false)])
  else
    do! i <- mlift (dindex name (f_ids e)) ;;
    do! _ <- set_effect_brightness e i (match b with Some b => b | None => now end) ;;
    send reply (mkCmd "set_dynamic_light_effect_rule_enable" [("enable", JBool true); ("id", JStr i)]).

(** ** Light strips *)
(** EFFECT_NAMES, smart/effects.py:435-455; EFFECT_NAMES_V1, iot/effects.py *)
Definition names_v1 : list string :=
  ["Aurora"; "Bubbling Cauldron"; "Candy Cane"; "Christmas"; "Flicker"; "Hanukkah"; "Haunted Mansion"; "Icicle"; "Lightning"; "Ocean";
   "Rainbow"; "Raindrop"; "Spring"; "Valentines"].
Definition names_v2 : list string :=
  ["Aurora"; "Bubbling Cauldron"; "Candy Cane"; "Christmas"; "Flicker"; "Grandma's Christmas Lights"; "Hanukkah"; "Haunted Mansion"; "Icicle";
   "Lightning"; "Ocean"; "Rainbow"; "Raindrop"; "Spring"; "Sunrise"; "Sunset"; "Valentines"].
(** The other fields of an effect, such as its colours *)
Variable extra : string -> dict json.
(** EFFECT_MAPPING: every effect has its name, enable 1 and custom 0 *)
Definition effect_dict (n : string) : dict json :=
  dset "name" (JStr n) (dset "enable" (JInt 1) (dset "custom" (JInt 0) (extra n))).
(** effect of SMART strips, lightstripeffect.py:38-48, and of legacy strips,
    iot/modules/lighteffect.py:13-20 *)
Definition strip_effect (eff : dict json) : res string :=
  let! n := str_item "name" eff in
  let! on := dindex "enable" eff in
  if truthy on && smem n (OFF :: names_v2) then Ok n
  else if truthy on then
    let! c := dindex "custom" eff in
    Ok (if truthy c then (if String.eqb n "" then "Custom" else n) else OFF)
  else Ok OFF.
Definition iot_effect (eff : dict json) : res string :=
  let! n := str_item "name" eff in
  let! on := dindex "enable" eff in
  Ok (if truthy on then (if String.eqb n "" then "Custom" else n) else OFF).
(** set_effect of SMART strips, lightstripeffect.py:83-132; [eff] is what the device reports,
    [now] its brightness *)
Definition opt_set (k : string) (v : option Z) (d : dict json) : dict json :=
  match v with Some z => dset k (JInt z) d | None => d end.
Definition off_dict (names : list string) (current : string) : dict json :=
  dset "enable" (JInt 0) (effect_dict (if smem current names then current else "Aurora")).
Definition set_strip_effect (eff : dict json) (now : Z) (name : string) (b t : option Z) : M (list cmd) json :=
  if String.eqb name OFF then
    do! current <- mlift (strip_effect eff) ;;
    send reply (mkCmd "set_lighting_effect" (off_dict names_v2 current))
  else if negb (smem name names_v2) then mfail PyValueError
  else
    let b := match b with Some b => Some b | None => if now =? 0 then None else Some now end in
    send reply (mkCmd "set_lighting_effect" (opt_set "transition" t (opt_set "brightness" b (effect_dict name)))).
(** set_brightness, lightstripeffect.py:63-72 *)
Definition set_strip_brightness (eff : dict json) (b : Z) : M (list cmd) json :=
  if b <=? 0 then set_strip_effect eff 0 OFF None None
  else send reply (mkCmd "set_lighting_effect" [("brightness", JInt b); ("bAdjusted", JBool true)]).
(** set_effect of legacy strips, iot/modules/lighteffect.py:39-77 *)
Definition set_iot_effect (eff : dict json) (name : string) (b t : option Z) : M (list cmd) json :=
  if String.eqb name OFF then
    do! current <- mlift (iot_effect eff) ;;
    send reply (mkCmd "set_lighting_effect" (off_dict names_v1 current))
  else if negb (smem name names_v1) then mfail PyValueError
  else send reply (mkCmd "set_lighting_effect" (opt_set "transition" t (opt_set "brightness" b (effect_dict name)))).
End Commands.

(** Energy readings and usage statistics of legacy devices, and their aggregation by
    strips.  Models kasa/emeterstatus.py, iot/modules/emeter.py, iot/modules/usage.py
    and StripEmeter of iot/iotstrip.py.  Numbers are rationals: the rounding of floats
    is not modelled.  No proofs. *)
From Coq Require Import QArith.
From Verif Require Import Base Py.
Open Scope string_scope.
Open Scope list_scope.

(** A reading: the numbers the device sent; [None] stands for null. *)
Definition reading := dict (option Q).
Definition valid_keys : list string :=
  ["voltage_mv"; "power_mw"; "current_ma"; "energy_wh"; "total_wh"; "voltage"; "power"; "current"; "total"; "energy"].
(** item[: item.find("_")] *)
Fixpoint upto_underscore (s : string) : string :=
  match s with
  | EmptyString => EmptyString
  | String c s => if Ascii.eqb c "_"%char then EmptyString else String c (upto_underscore s)
  end.
(** The search through the keys, 84-89 *)
Fixpoint downscale (item : string) (d : reading) : option Q :=
  match d with
  | [] => None
  | (k, v) :: d =>
      match (if String.prefix item k then v else None) with
      | Some x => Some (x / 1000)%Q
      | None => downscale item d
      end
  end.
(** EmeterStatus.__getitem__, emeterstatus.py:58-91 *)
Definition getitem (item : string) (d : reading) : res (option Q) :=
  match dget item d with
  | Some v => Ok v
  | None =>
      if negb (smem item valid_keys) then Err PyKeyError
      else if smem_char "_"%char item then
        match dget (upto_underscore item) d with
        | None => Err PyKeyError
        | Some None => Err PyTypeError
        | Some (Some x) => Ok (Some (x * 1000)%Q)
        end
      else Ok (downscale item d)
  end.

(** ** Strips *)
(** merge_sums, iotstrip.py:29-35; adding null raises *)
Definition add_sum (kv : string * option Q) (total : dict Q) : res (dict Q) :=
  match snd kv with
  | None => Err PyTypeError
  | Some x => Ok (dset (fst kv) ((match dget (fst kv) total with Some t => t | None => 0 end) + x)%Q total)
  end.
Fixpoint add_sums (d : reading) (total : dict Q) : res (dict Q) :=
  match d with
  | [] => Ok total
  | kv :: d => let! total := add_sum kv total in add_sums d total
  end.
Fixpoint merge_sums_from (ds : list reading) (total : dict Q) : res (dict Q) :=
  match ds with
  | [] => Ok total
  | d :: ds => let! total := add_sums d total in merge_sums_from ds total
  end.
Definition merge_sums (ds : list reading) : res (dict Q) := merge_sums_from ds [].
(** int(x): towards zero *)
Definition q_int (x : Q) : Z := Z.quot (Qnum x) (Zpos (Qden x)).
(** status and get_status of StripEmeter, 220-228 and 289-297 *)
Definition strip_status (ds : list reading) : res reading :=
  let! total := merge_sums ds in
  match ds with
  | [] => Err PyZeroDivision
  | _ =>
      let v := (match dget "voltage_mv" total with Some x => x | None => 0 end)%Q in
      let avg := inject_Z (q_int (v / inject_Z (Z.of_nat (length ds))))%Q in
      Ok (map (fun kv => (fst kv, Some (snd kv))) (dset "voltage_mv" avg total))
  end.
(** current_consumption, 212-218, and consumption_total, 281-287: a null or missing
    reading counts as zero *)
Fixpoint sum_item (item : string) (ds : list reading) : res Q :=
  match ds with
  | [] => Ok 0%Q
  | d :: ds =>
      let! v := getitem item d in
      let! s := sum_item item ds in
      Ok ((match v with Some x => x | None => 0 end) + s)%Q
  end.

(** ** Periodic statistics *)
Definition entry := dict Q.
Definition eitem (k : string) (e : entry) : res Q := match dget k e with Some x => Ok x | None => Err PyKeyError end.
(** Results are dictionaries keyed by numbers. *)
Fixpoint qget (k : Q) (m : list (Q * Q)) : option Q :=
  match m with [] => None | (k', v) :: m => if Qeq_bool k k' then Some v else qget k m end.
Fixpoint qset (k v : Q) (m : list (Q * Q)) : list (Q * Q) :=
  match m with
  | [] => [(k, v)]
  | (k', v') :: m => if Qeq_bool k k' then (k', v) :: m else (k', v') :: qset k v m
  end.
(** {entry[entry_key]: entry[value_key] * scale for entry in data} *)
Fixpoint convert_all (entry_key value_key : string) (scale : Q) (data : list entry) (m : list (Q * Q)) : res (list (Q * Q)) :=
  match data with
  | [] => Ok m
  | e :: data =>
      let! k := eitem entry_key e in
      let! v := eitem value_key e in
      convert_all entry_key value_key scale data (qset k (v * scale)%Q m)
  end.
(** for entry in reversed(data); [data] is reversed already *)
Fixpoint convert_one (entry_key value_key : string) (scale key : Q) (data : list entry) : res (list (Q * Q)) :=
  match data with
  | [] => Ok []
  | e :: data =>
      let! k := eitem entry_key e in
      if Qeq_bool k key then let! v := eitem value_key e in Ok [(k, (v * scale)%Q)]
      else convert_one entry_key value_key scale key data
  end.
(** Emeter._convert_stat_data, emeter.py:106-155 *)
Definition convert_stat_data (data : list entry) (entry_key : string) (kwh : bool) (key : option Q) : res (list (Q * Q)) :=
  match data with
  | [] => Ok []
  | e0 :: _ =>
      let wh := dmem "energy_wh" e0 in
      let value_key := if wh then "energy_wh" else "energy" in
      let scale := (if wh then if kwh then 1 / 1000 else 1 else if kwh then 1 else 1000)%Q in
      match key with
      | None => convert_all entry_key value_key scale data []
      | Some k => convert_one entry_key value_key scale k (rev data)
      end
  end.
(** consumption_today and consumption_this_month, 38-54 *)
Definition consumption (data : list entry) (entry_key : string) (now : Q) : res Q :=
  let! m := convert_stat_data data entry_key true (Some now) in
  Ok (match qget now m with Some v => v | None => 0%Q end).
(** Usage._convert_stat_data, usage.py:104-122 *)
Definition convert_usage (data : list entry) (entry_key : string) : res (list (Q * Q)) :=
  convert_all entry_key "time" 1 data [].
(** usage_today and usage_this_month, usage.py:42-60 *)
Definition usage_now (data : list entry) (entry_key : string) (now : Q) : res (option Q) :=
  let fix go (data : list entry) : res (option Q) :=
    match data with
    | [] => Ok None
    | e :: data =>
        let! k := eitem entry_key e in
        if Qeq_bool k now then let! v := eitem "time" e in Ok (Some v) else go data
    end in
  go (rev data).

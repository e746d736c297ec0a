(** Specification vocabulary for redaction (C10, C11). *)
From Verif Require Import Base Py Redact_Model.
Open Scope string_scope.

(** Positions inside a JSON value. *)
Inductive pos := Key (k : string) | Idx (i : nat).

Fixpoint at_path (p : list pos) (v : json) : option json :=
  match p with
  | [] => Some v
  | Key k :: r => match v with
                  | JObj d => match dget k d with Some x => at_path r x | None => None end
                  | _ => None
                  end
  | Idx i :: r => match v with
                  | JArr l => match nth_error l i with Some x => at_path r x | None => None end
                  | _ => None
                  end
  end.

(** No sensitive key on the way. *)
Definition clean (tbl : redactors) (p : list pos) : Prop :=
  forall k, In (Key k) p -> dget k tbl = None.

(** null and the empty string carry nothing to hide. *)
Definition blank (v : json) : Prop := v = JNull \/ v = JStr "".

(** What kind of value it is, and its keys or length when it is a container. *)
Inductive shape := SLeaf (v : json) | SList (n : nat) | SDict (keys : list string).
Definition shape_of (v : json) : shape :=
  match v with
  | JArr l => SList (length l)
  | JObj d => SDict (dkeys d)
  | _ => SLeaf v
  end.

(** Two values that differ only below sensitive keys; under key [k] the values
    [x] and [y] are both present, not blank, and count as the same secret
    category when [alike k x y]. *)
Inductive differ_only_in_secrets (tbl : redactors) (alike : string -> json -> json -> Prop)
  : json -> json -> Prop :=
| DS_same v : differ_only_in_secrets tbl alike v v
| DS_list l l' : Forall2 (differ_only_in_secrets tbl alike) l l' ->
    differ_only_in_secrets tbl alike (JArr l) (JArr l')
| DS_dict d d' : Forall2 (fun a b => fst a = fst b /\
      (snd a = snd b \/
       (dget (fst a) tbl = None /\ differ_only_in_secrets tbl alike (snd a) (snd b)) \/
       (dget (fst a) tbl <> None /\ ~ blank (snd a) /\ ~ blank (snd b) /\
        alike (fst a) (snd a) (snd b)))) d d' ->
    differ_only_in_secrets tbl alike (JObj d) (JObj d').

(** ** MAC addresses *)
(** Twelve characters, or pairs separated by one delimiter. *)
Inductive mac_format := Plain | Delimited (d : ascii).
Definition mac_text (f : mac_format) (vendor device : string * string * string) : string :=
  match vendor, device with
  | (a, b, c), (x, y, z) =>
    match f with
    | Plain => a ++ b ++ c ++ x ++ y ++ z
    | Delimited d =>
        let s := String d "" in a ++ s ++ b ++ s ++ c ++ s ++ x ++ s ++ y ++ s ++ z
    end
  end.
Definition octet (s : string) : Prop :=
  String.length s = 2 /\ forall c, smem_char c s = true -> c <> ":"%char.
Definition octets (t : string * string * string) : Prop :=
  match t with (a, b, c) => octet a /\ octet b /\ octet c end.

Definition known_delim (f : mac_format) : Prop :=
  match f with Plain => True | Delimited d => d = ":"%char \/ d = "-"%char end.

(** ** Keys whose values must not show at all in a log *)
Definition smart_hidden : list string :=
  ["latitude"; "longitude"; "la"; "lo"; "nickname"; "ssid"; "bssid"; "channel"; "device_name";
   "device_alias"; "alias"; "board_sn"; "custom_sn"; "location"; "map_data"; "map_name"; "cd"].
Definition iot_hidden : list string :=
  ["latitude"; "longitude"; "latitude_i"; "longitude_i"; "alias"; "ssid"; "username"].
(** Any two truthy values of such a key are interchangeable secrets (so are
    any two falsy ones: 0, false and empty containers). *)
Definition any_secret (keys : list string) (k : string) (x y : json) : Prop :=
  In k keys /\ truthy x = truthy y.
(** Setup codes: texts that agree on which characters are letters or digits,
    and on every other character. *)
Definition wordlike (c : ascii) : Prop :=
  In c (list_ascii_of_string "abcdefghijklmnopqrstuvwxyzABCDEFGHIJKLMNOPQRSTUVWXYZ0123456789_") \/ (128 <= N_of_ascii c)%N.
Inductive same_layout : string -> string -> Prop :=
| layout_nil : same_layout "" ""
| layout_cons c d s t : c = d \/ (wordlike c /\ wordlike d) -> same_layout s t -> same_layout (String c s) (String d t).

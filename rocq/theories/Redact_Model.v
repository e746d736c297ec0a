(** Redaction of data before logging.
    Models kasa/protocols/protocol.py:36-73 and the redactor tables,
    smartprotocol.py:40-90 and iotprotocol.py:29-57. *)
From Coq Require Import DecimalString.
From Verif Require Import Base Py.
Open Scope string_scope.

(** A redactor: None, or a function that may raise. *)
Definition redactors := dict (option (json -> res json)).

(** The value put in place of [value] under a key of the table, protocol.py:52-58;
    whatever the redactor raises is swallowed. *)
Definition apply_redactor (r : option (json -> res json)) (value : json) : json :=
  match r with
  | Some f => match f value with Ok v => v | Err _ => JStr "**REDACTEX**" end
  | None => JStr "**REDACTED**"
  end.

(** value is None, or an empty string: protocol.py:47-50 *)
Definition skipped (v : json) : bool :=
  match v with JNull => true | JStr s => String.eqb s "" | _ => false end.

(** redact_data, protocol.py:36-64.  The copy [{**data}] makes it a function of
    its argument; the argument itself is not changed. *)
Fixpoint redact_data (tbl : redactors) (data : json) : json :=
  match data with
  | JArr l => JArr (map (redact_data tbl) l)
  | JObj d =>
      JObj (map (fun kv =>
        match kv with (key, value) =>
          (key,
            if skipped value then value
            else match dget key tbl with
            | Some r => apply_redactor r value
            | None =>
                match value with
                | JObj _ => redact_data tbl value
                | JArr _ => redact_data tbl value
                | _ => value
                end
            end)
        end) d)
  | _ => data
  end.

(** mask_mac, protocol.py:67-73; [len] counts characters *)
Definition mask_mac (mac : string) : string :=
  if Nat.eqb (String.length mac) 12 then stake 6 mac ++ "000000"
  else
    let delim := if smem_char ":" mac then ":" else "-" in
    stake 8 mac ++ delim ++ "00" ++ delim ++ "00" ++ delim ++ "00".

(** ** Redactor functions *)
Definition on_str (f : string -> string) (v : json) : res json :=
  match v with JStr s => Ok (JStr (f s)) | _ => Err PyTypeError end.
(** lambda x: c *)
Definition const (c : json) (v : json) : res json := Ok c.
(** lambda x: c if x else "" *)
Definition const_if (c : string) (v : json) : res json :=
  Ok (JStr (if truthy v then c else "")).
(** lambda x: "REDACTED_" + x[9::]; anything but a string raises *)
Definition keep_tail : json -> res json := on_str (fun x => "REDACTED_" ++ sdrop 9 x).
(** mask_mac; a value that is not a string is taken to raise *)
Definition mac_redactor : json -> res json := on_str mask_mac.
(** re.sub(r"\w", "0", x): letters, digits, underscore; characters beyond ASCII
    are all taken as word characters *)
Definition word_char (c : ascii) : bool :=
  let n := N_of_ascii c in
  ((48 <=? n) && (n <=? 57) || (65 <=? n) && (n <=? 90) || (97 <=? n) && (n <=? 122)
   || (n =? 95) || (128 <=? n))%N.
Definition zero_words : json -> res json :=
  on_str (smap (fun c => if word_char c then "0"%char else c)).
(** lambda x: x *)
Definition keep : json -> res json := fun v => Ok v.

Definition mapM {A B} (f : nat -> A -> res B) : nat -> list A -> res (list B) :=
  fix go (i : nat) (l : list A) : res (list B) :=
    match l with
    | [] => Ok []
    | x :: r => let! y := f i x in let! ys := go (S i) r in Ok (y :: ys)
    end.

(** _mask_area_list, smartprotocol.py:40-48 *)
Definition mask_area (_ : nat) (area : json) : res json :=
  match area with
  | JObj d => Ok (JObj (match dget "name" d with
                        | Some n => if truthy n then dset "name" (JStr "I01BU0tFRF9OQU1FIw==") d else d
                        | None => d
                        end))
  | _ => Err PyTypeError
  end.
Definition mask_area_list (v : json) : res json :=
  let! l := jiter v in let! l' := mapM mask_area 0 l in Ok (JArr l').

(** str(n) *)
Definition string_of_nat (n : nat) : string := NilZero.string_of_uint (Nat.to_uint n).

(** _mask_children, iotprotocol.py:29-40 *)
Definition mask_child (index : nat) (child : json) : res json :=
  match child with
  | JObj d =>
      let d1 := dset "id" (JStr ("SCRUBBED_CHILD_DEVICE_ID_" ++ string_of_nat (S index))) d in
      Ok (JObj (match dget "alias" d with
                | Some a => if truthy a
                            then dset "alias" (JStr ("#MASKED_NAME# " ++ string_of_nat (S index))) d1
                            else d1
                | None => d1
                end))
  | _ => Err PyTypeError
  end.
Definition mask_children (v : json) : res json :=
  let! l := jiter v in let! l' := mapM mask_child 0 l in Ok (JArr l').

(** SMART REDACTORS, smartprotocol.py:51-90 *)
Definition smart_redactors : redactors :=
  [("latitude", Some (const (JInt 0))); ("longitude", Some (const (JInt 0)));
   ("la", Some (const (JInt 0))); ("lo", Some (const (JInt 0)));
   ("device_id", Some keep_tail); ("parent_device_id", Some keep_tail);
   ("original_device_id", Some keep_tail);
   ("nickname", Some (const_if "I01BU0tFRF9OQU1FIw=="));
   ("mac", Some mac_redactor); ("ssid", Some (const_if "I01BU0tFRF9TU0lEIw=="));
   ("bssid", Some (const (JStr "000000000000"))); ("channel", Some (const (JInt 0)));
   ("oem_id", Some keep_tail); ("hw_id", Some keep_tail); ("fw_id", Some keep_tail);
   ("setup_code", Some zero_words); ("setup_payload", Some zero_words);
   ("mfi_setup_code", Some zero_words); ("mfi_setup_id", Some zero_words);
   ("mfi_token_token", Some zero_words); ("mfi_token_uuid", Some zero_words);
   ("ip", Some keep);
   ("dev_id", Some keep_tail); ("ext_addr", Some keep_tail);
   ("device_name", Some (const_if "#MASKED_NAME#")); ("device_alias", Some (const_if "#MASKED_NAME#"));
   ("alias", Some (const_if "#MASKED_NAME#")); ("local_ip", Some keep);
   ("board_sn", Some (const (JStr "000000000000"))); ("custom_sn", Some (const (JStr "000000000000")));
   ("location", Some (const_if "#MASKED_NAME#")); ("map_data", Some (const_if "#SCRUBBED_MAPDATA#"));
   ("map_name", Some (const (JStr "I01BU0tFRF9OQU1FIw==")));
   ("area_list", Some mask_area_list); ("cd", Some (const (JStr "I01BU0tFRF9CSU5BUlkj")))].

(** IOT REDACTORS, iotprotocol.py:43-57 *)
Definition iot_redactors : redactors :=
  [("latitude", Some (const (JInt 0))); ("longitude", Some (const (JInt 0)));
   ("latitude_i", Some (const (JInt 0))); ("longitude_i", Some (const (JInt 0)));
   ("deviceId", Some keep_tail); ("children", Some mask_children);
   ("alias", Some (const_if "#MASKED_NAME#")); ("mac", Some mac_redactor);
   ("mic_mac", Some mac_redactor); ("ssid", Some (const_if "#MASKED_SSID#"));
   ("oemId", Some keep_tail); ("username", Some (const (JStr "user@example.com")));
   ("hwId", Some keep_tail)].

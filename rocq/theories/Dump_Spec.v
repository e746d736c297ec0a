(** Specification: files about devices for publication (C155, C156). *)
From Verif Require Import Base Py Redact_Model Redact_Spec.
Open Scope string_scope.
Open Scope list_scope.
Open Scope Z_scope.

(** ** What may be left of a value that is private *)
Definition contains (x s : string) : Prop := exists a b, s = (a ++ x ++ b)%string.
(** No letter, and no digit but zero *)
Definition only_zeros (s : string) : Prop := forall c, smem_char c s = true -> wordlike c -> c = "0"%char.
(** Of an address, nothing of the part that differs between the devices of a vendor *)
Definition no_device_part (s : string) : Prop := forall c, smem_char c (sdrop 8 s) = true -> In c ["0"; ":"; "-"]%char.
Definition places : list string := ["latitude"; "longitude"; "la"; "lo"; "latitude_i"; "longitude_i"; "channel"].
Definition ids : list string :=
  ["device_id"; "parent_device_id"; "original_device_id"; "oem_id"; "hw_id"; "fw_id"; "dev_id"; "ext_addr"; "deviceId"; "oemId"; "hwId";
   "owner"; "master_device_id"; "group_id";
   "setup_code"; "setup_payload"; "mfi_setup_code"; "mfi_setup_id"; "mfi_token_token"; "mfi_token_uuid"].
(** What stands in the place of names, networks, serial numbers, accounts, maps *)
Definition stand_ins : dict (list string) :=
  [("nickname", ["I01BU0tFRF9OQU1FIw=="; ""]); ("ssid", ["I01BU0tFRF9TU0lEIw=="; "#MASKED_SSID#"; ""]); ("bssid", ["000000000000"]);
   ("device_name", ["#MASKED_NAME#"; ""]); ("device_alias", ["#MASKED_NAME#"; ""]); ("alias", ["#MASKED_NAME#"; ""]);
   ("board_sn", ["000000000000"]); ("custom_sn", ["000000000000"]); ("location", ["#MASKED_NAME#"; ""]); ("map_data", ["#SCRUBBED_MAPDATA#"; ""]);
   ("map_name", ["I01BU0tFRF9OQU1FIw=="]); ("cd", ["I01BU0tFRF9CSU5BUlkj"]); ("username", ["user@example.com"]);
   ("group_name", ["I01BU0tFRF9TU0lEIw=="]); ("ip", ["127.0.0.123"]); ("local_ip", ["127.0.0.123"])].
(** The name of an area of a map; the name and the number of a socket *)
Definition area_hidden (a : json) : Prop :=
  exists d, a = JObj d /\ forall n, dget "name" d = Some n -> truthy n = false \/ n = JStr "I01BU0tFRF9OQU1FIw==".
Definition socket_hidden (i : nat) (c : json) : Prop :=
  exists d n, c = JObj d /\ n = string_of_nat (S i) /\ dget "id" d = Some (JStr ("SCRUBBED_CHILD_DEVICE_ID_" ++ n)) /\
    forall a, dget "alias" d = Some a -> truthy a = false \/ a = JStr ("#MASKED_NAME# " ++ n).
(** A text that was marked as scrubbed before, or the mark of a value that could not be read *)
Definition marked (v : json) : Prop := v = JStr "**REDACTEX**" \/ exists s, v = JStr s /\ contains "SCRUBBED" s.
(** What a file shows under the key [k] has nothing private in it. *)
Inductive hidden : string -> json -> Prop :=
| HBlank k v : blank v -> hidden k v
| HMarked k v : marked v -> hidden k v
| HPlace k : In k places -> hidden k (JInt 0)
| HId k s : In k ids -> only_zeros s -> hidden k (JStr s)
| HMac k s : In k ["mac"; "mic_mac"] -> no_device_part s -> hidden k (JStr s)
| HName k l s : dget k stand_ins = Some l -> In s l -> hidden k (JStr s)
| HAreas l : Forall area_hidden l -> hidden "area_list" (JArr l)
| HSockets l : (forall i c, nth_error l i = Some c -> socket_hidden i c) -> hidden "children" (JArr l)
| HKey d : dget "key" d = Some (JStr "") -> dget "data" d = Some (JStr "") -> hidden "encrypt_info" (JObj d)
| HMore d : (forall p k v, clean [("connect_ssid", None); ("device_id", None); ("owner", None)] (map Key p) -> at_path (map Key (p ++ [k])) (JObj d) = Some v ->
                (k = "connect_ssid" -> blank v \/ v = JStr "#MASKED_SSID#") /\
                (k = "device_id" \/ k = "owner" -> blank v \/ exists s, v = JStr s /\ only_zeros s)) ->
            hidden "decrypted_data" (JObj d)
| HOther v : (forall d, v <> JObj d) -> hidden "decrypted_data" v.
(** In [v], at any depth, but not below the keys of [but] at the top *)
Definition publishable (tbl : redactors) (but : list string) (v : json) : Prop :=
  forall p k x, clean tbl p -> dget k tbl <> None -> (forall t, hd_error (p ++ [Key k]) = Some (Key t) -> ~ In t but) ->
    at_path (p ++ [Key k]) v = Some x -> hidden k x.

(** ** What is left as it was *)
Definition leaf (v : json) : Prop := (forall l, v <> JArr l) /\ (forall d, v <> JObj d).
(** Everything that is not below a private key, nor below the keys of [but] at the top *)
Definition kept (tbl : redactors) (but : list string) (v v' : json) : Prop :=
  forall p x, clean tbl p -> (forall t, hd_error p = Some (Key t) -> ~ In t but) -> leaf x -> at_path p v = Some x -> at_path p v' = Some x.

(** ** Whose file it is *)
Definition smart_model : list pos := [Key "get_device_info"; Key "model"].
Definition camera_model : list pos := [Key "getDeviceInfo"; Key "device_info"; Key "basic_info"; Key "device_model"].
(** The model, as the answers of a device tell it *)
Definition model_is (answers : dict json) (m : string) : Prop :=
  m <> "" /\ (at_path smart_model (JObj answers) = Some (JStr m)
              \/ dget "get_device_info" answers = None /\ at_path camera_model (JObj answers) = Some (JStr m)).
(** What stands for the id of the child [n], counted from zero *)
Definition stand_in_id (n : nat) : string := ("SCRUBBED_CHILD_DEVICE_ID_" ++ string_of_nat (S n))%string.
(** Where a hub lists its children, and the answer that must be there *)
Definition listings : list (string * list pos) :=
  [("get_child_device_component_list", [Key "get_child_device_component_list"; Key "child_component_list"]);
   ("get_child_device_component_list", [Key "get_child_device_list"; Key "child_device_list"]);
   ("getChildDeviceComponentList", [Key "getChildDeviceComponentList"; Key "child_component_list"]);
   ("getChildDeviceComponentList", [Key "getChildDeviceList"; Key "child_device_list"])].

(** ** A device whose answers do not change *)
(** Asked for methods it answers, it gives exactly these answers; asked for one it does not answer, it fails. *)
Definition answers_of (ans : string -> string -> json -> option json) (child : string) (r : dict json) : dict json :=
  map (fun kv => (fst kv, match ans child (fst kv) (snd kv) with Some v => v | None => JNull end)) r.
Definition steady {W} (ask : W -> string -> dict json -> W * res (dict json)) (ans : string -> string -> json -> option json) : Prop :=
  (forall w c r, (forall k p, In (k, p) r -> ans c k p <> None) -> exists w', ask w c r = (w', Ok (answers_of ans c r))) /\
  (forall w c k p, ans c k p = None -> exists w' e, ask w c [(k, p)] = (w', Err e) /\ is_exception e = true /\ forall code, e <> KAuth code).
(** What the tool is to ask a legacy device for *)
Definition legacy_questions : list (string * list string) :=
  [("system", ["get_sysinfo"]); ("emeter", ["get_realtime"]); ("smartlife.iot.common.emeter", ["get_realtime"]);
   ("cnCloud", ["get_info"; "get_intl_fw_list"]); ("smartlife.iot.common.cloud", ["get_info"; "get_intl_fw_list"]);
   ("schedule", ["get_next_action"; "get_rules"]); ("smartlife.iot.common.schedule", ["get_next_action"; "get_rules"]);
   ("smartlife.iot.dimmer", ["get_dimmer_parameters"; "get_default_behavior"]);
   ("smartlife.iot.smartbulb.lightingservice", ["get_light_state"; "get_default_behavior"; "get_light_details"]);
   ("smartlife.iot.lightStrip", ["get_default_behavior"; "get_light_state"; "get_light_details"]);
   ("smartlife.iot.LAS", ["get_config"; "get_current_brt"; "get_dark_status"; "get_adc_value"]);
   ("smartlife.iot.PIR", ["get_config"; "get_adc_value"])].
(** A legacy device with the answers [ans], None for what it does not know: it answers any questions it
    knows, one or several at once, and refuses one it does not know with an error message or not at all. *)
Definition steady_legacy {W} (ask : W -> dict json -> W * res (dict json)) (ans : string -> string -> option json) : Prop :=
  (forall w q, (forall m t x, at_path [Key m; Key t] (JObj q) = Some x -> ans m t <> None) ->
     exists w' d, ask w q = (w', Ok d) /\ forall m t x, at_path [Key m; Key t] (JObj q) = Some x ->
       at_path [Key m; Key t] (JObj d) = ans m t /\ at_path [Key m; Key "err_msg"] (JObj d) = None) /\
  (forall w m t, ans m t = None -> exists w' r, ask w [(m, JObj [(t, JObj [])])] = (w', r) /\
     match r with Ok d => exists x, dget m d = Some (JObj x) /\ dget "err_msg" x <> None | Err e => is_exception e = true end).

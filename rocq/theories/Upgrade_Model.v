(** What a SMART device object says about firmware, over a history of checks, installations and
    updates: kasa/smart/modules/firmware.py.  No proofs. *)
From Coq Require Import QArith.
From Verif Require Import Base Py Gadget_Model.
Open Scope string_scope.
Open Scope list_scope.
Open Scope Z_scope.

Section Texts.
(** date.fromisoformat on a text: the date, as a day number, or a failure *)
Variable iso : string -> option Z.
(** int(x) for texts and floats *)
Variable odd_int : json -> option Z.

(** int(x) as the dataclass reader calls it *)
Definition to_int (v : json) : option Z :=
  match v with
  | JInt z => Some z
  | JBool b => Some (if b then 1 else 0)
  | JStr _ | JFloat _ => odd_int v
  | _ => None
  end.
(** UpdateInfo, firmware.py:41-56.  Texts are passed through unchecked, so any value may be there;
    [JNull] is None. *)
Record info := mkInfo { i_status : Z; i_needs : bool; i_version : json; i_date : option Z;
                        i_notes : json; i_size : option Z; i_oem : json }.
(** An optional field: absent and null both give None *)
Definition plain (k : string) (d : dict json) : json := match dget k d with Some v => v | None => JNull end.
(** The reader of release_date, firmware.py:48-53; [None] is a failure *)
Definition read_date (d : dict json) : option (option Z) :=
  match dget "release_date" d with
  | None => Some None
  | Some v => if truthy v then match v with JStr s => option_map Some (iso s) | _ => None end else Some None
  end.
(** The reader of fw_size, firmware.py:55 *)
Definition read_size (d : dict json) : option (option Z) :=
  match dget "fw_size" d with
  | None | Some JNull => Some None
  | Some v => option_map Some (to_int v)
  end.
(** UpdateInfo.from_dict, firmware.py:41-56: type and need_to_upgrade are required *)
Definition from_dict (v : json) : option info :=
  match v with
  | JObj d =>
      match dget "type" d, dget "need_to_upgrade" d, read_date d, read_size d with
      | Some t, Some n, Some dt, Some sz =>
          match to_int t with
          | Some s => Some (mkInfo s (truthy n) (plain "fw_ver" d) dt (plain "release_note" d) sz (plain "oem_id" d))
          | None => None
          end
      | _, _, _, _ => None
      end
  | _ => None
  end.

(** The parts of the device object: _firmware_update_info, firmware.py:72, and what the last update
    showed: is_cloud_connected, smartdevice.py:573-578, and hw_info["sw_ver"], 645-655 *)
Record obj := mkObj { o_info : option info; o_cloud : bool; o_current : string }.
(** check_latest_firmware, firmware.py:140-149; [r] is the reply to get_latest_fw.  A cancelled call
    is not an [Exception] and changes nothing. *)
Definition check_latest (r : res json) (o : obj) : obj * res (option info) :=
  match r with
  | Ok v => let i := from_dict v in (mkObj i (o_cloud o) (o_current o), Ok i)
  | Err e => if is_exception e then (mkObj None (o_cloud o) (o_current o), Ok None) else (o, Err e)
  end.
(** latest_firmware, firmware.py:156-161 *)
Definition latest_firmware (o : obj) : json :=
  match o_info o with None => JNull | Some i => i_version i end.
(** update_available, firmware.py:168-173, with UpdateInfo.update_available, 58-61 *)
Definition update_available (o : obj) : option bool :=
  if negb (o_cloud o) then None
  else match o_info o with None => None | Some i => Some (negb (i_status i =? 0)) end.

(** ** Histories *)
(** The device: what it runs, what its maker's newest release is, and its cloud connection.  The
    commands it was sent are kept in order. *)
Record dev := mkDev { v_running : string; v_newest : string; v_cloud : bool; v_log : list cmd }.
Inductive event :=
| Check (r : res json)      (* check_latest_firmware(), and the reply to it *)
| Install (ack : res json) (ps : list poll) (after : string)
    (* update(), firmware.py:181-237; [ack]: the reply to fw_download; [ps]: the polls; [after]:
       what the device runs after it was told to download *)
| Refresh                   (* device.update() *)
| Release (v : string)      (* the maker releases [v] *)
| Link (b : bool).          (* the device loses or gains its cloud connection *)
Definition status (o : obj) : option Z := option_map i_status (o_info o).
(** Whether [update] told the device to download *)
Definition longer (a b : list cmd) : bool := negb (Nat.eqb (List.length a) (List.length b)).
Definition step (s : obj * dev) (e : event) : obj * dev :=
  let (o, v) := s in
  match e with
  | Check r => (fst (check_latest r o), v)
  | Install ack ps after =>
      let log := fst (firmware_update (fun _ => ack) (status o) (o_cloud o) ps (v_log v)) in
      (o, mkDev (if longer log (v_log v) then after else v_running v) (v_newest v) (v_cloud v) log)
  | Refresh => (mkObj (o_info o) (v_cloud v) (v_running v), v)
  | Release x => (o, mkDev (v_running v) x (v_cloud v) (v_log v))
  | Link b => (o, mkDev (v_running v) (v_newest v) b (v_log v))
  end.
Definition run (s : obj * dev) (h : list event) : obj * dev := fold_left step h s.
(** A new device object after its first update: nothing checked yet, firmware.py:70-72 *)
Definition fresh (v : dev) : obj * dev := (mkObj None (v_cloud v) (v_running v), v).
End Texts.

(** What a series of settings should leave behind: every setting is as it was last set, whoever
    set it. *)
From Verif Require Import Base Py Series_Model.
Open Scope string_scope.
Open Scope list_scope.
Open Scope Z_scope.

(** The settings of a device: for each record and field, its value *)
Definition view := group -> string -> option json.
Definition write (v : view) (w : group * string * json) : view :=
  fun g k => let '(g', k', x) := w in if group_eqb g' g && String.eqb k' k then Some x else v g k.
Definition writes (v : view) (ws : list (group * string * json)) : view := fold_left write ws v.
Definition agrees (s : store) (v : view) : Prop := forall g k, dget k (s g) = v g k.

(** The numbers behind the names *)
Definition level_of (name : string) : option Z := dget name [("Disable", 0); ("Low", 1); ("Medium", 2); ("High", 3)].
Definition preset_of (name : string) : option Z := dget name [("Quiet", 1); ("Standard", 2); ("Turbo", 3); ("Max", 4); ("Ultra", 5)].
Definition bin_mode_of (name : string) : option Z := dget name [("Smart", 0); ("Light", 1); ("Balanced", 2); ("Max", 3)].

(** What a call asks for: [None] when it is to be refused, else the settings to be changed and to
    what.  Switching power protection on without a threshold when none is stored takes half of the
    maximum. *)
Definition asks (f : facts) (v : view) (c : call) : option (list (group * string * json)) :=
  let one g k x := Some [(g, k, x)] in
  let within lo n hi (r : list (group * string * json)) := if (lo <=? n) && (n <=? hi) then Some r else None in
  match c with
  | AutoOffSwitch b => one AutoOff "enable" (JBool b)
  | AutoOffDelay n => one AutoOff "delay_min" (JInt n)
  | LedSwitch b => one LedInfo "led_rule" (JStr (if b then "always" else "never"))
  | ProtectSwitch b (Some t) => within 0 t (f_max_power f) [(Protection, "enabled", JBool b); (Protection, "protection_power", JInt t)]
  | ProtectSwitch false None => one Protection "enabled" (JBool false)
  | ProtectSwitch true None =>
      match v Protection "protection_power" with
      | Some (JInt t) => if t =? 0 then Some [(Protection, "enabled", JBool true); (Protection, "protection_power", JInt (f_max_power f / 2))]
                         else one Protection "enabled" (JBool true)
      | _ => Some [(Protection, "enabled", JBool true); (Protection, "protection_power", JInt (f_max_power f / 2))]
      end
  | ProtectThreshold t => within 0 t (f_max_power f) [(Protection, "protection_power", JInt t)]
  | ProtectFeature t =>
      if t =? 0 then one Protection "enabled" (JBool false)
      else within 0 t (f_max_power f) [(Protection, "enabled", JBool true); (Protection, "protection_power", JInt t)]
  | AlarmVolume n => if smem n ["mute"; "low"; "normal"; "high"] then one AlarmConf "volume" (JStr n) else None
  | AlarmDuration n => within 1 n 600 [(AlarmConf, "duration", JInt n)]
  | AlarmSound s => if smem s (f_sounds f) then one AlarmConf "type" (JStr s) else None
  | MopLevel n => match level_of n with Some z => one CleanAttr "cistern" (JInt z) | None => None end
  | FanPreset n => match preset_of n with Some z => one CleanAttr "suction" (JInt z) | None => None end
  | CleanCount n => one CleanAttr "clean_number" (JInt n)
  | DustAuto b => one DustInfo "auto_dust_collection" (JBool b)
  | DustMode n =>
      if String.eqb n "Off" then one DustInfo "auto_dust_collection" (JBool false)
      else match bin_mode_of n with
           | Some z => Some [(DustInfo, "auto_dust_collection", JBool true); (DustInfo, "dust_collection_mode", JInt z)]
           | None => None
           end
  | Volume n => within 0 n 100 [(SpeakerVol, "volume", JInt n)]
  | CarpetBoost b => one CarpetInfo "carpet_clean_prefer" (JStr (if b then "boost" else "normal"))
  | AutoUpdates b => one AutoUpdate "enable" (JBool b)
  | ChildLock b => one LockInfo "child_lock_status" (JBool b)
  | Frost b => one DevInfo "frost_protection_on" (JBool b)
  | FanLevel n =>
      if n =? 0 then one DevInfo "device_on" (JBool false)
      else within 1 n 4 [(DevInfo, "device_on", JBool true); (DevInfo, "fan_speed_level", JInt n)]
  | FanSleep b => one DevInfo "fan_sleep_mode_on" (JBool b)
  | TempUnit u => one DevInfo "temp_unit" (JStr u)
  | SmoothOn n =>
      if f_max_on f <? n then None
      else if n <=? 0 then one OnState "enable" (JBool false)
      else Some [(OnState, "enable", JBool true); (OnState, "duration", JInt n)]
  | SmoothOff n =>
      if f_max_off f <? n then None
      else if n <=? 0 then one OffState "enable" (JBool false)
      else Some [(OffState, "enable", JBool true); (OffState, "duration", JInt n)]
  | Smooth b => Some [(OnState, "enable", JBool b); (OffState, "enable", JBool b)]
  end.

(** The settings after a history: the last writer wins, updates change nothing *)
Definition change (f : facts) (v : view) (e : event) : view :=
  match e with
  | Set_ c => match asks f v c with Some ws => writes v ws | None => v end
  | Update _ => v
  | Other g k x => writes v [(g, k, x)]
  end.
Definition settled (f : facts) (v : view) (h : list event) : view := fold_left (change f) h v.

(** ** Careful histories *)
(** The records a call sends back along with what it changes *)
Definition carries (c : call) : list group :=
  match c with
  | AutoOffSwitch _ | AutoOffDelay _ => [AutoOff]
  | LedSwitch _ => [LedInfo]
  | ProtectSwitch _ _ | ProtectThreshold _ | ProtectFeature _ => [Protection]
  | AlarmVolume _ | AlarmDuration _ | AlarmSound _ => [AlarmConf]
  | MopLevel _ => [CleanAttr]
  | DustAuto _ | DustMode _ => [DustInfo]
  | AutoUpdates _ => [AutoUpdate]
  | SmoothOn n => if n <=? 0 then [OnState] else []
  | SmoothOff n => if n <=? 0 then [OffState] else []
  | Smooth _ => [OnState; OffState]
  | FanPreset _ | CleanCount _ | Volume _ | CarpetBoost _ | ChildLock _ | Frost _ | FanLevel _ | FanSleep _ | TempUnit _ => []
  end.
(** The records a call changes *)
Definition touches (c : call) : list group :=
  match c with
  | FanPreset _ | CleanCount _ => [CleanAttr]
  | Volume _ => [SpeakerVol]
  | CarpetBoost _ => [CarpetInfo]
  | ChildLock _ => [LockInfo]
  | Frost _ | FanLevel _ | FanSleep _ | TempUnit _ => [DevInfo]
  | SmoothOn _ => [OnState]
  | SmoothOff _ => [OffState]
  | _ => carries c
  end.
(** No call sends back a record that changed since an update last showed it; [changed]: those that
    did *)
Fixpoint careful (changed : list group) (h : list event) : Prop :=
  match h with
  | [] => True
  | Set_ c :: h => (forall g, In g (carries c) -> ~ In g changed) /\ careful (touches c ++ changed) h
  | Update gs :: h => careful (filter (fun g => negb (existsb (group_eqb g) gs)) changed) h
  | Other g _ _ :: h => careful (g :: changed) h
  end.
(** Others keep the types of the fields of transitions *)
Definition typed (k : string) (v : json) : Prop :=
  (k = "duration" -> exists n, v = JInt n) /\ (k = "enable" -> exists b, v = JBool b).
Definition sane (e : event) : Prop :=
  match e with Other OnState k v | Other OffState k v => typed k v | Other Protection k v => k = "protection_power" -> exists n, v = JInt n | _ => True end.

(** A device as it reports: records are dictionaries, auto-off and transitions have their fields,
    a stored power threshold is a number *)
Definition sound (s : store) : Prop :=
  (forall g, dwf (s g)) /\ dmem "enable" (s AutoOff) = true /\ dmem "delay_min" (s AutoOff) = true
  /\ (forall g, g = OnState \/ g = OffState ->
        (exists n, dget "duration" (s g) = Some (JInt n)) /\ (exists b, dget "enable" (s g) = Some (JBool b)))
  /\ (forall v, dget "protection_power" (s Protection) = Some v -> exists n, v = JInt n).

(** ** Whole records *)
(** The calls that send the whole record the last update showed *)
Definition whole (c : call) : option group :=
  match c with
  | LedSwitch _ => Some LedInfo
  | ProtectThreshold _ => Some Protection
  | AlarmVolume _ | AlarmDuration _ | AlarmSound _ => Some AlarmConf
  | MopLevel _ => Some CleanAttr
  | DustAuto _ | DustMode _ => Some DustInfo
  | AutoUpdates _ => Some AutoUpdate
  | _ => None
  end.

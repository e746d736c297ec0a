(** What the commands of the tool are for. *)
From Verif Require Import Base Py IotLight_Model SmartLight_Model Preset_Model Cli_Model Command_Model.
Open Scope string_scope.
Open Scope list_scope.
Open Scope Z_scope.

(** ** Presets: [new] is [old] with the given values in place of those it has. *)
Definition field_changed (given old new : option arg) : Prop :=
  match given with
  | None => new = old
  | Some _ => match old with Some _ => new = given | None => new = None end
  end.
Definition changed (b h s t : option arg) (old new : light_state) : Prop :=
  field_changed b (brightness old) (brightness new) /\ field_changed h (hue old) (hue new)
  /\ field_changed s (saturation old) (saturation new) /\ field_changed t (color_temp old) (color_temp new)
  /\ light_on new = light_on old /\ transition new = transition old.
Definition some_given (b h s t : option arg) : Prop := b <> None \/ h <> None \/ s <> None \/ t <> None.

(** ** Turn-on behaviour: a bulb keeps two behaviours and reports them as soft_on and hard_on; it takes
    the fields of that name from a request. *)
Record bulb := mkBulb { k_soft : behavior; k_hard : behavior }.
Definition says_int (k : string) (o : option Z) (d : dict json) : Prop :=
  match o with Some z => dget k d = Some (JInt z) | None => dget k d = None end.
Definition says_behavior (b : behavior) (d : dict json) : Prop :=
  dget "mode" d = Some (JStr match b_mode b with LastStatus => "last_status" | CustomizePreset => "customize_preset" | Circadian => "circadian" end)
  /\ says_int "index" (b_preset b) d /\ says_int "brightness" (b_brightness b) d /\ says_int "color_temp" (b_temp b) d
  /\ says_int "hue" (b_hue b) d /\ says_int "saturation" (b_sat b) d.
Definition reports_behavior (k : bulb) (d : dict json) : Prop :=
  (exists s, dget "soft_on" d = Some (JObj s) /\ says_behavior (k_soft k) s)
  /\ (exists h, dget "hard_on" d = Some (JObj h) /\ says_behavior (k_hard k) h).
(** A request that asks for these behaviours *)
Definition asks_for (k : bulb) (d : dict json) : Prop := reports_behavior k d.

(** ** Rules as the device lists them *)
Definition listed (data : dict json) (l : list json) : Prop :=
  exists g, dget "get_rules" data = Some (JObj g) /\ dget "rule_list" g = Some (JArr l).
(** A rule the device describes. *)
Definition optional (k : string) (o : option Z) (d : dict json) : Prop :=
  match o with Some z => dget k d = Some (JInt z) | None => dget k d = None \/ dget k d = Some JNull end.
Definition describes (r : rule) (v : json) : Prop :=
  exists d, v = JObj d /\ dget "id" d = Some (r_id r) /\ dget "name" d = Some (r_name r)
  /\ dget "enable" d = Some (JInt (r_enable r)) /\ dget "wday" d = Some (JArr (map JInt (r_wday r)))
  /\ dget "repeat" d = Some (JInt (r_repeat r))
  /\ optional "sact" (r_sact r) d /\ optional "stime_opt" (r_stime r) d /\ optional "smin" (r_smin r) d
  /\ optional "eact" (r_eact r) d /\ optional "etime_opt" (r_etime r) d /\ optional "emin" (r_emin r) d
  /\ match r_light r with Some l => dget "s_light" d = Some (JObj l) | None => dget "s_light" d = None \/ dget "s_light" d = Some JNull end
  /\ (forall k z, In (k, Some z) [("sact", r_sact r); ("stime_opt", r_stime r); ("eact", r_eact r); ("etime_opt", r_etime r)] -> -1 <= z <= 2).

(** ** Light commands: what each asks for, of a light that has what it is about. *)
Definition supported (l : lamp) (c : lcmd) : Prop :=
  match c with
  | Brightness _ _ => has_brightness l = true
  | Temperature _ _ => has_temperature l = true
  | Effect _ => has_effect l = true
  | Hsv _ _ => has_hsv l = true
  end.
Definition asks (l : lamp) (c : lcmd) (x : lcall) : Prop :=
  supported l c /\
  match c, x with
  | Brightness (Some v) t, SetBrightness v' t' => v' = v /\ t' = t /\ 0 <= v <= 100
  | Temperature (Some v) t, SetTemperature v' t' => v' = v /\ t' = t /\ 2500 <= v <= 9000
  | Effect (Some e), SetEffect e' => e' = e /\ In e (effect_list l)
  | Hsv vs t, SetHsv h s v t' => vs = [h; s; v] /\ t' = t /\ 0 <= h <= 360 /\ 0 <= s <= 100 /\ 0 <= v <= 100
  | _, _ => False
  end.
(** A command that only asks for the present value *)
Definition shows (l : lamp) (c : lcmd) (v : lval) : Prop :=
  match c with
  | Brightness None _ => v = VInt (at_brightness l)
  | Temperature None _ => v = VInt (at_temperature l)
  | Effect None => v = VStr (at_effect l)
  | Hsv [] _ => v = VHsv (fst (fst (at_hsv l))) (snd (fst (at_hsv l))) (snd (at_hsv l))
  | _ => False
  end.
Definition is_read (c : lcmd) : Prop :=
  match c with Brightness None _ | Temperature None _ | Effect None | Hsv [] _ => True | _ => False end.

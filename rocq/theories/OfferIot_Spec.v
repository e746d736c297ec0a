(** Which modules and features a legacy device is to have and what each is to show (README.md,
    docs/source and tests/fixtures/iot).  Independent of the model's functions. *)
From Coq Require Import QArith.
From Verif Require Import Base Py Emeter_Model Emeter_Spec Read_Model Read_Spec IotRead_Model IotRead_Spec OfferIot_Model.
Open Scope string_scope.
Open Scope list_scope.
Open Scope Z_scope.

Definition lamp (k : lkind) : bool := match k with BulbK | LightStripK => true | _ => false end.
Definition strip (k : lkind) : bool := match k with StripK => true | _ => false end.
(** A device names what it can do in a list of words with colons between them. *)
Fixpoint joined (c : ascii) (l : list string) : string :=
  match l with [] => "" | [x] => x | x :: l => (x ++ String c (joined c l))%string end.
Fixpoint without (c : ascii) (s : string) : Prop := match s with EmptyString => True | String d s => c <> d /\ without c s end.
Definition names (sys : dict json) (word : string) : Prop :=
  exists l, dget "feature" sys = Some (JStr (joined ":" l)) /\ Forall (without ":") l /\ In word l.
(** A text is part of another. *)
Definition part_of (x s : string) : Prop := exists a b, s = (a ++ x ++ b)%string.

(** The modules of every device of a kind *)
Definition of_kind (k : lkind) : list string :=
  match k with
  | PlugK | WallK => ["schedule"; "usage"; "anti_theft"; "Time"; "cloud"; "Led"]
  | DimmerK => ["schedule"; "usage"; "anti_theft"; "Time"; "cloud"; "Led"; "motion"; "ambient"; "dimmer"; "Light"]
  | BulbK => ["Energy"; "schedule"; "usage"; "anti_theft"; "Time"; "countdown"; "cloud"; "Light"; "LightPreset"]
  | LightStripK => ["Energy"; "schedule"; "usage"; "anti_theft"; "Time"; "countdown"; "cloud"; "Light"; "LightPreset"; "LightEffect"]
  | StripK => ["anti_theft"; "schedule"; "usage"; "Time"; "countdown"; "Led"; "cloud"]
  | SocketK => ["usage"; "anti_theft"; "schedule"; "countdown"]
  end.
(** Those and: a meter if the device names it, the sensors of a wall switch that is called by them *)
Definition kind_has (k : lkind) (sys : dict json) (n : string) : Prop :=
  In n (of_kind k)
  \/ (n = "Energy" /\ names sys "ENE")
  \/ (k = WallK /\ In n ["motion"; "ambient"] /\ exists s, dget "dev_name" sys = Some (JStr s) /\ part_of "PIR" s).

(** The service a module asks *)
Definition service (k : lkind) : list (string * string) :=
  let common (s : string) := if lamp k then ("smartlife.iot.common." ++ s)%string else s in
  (if strip k then [] else [("Energy", common "emeter")])
  ++ [("schedule", common "schedule"); ("usage", common "schedule"); ("anti_theft", common "anti_theft");
      ("Time", if lamp k then "smartlife.iot.common.timesetting" else "time");
      ("countdown", "countdown"); ("cloud", if lamp k then "smartlife.iot.common.cloud" else "cnCloud");
      ("motion", "smartlife.iot.PIR"); ("ambient", "smartlife.iot.LAS"); ("dimmer", "smartlife.iot.dimmer")].
(** The services of modules that ask nothing of their own *)
Definition unasked (k : lkind) : list string :=
  ["light"; "smartlife.iot.smartbulb.lightingservice"; "smartlife.iot.lightStrip"; "smartlife.iot.lighting_effect"]
  ++ (if strip k then ["emeter"] else []).
(** The module is there: it has not been refused, and the light on the device only if it is told. *)
Definition has_it (k : lkind) (sys : dict json) (w : replies) (n : string) : Prop :=
  kind_has k sys n /\ (forall s, In (n, s) (service k) -> w s "err_code" = None)
  /\ (n = "Led" -> dget "led_off" sys <> None).

Definition lalways : list (string * list string) :=
  [ ("Energy", ["current_consumption"; "consumption_today"; "consumption_this_month"]);
    ("cloud", ["cloud_connection"]); ("Led", ["led"]); ("ambient", ["ambient_light_enabled"; "ambient_light"]);
    ("dimmer", ["dimmer_threshold_min"; "dimmer_fade_off_time"; "dimmer_fade_on_time"; "dimmer_gentle_off_time"; "dimmer_gentle_on_time"; "dimmer_ramp_rate"]);
    ("LightPreset", ["light_preset"]); ("LightEffect", ["light_effect"]) ].
Definition pir_ids : list string :=
  ["pir_enabled"; "pir_range"; "pir_threshold"; "pir_triggered"; "pir_value"; "pir_adc_value"; "pir_adc_min"; "pir_adc_mid"; "pir_adc_max"; "pir_percent"].
(** The features of a module of a device that answers [w] *)
Definition lgives (k : lkind) (sys : dict json) (w : replies) (n id : string) : Prop :=
  let metered u m := k = StripK \/ exists s, In ("Energy", s) (service k) /\ (fld2 w s "get_realtime" [u] <> None \/ fld2 w s "get_realtime" [m] <> None) in
  let light b (f : string) := if lamp k then exists v, dget f sys = Some v /\ truthy v = true else b in
  (exists l, In (n, l) lalways /\ In id l)
  \/ (n = "Energy" /\ (id = "consumption_total" /\ metered "total" "total_wh" \/ In id ["voltage"; "current"] /\ metered "voltage" "voltage_mv"))
  \/ (n = "motion" /\ In id pir_ids /\ fld2 w "smartlife.iot.PIR" "get_config" ["enable"] <> None /\ w "smartlife.iot.PIR" "get_adc_value" <> None)
  \/ (n = "Light" /\ (id = "brightness" /\ light (dget "brightness" sys <> None) "is_dimmable"
                      \/ id = "color_temperature" /\ light False "is_variable_color_temp"
                      \/ id = "hsv" /\ light False "is_color")).
Definition lgives_itself (k : lkind) (sys : dict json) (id : string) : Prop :=
  id = "state" \/ (id = "on_since" /\ (k = StripK \/ k = SocketK \/ dget "on_time" sys <> None))
  \/ (k <> SocketK /\ In id ["rssi"; "reboot"]).

(** What a feature shows *)
Definition lmeanings : list (string * string * lreading) :=
  [ ("cloud", "cloud_connection", CloudOnline); ("Led", "led", LedLit);
    ("ambient", "ambient_light_enabled", AmbientOn); ("ambient", "ambient_light", AmbientBrightness);
    ("dimmer", "dimmer_threshold_min", DimThreshold); ("dimmer", "dimmer_fade_off_time", DimFadeOff); ("dimmer", "dimmer_fade_on_time", DimFadeOn);
    ("dimmer", "dimmer_gentle_off_time", DimGentleOff); ("dimmer", "dimmer_gentle_on_time", DimGentleOn); ("dimmer", "dimmer_ramp_rate", DimRamp);
    ("motion", "pir_enabled", MotionOn); ("motion", "pir_range", MotionRange); ("motion", "pir_threshold", MotionThreshold);
    ("motion", "pir_value", MotionValue); ("motion", "pir_adc_value", MotionAdc); ("motion", "pir_adc_min", MotionMin);
    ("motion", "pir_adc_mid", MotionMid); ("motion", "pir_adc_max", MotionMax) ].
Definition quantities : list (string * quantity) :=
  [("current_consumption", Power); ("consumption_total", Total); ("voltage", Voltage); ("current", Current)].
(** The numbers of a reply, if it has nothing else *)
Definition numbers (d : dict json) (r : Emeter_Model.reading) : Prop :=
  Forall2 (fun x y => fst x = fst y /\ match snd y with Some q => exists z, snd x = JInt z /\ q = inject_Z z | None => snd x = JNull end) d r.

(** The device told what every device of its kind tells: the lights what they can, the meter a reading,
    the motion sensor something; and nothing else was asked. *)
Record told (k : lkind) (sys : dict json) (w : replies) (answered : string -> Prop) : Prop := mkTold {
  t_meter : forall s, kind_has k sys "Energy" -> In ("Energy", s) (service k) -> exists d, w s "get_realtime" = Some (JObj d);
  t_motion : kind_has k sys "motion" ->
             answered "smartlife.iot.PIR" /\ (forall v, w "smartlife.iot.PIR" "get_config" = Some v -> exists d, v = JObj d);
  t_light : lamp k = true -> forall f, In f ["is_dimmable"; "is_variable_color_temp"; "is_color"] -> dget f sys <> None;
  t_name : k = WallK -> exists s, dget "dev_name" sys = Some (JStr s);
  t_word : forall v, dget "feature" sys = Some v -> exists s, v = JStr s;
  t_only : forall s, In s (unasked k) -> ~ answered s
}.

(** Old names: what they still mean, and where they no longer work. *)
From Verif Require Import Base Py Old_Model Old_Spec Old_Proofs.
Open Scope string_scope.
Open Scope list_scope.

(** An attribute that moved to a module gives, under its old name, what the module gives under the new
    one: the same value or the same exception, with one warning naming the old name. *)
Theorem old_name_same : forall V (d : dev V) old m new c,
  well_formed d -> In (old, (m, new)) moved -> ~ In old (d_own d) -> d_mods d m = Some c ->
  fst (device_get d old) = m_read d m new /\ snd (device_get d old) = [old] /\
  module_get d m c new = (m_read d m new, []).
Proof. exact moved_same. Qed.

(** Attributes whose value got another shape: the old shape where the module class keeps it. *)
Theorem old_shape_same : forall V (d : dev V) old m new c,
  reshaped c old = Some (m, new) -> ~ In old (d_own d) -> d_mods d m = Some c ->
  fst (device_get d old) = m_read d m new /\ snd (device_get d old) = [old] /\
  module_get d m c new = (m_read d m new, []).
Proof. exact reshaped_same. Qed.

(** The questions about a light, asked of the device or of the light. *)
Theorem old_questions : forall V (d : dev V) c,
  d_mods d MLight = Some c -> In c [IotLight; SmartLight] ->
  (forall q a, In (q, a) questions -> ~ In q (d_own d) ->
     device_get d q = (Ok (GBool (match l_feature d a with Some _ => true | None => false end)), [q]) /\ module_get d MLight c q = device_get d q) /\
  (~ In "has_effects" (d_own d) ->
     device_get d "has_effects" = (Ok (GBool (match d_mods d MEffect with Some _ => true | None => false end)), ["has_effects"]) /\
     module_get d MLight c "has_effects" = device_get d "has_effects") /\
  (~ In "valid_temperature_range" (d_own d) ->
     device_get d "valid_temperature_range" = (match l_feature d "color_temp" with
        Some (lo, hi) => Ok (GRange lo hi) | None => Err KKasa end, ["valid_temperature_range"]) /\
     module_get d MLight c "valid_temperature_range" = device_get d "valid_temperature_range").
Proof.
  intros V d c C B. split; [|split].
  - intros q a I N. exact (question_same V d q a c I N C B).
  - intros N. exact (effects_same V d c N C B).
  - intros N. exact (range_same V d c N C B).
Qed.

(** is_bulb and its like: true for the type named and for no other. *)
Theorem old_type_names : forall V (d : dev V) a t,
  type_question a t -> ~ In a (d_own d) ->
  exists b, device_get d a = (Ok (GBool b), [a]) /\ (b = true <-> d_type d = t).
Proof. exact type_same. Qed.

(** Without the module the old name is missing, and asking for it says so. *)
Theorem old_name_missing : forall V (d : dev V) a m,
  needs a m -> ~ In a (d_own d) -> d_mods d m = None ->
  fst (device_get d a) = Err PyAttributeError /\ device_has d a = Ok false.
Proof. exact missing. Qed.

(** What the class of the device defines itself is not redirected, a name that is neither defined nor
    old is missing, and what is answered was warned about once exactly if the name is old. *)
Theorem other_names_untouched : forall V (d : dev V) a,
  (In a (d_own d) -> d_read d a <> Err PyAttributeError -> device_get d a = (d_read d a, [])) /\
  (~ In a old_names -> ~ In a (d_own d) -> device_get d a = (Err PyAttributeError, [])) /\
  (forall v w, device_get d a = (Ok v, w) -> (w = [] /\ In a (d_own d)) \/ (w = [a] /\ In a old_names)).
Proof.
  intros V d a. split; [|split].
  - intros I R. exact (lookup_own _ _ _ _ I R).
  - intros O N. exact (unknown V d a O N).
  - intros v w H. exact (warned V d a v w H).
Qed.

(** The old names of the energy module; only a single legacy meter defines two of them itself, and
    calling those without kwh runs the statistics of the same period. *)
Theorem old_energy_names_partial : forall V (d : dev V) c old new,
  In (old, new) energy_moved -> In c [Emeter; StripEmeter; SmartEnergy] ->
  module_get d MEnergy c new = (m_read d MEnergy new, []) /\
  (~ In old (own c) -> module_get d MEnergy c old = (m_read d MEnergy new, [old])) /\
  (In old (own c) -> c = Emeter /\ In old ["get_daystat"; "get_monthstat"] /\
     forall kw, ~ In "kwh" kw ->
       (exists m, call_stats c old kw = Ok m) <-> call_stats c new kw = Ok new).
Proof.
  intros V d c old new I B.
  assert (S : ~ In old (own c) -> module_get d MEnergy c old = (m_read d MEnergy new, [old])).
  { intros N. exact (proj1 (energy_same V d c old new I B N)). }
  split; [|split; [exact S|]].
  - unfold module_get. each_in I; injection I as <- <-; each_in B; subst c; apply lookup_plain; reflexivity.
  - intros O. destruct (own_energy c old new I B O) as [-> P]. split; [reflexivity|]. split; [exact P|].
    intros kw K.
    assert (F : forall l, ~ In "kwh" kw ->
       forallb (fun k => smem k (l ++ ["kwh"])) kw = forallb (fun k => smem k l) kw).
    { intros l K'. clear K I B S O P. induction kw as [|k kw IH]; [reflexivity|]. cbn [forallb].
      rewrite IH by (intros H; apply K'; now right). f_equal.
      unfold smem. rewrite existsb_app. cbn [existsb].
      destruct (String.eqb_spec k "kwh") as [->|_]; [elim K'; now left|].
      now rewrite !Bool.orb_false_r. }
    each_in P; subst old.
    + assert (new = "get_daily_stats") as -> by (each_in I; try discriminate I; injection I as <-; reflexivity).
      change (call_stats Emeter "get_daystat" kw) with
        (if forallb (fun k => smem k ["year"; "month"]) kw then Ok "get_daystat" else Err PyTypeError).
      change (call_stats Emeter "get_daily_stats" kw) with
        (if forallb (fun k => smem k (["year"; "month"] ++ ["kwh"])) kw then Ok "get_daily_stats" else Err PyTypeError).
      rewrite (F _ K). destruct (forallb _ kw).
      * split; intros H; eauto.
      * split; [intros [m H]|intros H]; discriminate.
    + assert (new = "get_monthly_stats") as -> by (each_in I; try discriminate I; injection I as <-; reflexivity).
      change (call_stats Emeter "get_monthstat" kw) with
        (if forallb (fun k => smem k ["year"]) kw then Ok "get_monthstat" else Err PyTypeError).
      change (call_stats Emeter "get_monthly_stats" kw) with
        (if forallb (fun k => smem k (["year"] ++ ["kwh"])) kw then Ok "get_monthly_stats" else Err PyTypeError).
      rewrite (F _ K). destruct (forallb _ kw).
      * split; intros H; eauto.
      * split; [intros [m H]|intros H]; discriminate.
Qed.

(** The names of the package that were renamed. *)
Theorem package_names : forall a k,
  fst (package_getattr a) = Ok k <-> In (a, k) package_renamed.
Proof.
  intros a k. split.
  - unfold package_getattr. destruct (smem a deprecated_names) eqn:M.
    { intros H. injection H as <-. cbn in M. destruct (String.eqb_spec a "TPLinkSmartHomeProtocol"); [|discriminate].
      subst a. now left. }
    clear M. destruct (dget a deprecated_smart_devices) eqn:D.
    { intros H. injection H as <-. apply Base_Lemmas.dget_In in D. cbn in D |- *. tauto. }
    destruct (dget a deprecated_classes) eqn:D'; [|discriminate].
    intros H. injection H as <-. apply Base_Lemmas.dget_In in D'. cbn in D' |- *. tauto.
  - intros I. each_in I; injection I as <- <-; reflexivity.
Qed.

(** ** Where the old names no longer work *)
(** A SMART light has presets and can save them, but not under the old name. *)
Definition smart_bulb : dev nat :=
  mkDev Bulb [] (fun m => match m with MLight => Some SmartLight | MPreset => Some SmartPreset
                                     | MEffect => Some BulbEffect | _ => None end)
    (fun _ => Err PyAttributeError)
    (fun m a => match m with
                | MLight => if smem a ["brightness"; "set_brightness"] then Ok (GVal 50%nat) else Err KKasa
                | _ => Ok (GVal 1%nat) end)
    (fun a => if String.eqb a "brightness" then Some (0%Z, 100%Z) else None).
Theorem old_save_preset_refuted : exists (d : dev nat),
  well_formed d /\ d_mods d MPreset <> None /\ In "save_preset" (own SmartPreset) /\
  device_get d "save_preset" = (Err PyAttributeError, []).
Proof.
  exists smart_bulb. split; [|split; [|split]].
  - intros m c. destruct m; cbn; intros H; try discriminate; injection H as <-; cbn; auto.
  - discriminate.
  - cbn. tauto.
  - vm_compute. reflexivity.
Qed.
(** The old way of setting a light's state is listed, but stands for a name no light defines: it is
    missing from every device, although the legacy light still has the method kept for it. *)
Theorem old_light_state_refuted : In "_deprecated_set_light_state" (own IotLight) /\
  forall V (d : dev V), well_formed d -> ~ In "_deprecated_set_light_state" (d_own d) ->
    device_get d "_deprecated_set_light_state" = (Err PyAttributeError, []).
Proof.
  split; [cbn; tauto|]. intros V d W N. unfold device_get. rewrite (lookup_not_own _ _ _ _ N).
  assert (E : device_getattr d "_deprecated_set_light_state" =
    match replacing_attr d MLight ["has_effects"], d_mods d MLight with
    | Some n, Some c => let '(r, w) := module_get d MLight c n in (r, "_deprecated_set_light_state" :: w)
    | _, _ => no_attribute end) by reflexivity.
  rewrite E. unfold replacing_attr. destruct (d_mods d MLight) as [c|] eqn:C; [|reflexivity].
  pose proof (W _ _ C) as B. cbn in B. destruct B as [<-|[<-|[]]]; reflexivity.
Qed.
(** Asking whether the device has an old attribute raises when it has the module but not the ability. *)
Theorem old_hasattr_refuted : exists (d : dev nat),
  well_formed d /\ device_has d "valid_temperature_range" = Err KKasa /\ device_has d "hsv" = Err KKasa /\
  device_has d "emeter_today" = Ok false.
Proof.
  exists smart_bulb. split; [|vm_compute; auto].
  intros m c. destruct m; cbn; intros H; try discriminate; injection H as <-; cbn; auto.
Qed.
(** Statistics in watt-hours under the old name: a strip gives them, a plug refuses the argument. *)
Theorem old_statistics_refuted :
  call_stats StripEmeter "get_daystat" ["year"; "month"; "kwh"] = Ok "get_daily_stats" /\
  call_stats Emeter "get_daily_stats" ["year"; "month"; "kwh"] = Ok "get_daily_stats" /\
  call_stats Emeter "get_daystat" ["year"; "month"; "kwh"] = Err PyTypeError /\
  call_stats Emeter "get_monthstat" ["kwh"] = Err PyTypeError.
Proof. vm_compute. auto. Qed.

(** ** The hypotheses are met *)
Example bulb_well_formed : well_formed smart_bulb.
Proof. intros m c. destruct m; cbn; intros H; try discriminate; injection H as <-; cbn; auto. Qed.
Example bulb_brightness : device_get smart_bulb "brightness" = (Ok (GVal 50%nat), ["brightness"]).
Proof. vm_compute. reflexivity. Qed.
Example bulb_questions :
  device_get smart_bulb "is_dimmable" = (Ok (GBool true), ["is_dimmable"]) /\
  device_get smart_bulb "is_color" = (Ok (GBool false), ["is_color"]) /\
  device_get smart_bulb "has_effects" = (Ok (GBool true), ["has_effects"]) /\
  device_get smart_bulb "is_bulb" = (Ok (GBool true), ["is_bulb"]) /\
  device_get smart_bulb "is_plug" = (Ok (GBool false), ["is_plug"]).
Proof. vm_compute. auto 6. Qed.
Example bulb_effect : device_get smart_bulb "effect" = (Ok (GVal 1%nat), ["effect"]).
Proof. vm_compute. reflexivity. Qed.
(** A strip socket defines led itself *)
Example socket_led : forall V d t m r l f (v : V), device_get (mkDev t ["led"] m r l f) "led" = (d, []) ->
  r "led" = Ok (GVal v) -> d = Ok (GVal v).
Proof. intros. unfold device_get in H. cbn [d_own d_read] in H. unfold lookup in H. cbn [smem] in H.
  change (smem "led" ["led"]) with true in H. rewrite H0 in H. now injection H. Qed.
Example meter_names : forall V (d : dev V), module_get d MEnergy StripEmeter "realtime" = (m_read d MEnergy "status", ["realtime"]).
Proof.
  intros. apply (old_energy_names_partial V d StripEmeter "realtime" "status"); [cbn; tauto|cbn; tauto|].
  rewrite <- Base_Lemmas.smem_In. discriminate.
Qed.

Print Assumptions old_name_same.
Print Assumptions old_shape_same.
Print Assumptions old_questions.
Print Assumptions old_type_names.
Print Assumptions old_name_missing.
Print Assumptions other_names_untouched.
Print Assumptions old_energy_names_partial.
Print Assumptions package_names.
Print Assumptions old_save_preset_refuted.
Print Assumptions old_light_state_refuted.
Print Assumptions old_hasattr_refuted.
Print Assumptions old_statistics_refuted.

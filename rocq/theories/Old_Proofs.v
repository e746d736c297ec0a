From Verif Require Import Base Base_Lemmas Py Old_Model Old_Spec.
Open Scope string_scope.
Open Scope list_scope.

Lemma lookup_not_own {V} names (rd : string -> res (got V)) g a : ~ In a names -> lookup names rd g a = g a.
Proof.
  intros N. unfold lookup. destruct (smem a names) eqn:M; [|reflexivity].
  exfalso. apply N. now apply smem_In.
Qed.
Lemma lookup_own {V} names (rd : string -> res (got V)) g a :
  In a names -> rd a <> Err PyAttributeError -> lookup names rd g a = (rd a, []).
Proof.
  intros I R. unfold lookup. apply smem_In in I. rewrite I.
  destruct (rd a) as [v|e] eqn:E; [reflexivity|]. destruct e; try reflexivity. now elim R.
Qed.
(** A module's own attribute: what is read, also when it raises AttributeError *)
Lemma lookup_plain {V} names (rd : string -> res (got V)) g a :
  smem a names = true -> g a = no_attribute -> lookup names rd g a = (rd a, []).
Proof.
  intros I G. unfold lookup. rewrite I. destruct (rd a) as [v|e]; [reflexivity|].
  destruct e; try reflexivity. exact G.
Qed.

Ltac each_in H := cbn in H; repeat (destruct H as [H|H]; [|]); try contradiction H.

Lemma moved_same V (d : dev V) old m new c :
  well_formed d -> In (old, (m, new)) moved -> ~ In old (d_own d) -> d_mods d m = Some c ->
  fst (device_get d old) = m_read d m new /\ snd (device_get d old) = [old] /\
  module_get d m c new = (m_read d m new, []).
Proof.
  intros W I N C. pose proof (W _ _ C) as B.
  unfold device_get. rewrite (lookup_not_own _ _ _ _ N).
  each_in I; injection I as <- <- <-; each_in B; subst c;
    match goal with
    | |- context[module_get ?d ?m ?c ?n] =>
        assert (G : module_get d m c n = (m_read d m n, [])) by (unfold module_get; apply lookup_plain; reflexivity)
    end;
    lazy beta iota zeta delta -[module_get m_read d_mods lookup]; rewrite C;
    lazy beta iota zeta delta -[module_get m_read lookup]; rewrite ?G; auto.
Qed.

Lemma reshaped_same V (d : dev V) old m new c :
  reshaped c old = Some (m, new) -> ~ In old (d_own d) -> d_mods d m = Some c ->
  fst (device_get d old) = m_read d m new /\ snd (device_get d old) = [old] /\
  module_get d m c new = (m_read d m new, []).
Proof.
  intros I N C. unfold device_get. rewrite (lookup_not_own _ _ _ _ N). clear N.
  destruct c; cbn [reshaped] in I; try discriminate I;
    repeat match type of I with
    | context[String.eqb ?a ?b] =>
        destruct (String.eqb_spec a b) as [->|_]; [|try discriminate I]
    end; try discriminate I; injection I as <- <-;
    match goal with
    | |- context[module_get ?d ?m ?c ?n] =>
        assert (G : module_get d m c n = (m_read d m n, [])) by (unfold module_get; apply lookup_plain; reflexivity)
    end;
    lazy beta iota zeta delta -[module_get m_read d_mods lookup]; rewrite C;
    lazy beta iota zeta delta -[module_get m_read lookup]; rewrite ?G; auto.
Qed.

Lemma question_same V (d : dev V) q a c :
  In (q, a) questions -> ~ In q (d_own d) -> d_mods d MLight = Some c -> In c [IotLight; SmartLight] ->
  device_get d q = (Ok (GBool (light_has d a)), [q]) /\ module_get d MLight c q = device_get d q.
Proof.
  intros I N C B. unfold device_get. rewrite (lookup_not_own _ _ _ _ N). clear N.
  each_in I; injection I as <- <-; each_in B; subst c;
    split;
    lazy beta iota zeta delta -[d_mods l_feature]; rewrite ?C; reflexivity.
Qed.
Lemma effects_same V (d : dev V) c :
  ~ In "has_effects" (d_own d) -> d_mods d MLight = Some c -> In c [IotLight; SmartLight] ->
  device_get d "has_effects" = (Ok (GBool (has_module d MEffect)), ["has_effects"]) /\
  module_get d MLight c "has_effects" = device_get d "has_effects".
Proof.
  intros N C B. unfold device_get. rewrite (lookup_not_own _ _ _ _ N). clear N.
  each_in B; subst c; split;
    lazy beta iota zeta delta -[d_mods l_feature]; rewrite ?C; reflexivity.
Qed.
Lemma range_same V (d : dev V) c :
  ~ In "valid_temperature_range" (d_own d) -> d_mods d MLight = Some c -> In c [IotLight; SmartLight] ->
  device_get d "valid_temperature_range" = (match l_feature d "color_temp" with
     Some (lo, hi) => Ok (GRange lo hi) | None => Err KKasa end, ["valid_temperature_range"]) /\
  module_get d MLight c "valid_temperature_range" = device_get d "valid_temperature_range".
Proof.
  intros N C B. unfold device_get. rewrite (lookup_not_own _ _ _ _ N). clear N.
  each_in B; subst c; split;
    lazy beta iota zeta delta -[d_mods l_feature]; rewrite ?C; reflexivity.
Qed.

Lemma dtype_eqb_spec a b : dtype_eqb a b = true <-> a = b.
Proof. destruct a, b; cbn; split; intros H; congruence. Qed.
Lemma type_same V (d : dev V) a t :
  type_question a t -> ~ In a (d_own d) ->
  exists b, device_get d a = (Ok (GBool b), [a]) /\ (b = true <-> d_type d = t).
Proof.
  intros I N. unfold device_get. rewrite (lookup_not_own _ _ _ _ N). clear N.
  exists (dtype_eqb (d_type d) t). split; [|apply dtype_eqb_spec].
  each_in I; injection I as <- <-; reflexivity.
Qed.

Lemma missing V (d : dev V) a m :
  needs a m -> ~ In a (d_own d) -> d_mods d m = None ->
  fst (device_get d a) = Err PyAttributeError /\ device_has d a = Ok false.
Proof.
  intros I N C.
  assert (H : fst (device_get d a) = Err PyAttributeError).
  { unfold device_get. rewrite (lookup_not_own _ _ _ _ N). clear N.
    destruct I as [[n I]|[[-> I]|[[-> I]|[-> I]]]]; each_in I; try (injection I as <- <- <-); subst;
      lazy beta iota zeta delta -[d_mods l_feature module_get]; rewrite C; reflexivity. }
  split; [exact H|]. unfold device_has. rewrite H. reflexivity.
Qed.

Lemma dget_out {A} a (t : dict A) : ~ In a (List.map fst t) -> dget a t = None.
Proof.
  induction t as [|[k v] t IH]; [reflexivity|]. cbn. intros N.
  destruct (String.eqb_spec a k) as [->|Ne]; [elim N; now left|].
  destruct (String.eqb_spec k a) as [->|_]; [now elim Ne|]. apply IH. intros H. apply N. now right.
Qed.
Lemma unknown V (d : dev V) a :
  ~ In a old_names -> ~ In a (d_own d) -> device_get d a = (Err PyAttributeError, []).
Proof.
  intros O N. unfold device_get. rewrite (lookup_not_own _ _ _ _ N). unfold device_getattr.
  rewrite (dget_out a type_names) by (intros H; apply O; cbn in H |- *; tauto).
  assert (Q : callable_attribute d a = None).
  { unfold callable_attribute.
    repeat match goal with
    | |- context[String.eqb a ?b] =>
        let E := fresh in destruct (String.eqb_spec a b) as [E|_];
        [exfalso; apply O; rewrite E; cbn; tauto|]
    end. reflexivity. }
  rewrite Q. rewrite (dget_out a other_names) by (intros H; apply O; cbn in H |- *; tauto). reflexivity.
Qed.

(** ** Energy *)
Lemma energy_same V (d : dev V) c old new :
  In (old, new) energy_moved -> In c [Emeter; StripEmeter; SmartEnergy] -> ~ In old (own c) ->
  module_get d MEnergy c old = (m_read d MEnergy new, [old]) /\
  module_get d MEnergy c new = (m_read d MEnergy new, []).
Proof.
  intros I B N.
  assert (G : module_get d MEnergy c new = (m_read d MEnergy new, [])).
  { unfold module_get. each_in I; injection I as <- <-; each_in B; subst c; apply lookup_plain; reflexivity. }
  split; [|exact G].
  assert (L : lookup (own c) (m_read d MEnergy) (fun _ => no_attribute) new = (m_read d MEnergy new, [])).
  { each_in I; injection I as <- <-; each_in B; subst c; apply lookup_plain; reflexivity. }
  unfold module_get. rewrite (lookup_not_own _ _ _ _ N).
  assert (Hl : is_light c = false /\ is_energy c = true) by (each_in B; subst c; split; reflexivity).
  destruct Hl as [-> ->]. unfold energy_getattr.
  assert (D : dget old energy_old = Some new) by (each_in I; injection I as <- <-; reflexivity).
  rewrite D, L. reflexivity.
Qed.
Lemma own_energy c old new :
  In (old, new) energy_moved -> In c [Emeter; StripEmeter; SmartEnergy] -> In old (own c) ->
  c = Emeter /\ In old ["get_daystat"; "get_monthstat"].
Proof.
  intros I B O. apply smem_In in O.
  each_in I; injection I as <- <-; each_in B; subst c; try discriminate O; split; cbn; auto.
Qed.

(** ** Warnings *)
Lemma lookup_cases {V} names (rd : string -> res (got V)) g a :
  (In a names /\ lookup names rd g a = (rd a, [])) \/ lookup names rd g a = g a.
Proof.
  unfold lookup. destruct (smem a names) eqn:M; [|now right].
  apply smem_In in M. destruct (rd a) as [v|e]; [now left|].
  destruct e; try (now left). now right.
Qed.
Lemma moved_entry V (d : dev V) a m attrs n c :
  dget a other_names = Some (Some m, attrs) -> d_mods d m = Some c -> first_in (own c) attrs = Some n ->
  snd (module_get d m c n) = [].
Proof.
  intros E C F. apply dget_In in E.
  assert (X : In n ["brightness"; "set_brightness"; "hsv"; "set_hsv"; "color_temp"; "set_color_temp"; "has_effects";
     "led"; "set_led"; "_deprecated_effect"; "effect"; "_deprecated_effect_list"; "effect_list"; "set_effect";
     "set_custom_effect"; "_deprecated_presets"; "preset_states_list"; "_deprecated_save_preset"; "get_status"; "status";
     "consumption_today"; "consumption_this_month"; "current_consumption"; "get_daily_stats"; "get_monthly_stats"] /\
     smem n (own c) = true).
  { assert (G : forall l, first_in (own c) l = Some n -> In n l /\ smem n (own c) = true).
    { induction l as [|x l IH]; cbn; [discriminate|]. destruct (smem x (own c)) eqn:M.
      - intros H. injection H as <-. auto.
      - intros H. destruct (IH H). auto. }
    destruct (G _ F) as [I O]. split; [|exact O].
    each_in E; try discriminate E; injection E as <- <- <-; cbn in I |- *; tauto. }
  destruct X as [I O]. unfold module_get, lookup. rewrite O.
  destruct (m_read d m n) as [v|e]; [reflexivity|].
  destruct e; try reflexivity.
  destruct (is_light c) eqn:L.
  { assert (H : n <> "has_effects") by (intros ->; destruct c; discriminate).
    unfold light_getattr. each_in I; subst n; try reflexivity. now elim H. }
  destruct (is_energy c) eqn:En; [|reflexivity].
  unfold energy_getattr. each_in I; subst n; reflexivity.
Qed.
Lemma warned V (d : dev V) a v w :
  device_get d a = (Ok v, w) -> (w = [] /\ In a (d_own d)) \/ (w = [a] /\ In a old_names).
Proof.
  unfold device_get. destruct (lookup_cases (d_own d) (d_read d) (device_getattr d) a) as [[I ->] | ->].
  { intros H. injection H as _ <-. now left. }
  intros H. right.
  assert (O : In a old_names).
  { destruct (smem a old_names) eqn:M; [now apply smem_In|].
    apply smem_false in M. exfalso.
    assert (U : device_getattr d a = (Err PyAttributeError, [])).
    { pose proof (unknown V (mkDev (d_type d) [] (d_mods d) (d_read d) (m_read d) (l_feature d)) a M (fun x => x)) as U.
      exact U. }
    rewrite U in H. discriminate. }
  split; [|exact O]. clear O.
  unfold device_getattr in H. destruct (dget a type_names); [injection H as _ <-; reflexivity|].
  destruct (callable_attribute d a) as [r|] eqn:Q.
  { subst r. unfold callable_attribute in Q. cbv zeta in Q.
    repeat match type of Q with
    | context[String.eqb a ?b] => destruct (String.eqb a b); [injection Q as _ <-; reflexivity|]
    end. discriminate Q. }
  destruct (dget a other_names) as [[[m|] attrs]|] eqn:D.
  - unfold replacing_attr in H. destruct (d_mods d m) as [c|] eqn:C; [|discriminate].
    destruct (first_in (own c) attrs) as [n|] eqn:F; [|discriminate].
    pose proof (moved_entry V d a m attrs n c D C F) as S.
    destruct (module_get d m c n) as [r w']. cbn in S. subst w'. injection H as _ <-. reflexivity.
  - injection H as _ <-. reflexivity.
  - discriminate.
Qed.

(** C144: asking a module whether an attribute can be used. *)
From Verif Require Import Base Py Base_Lemmas Bound_Model Bound_Spec.
Open Scope string_scope.
Open Scope list_scope.

(** Once the features are there, a marked attribute is said to be there exactly if it can be used with
    the device; the one exception is the setter of a vacuum's fan speed. *)
Lemma fresh_answer k x a n : dget a (attrs_of k) = Some (Some n) -> a <> "set_fan_speed_preset" ->
  exists r, bound_feature (attrs_of k) (features_of k x) (ByName a) = Ok r /\ known r = works k x a.
Proof.
  intros E N.
  assert (I : In (a, Some n) (attrs_of k)).
  { revert E. generalize (attrs_of k). intros d. induction d as [|[b v] d IH]; cbn [dget]; [discriminate|].
    destruct (String.eqb_spec a b) as [->|Hb]; [intros H; injection H as ->; left; reflexivity|intros H; right; exact (IH H)]. }
  destruct k; cbn [attrs_of map List.app In] in I;
    repeat (destruct I as [I|I]; [try discriminate I; injection I as <- <-;
      try (exfalso; apply N; reflexivity);
      unfold features_of, given; cbn [x_has];
      repeat match goal with |- context [if ?b then _ else _] => let T := fresh "T" in destruct b eqn:T end;
      (eexists; split; [reflexivity|]; unfold works; cbn; try rewrite ?T; try reflexivity;
       repeat match goal with H : _ = true |- _ => rewrite H | H : _ = false |- _ => rewrite H end; try reflexivity)|]);
    try contradiction.
Qed.
Lemma query_eqb_eq a b : query_eqb a b = true -> a = b.
Proof.
  destruct a as [s|s n], b as [t|t o]; cbn [query_eqb]; try discriminate.
  - intros H. apply String.eqb_eq in H. subst. reflexivity.
  - intros H. apply andb_true_iff in H. destruct H as [H J]. apply String.eqb_eq in H. subst. f_equal.
    destruct n as [[|i|]|], o as [[|j|]|]; cbn in J; try discriminate; try reflexivity.
    apply String.eqb_eq in J. subst. reflexivity.
Qed.
Lemma query_eqb_refl a : query_eqb a a = true.
Proof.
  destruct a as [s|s n]; cbn [query_eqb]; rewrite String.eqb_refl; [reflexivity|].
  destruct n as [[|i|]|]; cbn; rewrite ?String.eqb_refl; reflexivity.
Qed.

Section Histories.
Variable modules : nat -> kind * facts.
Notation run_from := (fold_left (step modules)).
Definition truth (m : nat) (q : query) : res (option (string * feat)) :=
  bound_feature (attrs_of (fst (modules m))) (features_of (fst (modules m)) (snd (modules m))) q.

Lemma cached_cons m' q' r c m q :
  cached ((m', q', r) :: c) m q = if Nat.eqb m' m && query_eqb q' q then Some r else cached c m q.
Proof. unfold cached. cbn [find fst snd]. destruct (_ && _); reflexivity. Qed.

(** While nobody asks, the cache has no entry *)
Lemma unasked h : forall s m q, cached (s_cache s) m q = None -> ~ In (Ask m q) h ->
  cached (s_cache (run_from h s)) m q = None.
Proof.
  induction h as [|e h IH]; intros s m q C N; [exact C|]. cbn [fold_left]. apply IH.
  - destruct e as [m' q'|d]; cbn [step]; [|exact C]. unfold get_feature.
    destruct (cached (s_cache s) m' q') as [r|] eqn:C'; [exact C|].
    destruct (bound_feature _ _ q') as [r|e]; [|exact C]. cbn [fst s_cache]. rewrite cached_cons.
    destruct (Nat.eqb_spec m' m) as [->|Hm]; cbn [andb]; [|exact C].
    destruct (query_eqb q' q) eqn:Q; [|exact C]. apply query_eqb_eq in Q. subst.
    exfalso. apply N. left. reflexivity.
  - intros I. apply N. right. exact I.
Qed.
Lemma ready_stays h : forall s, s_ready s = true -> s_ready (run_from h s) = true.
Proof.
  induction h as [|e h IH]; intros s R; [exact R|]. cbn [fold_left]. apply IH.
  destruct e as [m q|d]; cbn [step]; [|cbn [s_ready]; rewrite R; reflexivity].
  unfold get_feature. destruct (cached _ m q); [exact R|]. destruct (bound_feature _ _ q); exact R.
Qed.
(** Once the features are there, the cache holds nothing else than what is there, where it was so before *)
Lemma right_stays h : forall s m q, s_ready s = true ->
  (forall r, cached (s_cache s) m q = Some r -> truth m q = Ok r) ->
  (forall r, cached (s_cache (run_from h s)) m q = Some r -> truth m q = Ok r).
Proof.
  induction h as [|e h IH]; intros s m q R C; [exact C|]. cbn [fold_left].
  destruct e as [m' q'|d]; cbn [step].
  - unfold get_feature. destruct (cached (s_cache s) m' q') as [r'|] eqn:C'; [apply IH; assumption|].
    destruct (bound_feature _ _ q') as [r'|e] eqn:B; [|apply IH; assumption].
    apply IH; [exact R|]. cbn [fst s_cache]. intros r. rewrite cached_cons.
    destruct (Nat.eqb_spec m' m) as [->|Hm]; cbn [andb]; [|apply C].
    destruct (query_eqb q' q) eqn:Q; [|apply C]. apply query_eqb_eq in Q. subst.
    intros E. injection E as <-. unfold truth. rewrite <- B. unfold present. rewrite R. reflexivity.
  - apply IH; [cbn [s_ready]; rewrite R; reflexivity|exact C].
Qed.
Lemma answer_right m q before after : ~ In (Ask m q) before ->
  snd (get_feature modules m q (run modules (before ++ Updated true :: after))) = truth m q.
Proof.
  intros N. unfold run. rewrite fold_left_app. cbn [fold_left].
  set (s := run_from before (mkState false [])).
  assert (C : cached (s_cache s) m q = None) by (apply unasked; [reflexivity|exact N]).
  assert (R : s_ready (step modules s (Updated true)) = true) by (cbn [step s_ready]; apply orb_true_r).
  pose proof (ready_stays after _ R) as R'.
  assert (C1 : forall r, cached (s_cache (step modules s (Updated true))) m q = Some r -> truth m q = Ok r).
  { cbn [step s_cache]. intros r H. rewrite C in H. discriminate H. }
  pose proof (right_stays after _ m q R C1) as T.
  unfold get_feature. destruct (cached (s_cache (run_from after (step modules s (Updated true)))) m q) as [r|].
  - cbn [snd]. symmetry. apply T. reflexivity.
  - unfold present. rewrite R'. fold (truth m q). destruct (truth m q); reflexivity.
Qed.
End Histories.

(** After the features are made, and unless it was asked before, a module tells truly whether a marked
    attribute can be used, whatever is asked and updated in between and of other modules. *)
Theorem has_feature_partial : forall modules m a before after,
  marked (fst (modules m)) a -> a <> "set_fan_speed_preset" -> ~ In (Ask m (ByName a)) before ->
  has_feature modules m (ByName a) (run modules (before ++ Updated true :: after)) =
    Ok (works (fst (modules m)) (snd (modules m)) a).
Proof.
  intros modules m a before after (n & E) N A. unfold has_feature. rewrite (answer_right modules m (ByName a) before after A).
  destruct (fresh_answer (fst (modules m)) (snd (modules m)) a n E N) as (r & B & K).
  unfold truth. rewrite B. cbn [bind]. rewrite <- K. destruct r; reflexivity.
Qed.
Print Assumptions has_feature_partial.

(** The feature found is one of the module's, and it reads or sets the attribute or is the one the mark
    names. *)
Theorem feature_found : forall modules m a before after id f,
  ~ In (Ask m (ByName a)) before ->
  snd (get_feature modules m (ByName a) (run modules (before ++ Updated true :: after))) = Ok (Some (id, f)) ->
  In (id, f) (features_of (fst (modules m)) (snd (modules m))) /\
  (through f a \/ dget a (attrs_of (fst (modules m))) = Some (Some (Of id))).
Proof.
  intros modules m a before after id f A. rewrite (answer_right modules m (ByName a) before after A).
  unfold truth, bound_feature. destruct (dget a (attrs_of (fst (modules m)))) as [n|]; cbn [bind]; [|discriminate].
  cbn [snd fst]. generalize (features_of (fst (modules m)) (snd (modules m))). intros d.
  destruct n as [[|i|]|]; cbn [feature_attribute]; try discriminate; intros H; injection H as H.
  - apply find_some in H. destruct H as [I U]. split; [exact I|]. left. cbn [snd] in U.
    apply orb_true_iff in U. unfold through.
    destruct U as [U|U]; [left|right]; [destruct (f_get f) as [|s|]|destruct (f_set f) as [|s|]]; cbn [uses] in U; try discriminate;
      apply String.eqb_eq in U; subst; reflexivity.
  - destruct (dget i d) as [g|] eqn:G; [|discriminate]. cbn [option_map] in H. injection H as -> ->.
    split; [|right; reflexivity]. revert G. induction d as [|[b v] d IH]; cbn [dget]; [discriminate|].
    destruct (String.eqb_spec id b) as [->|Hb]; [intros X; injection X as ->; left; reflexivity|intros X; right; exact (IH X)].
Qed.
Print Assumptions feature_found.

(** Asking about anything else is an error, at any time. *)
Theorem has_feature_refuses : forall modules m a h,
  ~ marked (fst (modules m)) a ->
  has_feature modules m (ByName a) (run modules h) = Err KKasa.
Proof.
  intros modules m a h N.
  assert (B : forall d, bound_feature (attrs_of (fst (modules m))) d (ByName a) = Err KKasa).
  { intros d. unfold bound_feature. destruct (dget a (attrs_of (fst (modules m)))) as [[n|]|] eqn:E; cbn [bind].
    - exfalso. apply N. exists n. exact E.
    - reflexivity.
    - reflexivity. }
  assert (C : cached (s_cache (run modules h)) m (ByName a) = None).
  { unfold run. assert (C0 : cached (s_cache (mkState false [])) m (ByName a) = None) by reflexivity. revert C0.
    generalize (mkState false []). induction h as [|e h IH]; intros s C0; [exact C0|]. cbn [fold_left]. apply IH.
    destruct e as [m' q'|d]; cbn [step]; [|exact C0]. unfold get_feature.
    destruct (cached (s_cache s) m' q') as [r|] eqn:C'; [exact C0|].
    destruct (bound_feature _ _ q') as [r|e] eqn:B'; [|exact C0]. cbn [fst s_cache]. rewrite cached_cons.
    destruct (Nat.eqb_spec m' m) as [->|Hm]; cbn [andb]; [|exact C0].
    destruct (query_eqb q' (ByName a)) eqn:Q; [|exact C0]. apply query_eqb_eq in Q. subst.
    rewrite B in B'. discriminate B'. }
  unfold has_feature, get_feature. rewrite C, B. reflexivity.
Qed.
Print Assumptions has_feature_refuses.

(** The property or method itself may be given instead of its name. *)
Theorem by_object_same : forall modules m a n before after,
  dget a (attrs_of (fst (modules m))) = Some n ->
  ~ In (Ask m (ByName a)) before -> ~ In (Ask m (ByObject a n)) before ->
  let s := run modules (before ++ Updated true :: after) in
  snd (get_feature modules m (ByObject a n) s) = snd (get_feature modules m (ByName a) s).
Proof.
  intros modules m a n before after E A B s. unfold s.
  rewrite (answer_right modules m (ByObject a n) before after B), (answer_right modules m (ByName a) before after A).
  unfold truth, bound_feature. rewrite E. reflexivity.
Qed.
Print Assumptions by_object_same.

(** The old names of a light's abilities tell the same. *)
Theorem old_names_same : forall modules m before after,
  let k := fst (modules m) in let x := snd (modules m) in
  k = SmartLight \/ k = IotLight ->
  (forall a, ~ In (Ask m (ByName a)) before) ->
  let s := run modules (before ++ Updated true :: after) in
  old_light_fact modules (Some m) "is_color" s = Ok (works k x "hsv") /\
  old_light_fact modules (Some m) "is_dimmable" s = Ok (works k x "brightness") /\
  old_light_fact modules (Some m) "is_variable_color_temp" s = Ok (works k x "color_temp") /\
  old_light_fact modules None "is_color" s = Err PyAttributeError.
Proof.
  intros modules m before after k x K A s.
  assert (F : forall a, In a ["hsv"; "brightness"; "color_temp"] ->
    has_feature modules m (ByName a) s = Ok (works k x a)).
  { intros a I. apply has_feature_partial; [|intros ->; repeat (destruct I as [I|I]; [discriminate I|]); contradiction|apply A].
    fold k. exists Plain. destruct K as [-> | ->]; repeat (destruct I as [<-|I]; [reflexivity|]); contradiction. }
  split; [apply (F "hsv"); cbn; tauto|]. split; [apply (F "brightness"); cbn; tauto|].
  split; [apply (F "color_temp"); cbn; tauto|reflexivity].
Qed.
Print Assumptions old_names_same.

(** A colour bulb, a vacuum and a battery sensor *)
Definition sample (m : nat) : kind * facts :=
  match m with
  | O => (SmartLight, mkFacts (fun s => smem s ["Brightness"; "Color"]) (fun _ => false) false false false)
  | S O => (Clean, mkFacts (fun _ => false) (fun _ => false) false false false)
  | _ => (Battery, mkFacts (fun _ => false) (fun s => String.eqb s "at_low_battery") false false false)
  end.
Example has_feature_ex :
  let s := run sample [Updated false; Ask 1 (ByName "clean_count"); Updated true; Ask 0 (ByName "hsv"); Updated true] in
  has_feature sample 0 (ByName "hsv") s = Ok true /\ has_feature sample 0 (ByName "color_temp") s = Ok false /\
  has_feature sample 2 (ByName "battery_low") s = Ok true /\ has_feature sample 2 (ByName "battery") s = Ok false /\
  has_feature sample 1 (ByName "start") s = Err KKasa /\
  marked SmartLight "hsv" /\ ~ In (Ask 0 (ByName "hsv")) [Updated false; Ask 1 (ByName "clean_count")].
Proof.
  repeat (split; [reflexivity|]). split; [exists Plain; reflexivity|].
  intros [H|[H|H]]; try discriminate; contradiction.
Qed.
Example feature_found_ex :
  snd (get_feature sample 0 (ByName "set_hsv") (run sample [Updated true])) = Ok (Some ("hsv", both "hsv" "set_hsv")).
Proof. reflexivity. Qed.

(** The setter of a vacuum's fan speed is marked and works, yet asking about it is an error. *)
Theorem fan_speed_mark_refuted : forall modules m h,
  fst (modules m) = Clean ->
  marked Clean "set_fan_speed_preset" /\ works Clean (snd (modules m)) "set_fan_speed_preset" = true /\
  In ("vacuum_fan_speed", both "fan_speed_preset" "set_fan_speed_preset") (features_of Clean (snd (modules m))) /\
  has_feature modules m (ByName "set_fan_speed_preset") (run modules h) = Err KKasa.
Proof.
  intros modules m h K. split; [exists Bare; reflexivity|]. split; [reflexivity|]. split; [cbn; tauto|].
  assert (B : forall d, bound_feature (attrs_of (fst (modules m))) d (ByName "set_fan_speed_preset") = Err KKasa)
    by (intros d; rewrite K; reflexivity).
  assert (C : cached (s_cache (run modules h)) m (ByName "set_fan_speed_preset") = None).
  { unfold run. assert (C0 : cached (s_cache (mkState false [])) m (ByName "set_fan_speed_preset") = None) by reflexivity.
    revert C0. generalize (mkState false []). induction h as [|e h IH]; intros s C0; [exact C0|]. cbn [fold_left]. apply IH.
    destruct e as [m' q'|d]; cbn [step]; [|exact C0]. unfold get_feature.
    destruct (cached (s_cache s) m' q') as [r|] eqn:C'; [exact C0|].
    destruct (bound_feature _ _ q') as [r|e] eqn:B'; [|exact C0]. cbn [fst s_cache]. rewrite cached_cons.
    destruct (Nat.eqb_spec m' m) as [->|Hm]; cbn [andb]; [|exact C0].
    destruct (query_eqb q' (ByName "set_fan_speed_preset")) eqn:Q; [|exact C0]. apply query_eqb_eq in Q. subst.
    rewrite B in B'. discriminate B'. }
  unfold has_feature, get_feature. rewrite C, B. reflexivity.
Qed.
Print Assumptions fan_speed_mark_refuted.
Example fan_speed_mark_ex : fst (sample 1) = Clean.
Proof. reflexivity. Qed.

(** A light asked once after its first update was broken off says for ever that it has no colours,
    whatever is asked or updated afterwards. *)
Theorem asked_early_refuted : forall modules m after,
  fst (modules m) = SmartLight -> x_has (snd (modules m)) "Color" = true ->
  has_feature modules m (ByName "hsv")
    (run modules (Updated false :: Ask m (ByName "hsv") :: Updated true :: after)) = Ok false /\
  works SmartLight (snd (modules m)) "hsv" = true.
Proof.
  intros modules m after K C. split; [|exact C].
  assert (S : forall h s, cached (s_cache s) m (ByName "hsv") = Some None ->
    cached (s_cache (fold_left (step modules) h s)) m (ByName "hsv") = Some None).
  { induction h as [|e h IH]; intros s Hs; [exact Hs|]. cbn [fold_left]. apply IH.
    destruct e as [m' q'|d]; cbn [step]; [|exact Hs]. unfold get_feature.
    destruct (cached (s_cache s) m' q') as [r|] eqn:C'; [exact Hs|].
    destruct (bound_feature _ _ q') as [r|e]; [|exact Hs]. cbn [fst s_cache]. rewrite cached_cons.
    destruct (Nat.eqb_spec m' m) as [->|Hm]; cbn [andb]; [|exact Hs].
    destruct (query_eqb q' (ByName "hsv")) eqn:Q; [|exact Hs]. apply query_eqb_eq in Q. subst.
    rewrite Hs in C'. discriminate C'. }
  unfold run. cbn [fold_left].
  unfold has_feature, get_feature. rewrite S; [reflexivity|].
  assert (B : bound_feature (attrs_of (fst (modules m))) (present modules false m) (ByName "hsv") = Ok None)
    by (rewrite K; reflexivity).
  cbn [step s_ready s_cache orb]. unfold get_feature. cbn [s_cache s_ready].
  change (cached [] m (ByName "hsv")) with (@None (option (string * feat))).
  cbv iota. rewrite B. cbn [fst s_cache]. rewrite cached_cons, Nat.eqb_refl. reflexivity.
Qed.
Print Assumptions asked_early_refuted.
Example asked_early_ex : fst (sample 0) = SmartLight /\ x_has (snd (sample 0)) "Color" = true.
Proof. split; reflexivity. Qed.

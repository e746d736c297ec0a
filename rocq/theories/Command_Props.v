(** C126-C129: commands of the tool. *)
From Verif Require Import Base Base_Lemmas Py IotLight_Model SmartLight_Model Preset_Model Cli_Model Command_Model Command_Spec.
From Coq Require Import Lia.
Open Scope string_scope.
Open Scope list_scope.
Open Scope Z_scope.

(** ** C126 *)
Lemma field_overwrite g o : field_changed g o (overwrite g o).
Proof. destruct g, o; cbn; auto. Qed.
Lemma none_given b h s t : some_given b h s t -> is_none b && is_none h && is_none s && is_none t = false.
Proof. unfold some_given. destruct b, h, s, t; cbn; auto. intros [H|[H|[H|H]]]; contradiction. Qed.
Lemma py_nth_pos {A} (l : list A) n : py_nth l (Z.of_nat n) = nth_error l n.
Proof. unfold py_nth. destruct (Z.ltb_spec (Z.of_nat n) 0); [lia|]. now rewrite Nat2Z.id. Qed.

Lemma py_nth_back {A} (l : list A) a r i : i = - Z.of_nat (S (List.length r)) -> py_nth (l ++ a :: r) i = Some a.
Proof.
  intros ->. unfold py_nth. destruct (Z.ltb_spec (- Z.of_nat (S (List.length r))) 0); [|lia].
  rewrite app_length. cbn [List.length].
  destruct (Z.ltb_spec (- Z.of_nat (S (List.length r)) + Z.of_nat (List.length l + S (List.length r))) 0); [lia|].
  replace (Z.to_nat _) with (List.length l) by lia. rewrite nth_error_app2 by lia. now rewrite Nat.sub_diag.
Qed.

Theorem preset_modified_partial : forall (presets : dict light_state) n name old b h s,
  nth_error presets n = Some (name, old) -> some_given b h s None ->
  exists new, presets_modify presets (Z.of_nat n) b h s None = Go (name, new) /\ changed b h s None old new.
Proof.
  intros presets n name old b h s N G. unfold presets_modify.
  assert (L : (n < List.length presets)%nat) by (apply nth_error_Some; congruence).
  destruct (Z.ltb_spec (Z.of_nat (List.length presets) - 1) (Z.of_nat n)); [lia|].
  rewrite none_given by exact G.
  replace (Z.of_nat n + 1) with (Z.of_nat (S n)) by lia. rewrite !py_nth_pos. cbn [preset_list nth_error].
  unfold preset_list, dkeys. cbn [nth_error]. rewrite !nth_error_map, N. cbn [option_map fst snd].
  eexists. split; [reflexivity|]. repeat split; try apply field_overwrite; reflexivity.
Qed.
Print Assumptions preset_modified_partial.

Theorem preset_refused : forall (presets : dict light_state) index b h s t,
  Z.of_nat (List.length presets) <= index \/ ~ some_given b h s t ->
  presets_modify presets index b h s t = Stop Exit1.
Proof.
  intros presets index b h s t H. unfold presets_modify.
  destruct (Z.ltb_spec (Z.of_nat (List.length presets) - 1) index); [reflexivity|].
  destruct H as [H|H]; [lia|]. unfold some_given in H. destruct b, h, s, t; try reflexivity; exfalso; apply H;
  repeat (first [left; discriminate | right; try discriminate]).
Qed.
Print Assumptions preset_refused.

(** A colour temperature can never be changed. *)
Theorem preset_temperature_refuted : forall (presets : dict light_state) n b h s t,
  (n < List.length presets)%nat -> presets_modify presets (Z.of_nat n) b h s (Some t) = Stop (Raise PyAttributeError).
Proof.
  intros presets n b h s t L. unfold presets_modify.
  destruct (Z.ltb_spec (Z.of_nat (List.length presets) - 1) (Z.of_nat n)); [lia|].
  rewrite none_given by (right; right; right; discriminate).
  destruct (nth_error presets n) as [[name old]|] eqn:N; [|apply nth_error_None in N; lia].
  replace (Z.of_nat n + 1) with (Z.of_nat (S n)) by lia. rewrite !py_nth_pos. cbn [preset_list nth_error].
  unfold preset_list, dkeys. cbn [nth_error]. now rewrite !nth_error_map, N.
Qed.
Print Assumptions preset_temperature_refuted.

(** A negative index is not refused: the values of one preset are saved under the name of another,
    -1 names the entry that stands for no preset. *)
Lemma preset_negative_refuted_lemma : forall (presets : dict light_state) name old x y b,
  presets_modify (presets ++ [x; (name, old)]) (-2) (Some b) None None None
    = Go (name, mkLight (light_on (snd x)) (overwrite (Some b) (brightness (snd x))) (hue (snd x)) (saturation (snd x)) (color_temp (snd x)) (transition (snd x)))
  /\ exists new, presets_modify (presets ++ [y]) (-1) (Some b) None None None = Go (not_set, new).
Proof.
  intros presets name old [xn xs] [yn ys] b. split.
  - unfold presets_modify. rewrite app_length. cbn [List.length].
    destruct (Z.ltb_spec (Z.of_nat (List.length presets + 2) - 1) (-2)); [lia|]. cbn [is_none andb].
    assert (E1 : py_nth (preset_list (presets ++ [(xn, xs); (name, old)])) (-2 + 1) = Some name).
    { unfold preset_list, dkeys. rewrite map_app. cbn [map fst].
      replace (not_set :: map fst presets ++ [xn; name]) with ((not_set :: map fst presets ++ [xn]) ++ [name]) by (cbn; now rewrite <- app_assoc).
      now apply (py_nth_back _ name []). }
    assert (E2 : py_nth (map snd (presets ++ [(xn, xs); (name, old)])) (-2) = Some xs)
      by (rewrite map_app; now apply (py_nth_back _ xs [old])).
    rewrite E1, E2. reflexivity.
  - unfold presets_modify. rewrite app_length. cbn [List.length].
    destruct (Z.ltb_spec (Z.of_nat (List.length presets + 1) - 1) (-1)); [lia|]. cbn [is_none andb].
    assert (E2 : py_nth (map snd (presets ++ [(yn, ys)])) (-1) = Some ys)
      by (rewrite map_app; now apply (py_nth_back _ ys [])).
    rewrite E2. change (-1 + 1) with (Z.of_nat 0). rewrite py_nth_pos. cbn [preset_list nth_error].
    eexists. reflexivity.
Qed.
Theorem preset_negative_refuted : forall (presets : dict light_state) name old x y b,
  presets_modify (presets ++ [x; (name, old)]) (-2) (Some b) None None None
    = Go (name, mkLight (light_on (snd x)) (overwrite (Some b) (brightness (snd x))) (hue (snd x)) (saturation (snd x)) (color_temp (snd x)) (transition (snd x)))
  /\ exists new, presets_modify (presets ++ [y]) (-1) (Some b) None None None = Go ("Not set", new).
Proof. exact preset_negative_refuted_lemma. Qed.
Print Assumptions preset_negative_refuted.

(** The preset that is saved is the one with that index, on legacy bulbs and on SMART lights. *)
Lemma key_index_nth {A} (d : dict A) n k a : NoDup (map fst d) -> nth_error d n = Some (k, a) -> key_index k d = Some n.
Proof.
  revert n. induction d as [|[k' a'] d IH]; intros [|n] N H; cbn in *; try discriminate.
  - injection H as -> ->. now rewrite String.eqb_refl.
  - inversion N as [|? ? F N']; subst. destruct (String.eqb_spec k k').
    + subst. exfalso. apply F. apply nth_error_In in H. now apply (in_map fst) in H.
    + now rewrite (IH n).
Qed.
Theorem modified_preset_saved : forall reply (presets : dict light_state) n name old b h s log,
  NoDup (dkeys presets) -> nth_error presets n = Some (name, old) -> some_given b h s None ->
  exists new, presets_modify presets (Z.of_nat n) b h s None = Go (name, new) /\ changed b h s None old new
  /\ (exists params, iot_save reply presets name new log = (log ++ [mkCall "set_preferred_state" params], reply (mkCall "set_preferred_state" params))
        /\ dget "index" params = Some (PNum (AInt (Z.of_nat n))))
  /\ (exists params, smart_save reply (mkSP presets false) name new log = (log ++ [mkCall "edit_preset_rules" params], reply (mkCall "edit_preset_rules" params))
        /\ dget "index" params = Some (PNum (AInt (Z.of_nat n)))).
Proof.
  intros reply presets n name old b h s log ND N G.
  destruct (preset_modified_partial presets n name old b h s N G) as (new & E & C). exists new. split; [exact E|]. split; [exact C|].
  pose proof (key_index_nth presets n name old ND N) as K. split.
  - unfold iot_save. rewrite K. destruct presets; [destruct n; discriminate|]. eexists. split; [reflexivity|].
    apply dget_dset_same.
  - unfold smart_save. cbn [sp_presets sp_brightness_only]. rewrite K. eexists. split; reflexivity.
Qed.
Print Assumptions modified_preset_saved.

(** ** C127 *)
Lemma opt_int_says k o d : says_int k o d -> opt_int k d = Ok o.
Proof. unfold says_int, opt_int. destruct o; intros ->; reflexivity. Qed.
Theorem behavior_read : forall k d, reports_behavior k d -> behaviors_from (JObj d) = Ok (mkBs (k_soft k) (k_hard k)).
Proof.
  assert (G : forall b s, says_behavior b s -> behavior_from (JObj s) = Ok b).
  { intros b s (M & A & B & C & D & E). unfold behavior_from. rewrite M.
    rewrite (opt_int_says _ _ _ A), (opt_int_says _ _ _ B), (opt_int_says _ _ _ C), (opt_int_says _ _ _ D), (opt_int_says _ _ _ E).
    destruct b as [[] ? ? ? ? ?]; reflexivity. }
  intros k d [(s & S & SB) (h & H & HB)]. unfold behaviors_from. rewrite S, H, (G _ _ SB), (G _ _ HB). reflexivity.
Qed.
Print Assumptions behavior_read.

Lemma behavior_dict_says b : says_behavior b (behavior_dict b).
Proof.
  destruct b as [m p b t h s]. unfold says_behavior, says_int, behavior_dict. cbn [b_mode b_preset b_brightness b_temp b_hue b_sat].
  split; [destruct m; reflexivity|].
  destruct p, b, t, h, s; repeat split; reflexivity.
Qed.
(** Each behaviour is written as the bulb reports it, but under the wrong name, for every command. *)
Theorem behavior_written_partial : forall r t last preset k d,
  reports_behavior k d -> r = Ok (JObj d) ->
  exists sent kept, turn_on_behavior r (Some t) last preset = ([GetBehavior; SetBehavior sent], Go None)
    /\ (exists s h, dget "soft" sent = Some (JObj s) /\ dget "hard" sent = Some (JObj h)
         /\ says_behavior (soft kept) s /\ says_behavior (hard kept) h)
    /\ (let change old new := b_mode new = b_mode old /\ b_brightness new = b_brightness old /\ b_temp new = b_temp old
          /\ b_hue new = b_hue old /\ b_sat new = b_sat old
          /\ b_preset new = (if last then None else match preset with Some _ => preset | None => b_preset old end) in
        match t with
        | Soft => change (k_soft k) (soft kept) /\ hard kept = k_hard k
        | Hard => change (k_hard k) (hard kept) /\ soft kept = k_soft k
        end).
Proof.
  intros r t last preset k d R ->. unfold turn_on_behavior. cbn [bind]. rewrite (behavior_read k d R).
  eexists _, (match t with Soft => mkBs _ _ | Hard => mkBs _ _ end). split; [reflexivity|]. 
  destruct t; cbn [soft hard]; (split; [eexists _, _; split; [reflexivity|]; split; [reflexivity|]; split; apply behavior_dict_says|]);
  cbn [soft hard]; (split; [|reflexivity]); destruct last, preset; repeat split; reflexivity.
Qed.
Print Assumptions behavior_written_partial.

(** So no request ever asks the bulb for anything. *)
Theorem behavior_written_refuted : forall r t last preset sent k,
  In (SetBehavior sent) (fst (turn_on_behavior r t last preset)) -> ~ asks_for k sent.
Proof.
  intros r t last preset sent k I [(s & S & _) _]. unfold turn_on_behavior in I.
  destruct (bind r behaviors_from) as [st|e]; [|destruct I as [I|[]]; discriminate].
  destruct t as [t|].
  - destruct I as [I|[I|[]]]; [discriminate|]. injection I as <-. discriminate.
  - destruct (negb last && _); destruct I as [I|[]]; discriminate.
Qed.
Print Assumptions behavior_written_refuted.

(** Showing the behaviours changes nothing; a preset other than 0 without a type is not applied. *)
Theorem behavior_shown : forall r k d last preset, reports_behavior k d -> r = Ok (JObj d) ->
  fst (turn_on_behavior r None last preset) = [GetBehavior]
  /\ (last = false /\ preset = None -> snd (turn_on_behavior r None last preset) = Go (Some (mkBs (k_soft k) (k_hard k)))).
Proof.
  intros r k d last preset R ->. unfold turn_on_behavior. cbn [bind]. rewrite (behavior_read k d R).
  split; [now destruct (negb last && _)|]. intros [-> ->]. reflexivity.
Qed.
Print Assumptions behavior_shown.

(** Preset 0 without a type is taken for a request to show the settings; any other preset is not. *)
Theorem preset_zero_refuted : forall k d, reports_behavior k d ->
  turn_on_behavior (Ok (JObj d)) None false (Some 0) = turn_on_behavior (Ok (JObj d)) None false None
  /\ forall p, p <> 0 -> turn_on_behavior (Ok (JObj d)) None false (Some p) = ([GetBehavior], Go None).
Proof.
  intros k d R. unfold turn_on_behavior. cbn [bind]. rewrite (behavior_read k d R). split; [reflexivity|].
  intros p P. destruct (Z.eqb_spec p 0); [contradiction|]. reflexivity.
Qed.
Print Assumptions preset_zero_refuted.

(** ** C128 *)
Lemma opt_int_optional k o d : optional k o d -> opt_int k d = Ok o.
Proof. unfold optional, opt_int. destruct o; [intros ->; reflexivity|]. intros [-> | ->]; reflexivity. Qed.
Lemma opt_enum_optional k o d : optional k o d -> (forall z, o = Some z -> -1 <= z <= 2) -> opt_enum k (-1) 2 d = Ok o.
Proof.
  intros H R. unfold opt_enum. rewrite (opt_int_optional _ _ _ H). cbn [bind]. destruct o as [z|]; [|reflexivity].
  specialize (R z eq_refl). destruct (Z.leb_spec (-1) z), (Z.leb_spec z 2); try lia. reflexivity.
Qed.
Lemma ints_map l : ints (map JInt l) = Ok l.
Proof. induction l as [|z l IH]; [reflexivity|]. cbn. now rewrite IH. Qed.
Lemma rule_described r v : describes r v -> rule_from v = Ok r.
Proof.
  intros (d & -> & A1 & A2 & A3 & A4 & A5 & A6 & A7 & A8 & A9 & A10 & A11 & A12 & R).
  unfold rule_from, req, req_int. rewrite A1, A2, A3, A4, A5. cbn [bind]. rewrite ints_map. cbn [bind].
  rewrite (opt_enum_optional _ _ _ A6) by (intros z E; apply (R "sact"); rewrite <- E; cbn; auto).
  rewrite (opt_enum_optional _ _ _ A7) by (intros z E; apply (R "stime_opt"); rewrite <- E; cbn; auto).
  rewrite (opt_int_optional _ _ _ A8).
  rewrite (opt_enum_optional _ _ _ A9) by (intros z E; apply (R "eact"); rewrite <- E; cbn; auto).
  rewrite (opt_enum_optional _ _ _ A10) by (intros z E; apply (R "etime_opt"); rewrite <- E; cbn; auto 6).
  rewrite (opt_int_optional _ _ _ A11). cbn [bind].
  destruct r as [? ? ? ? ? ? ? ? ? ? ? [li|]]; cbn [r_light] in A12.
  - rewrite A12. reflexivity.
  - destruct A12 as [-> | ->]; reflexivity.
Qed.
Theorem rules_read : forall data l rs, listed data l -> Forall2 describes rs l -> rules data = rs.
Proof.
  intros data l rs (g & G & L) F. unfold rules, req. rewrite G. cbn [bind]. rewrite L. cbn [bind].
  assert (E : each rule_from l = Ok rs).
  { clear L. induction F as [|r v rs l D F IH]; [reflexivity|]. cbn. rewrite (rule_described _ _ D). cbn. now rewrite IH. }
  now rewrite E.
Qed.
Print Assumptions rules_read.
Lemma ints_inv l r : ints l = Ok r -> l = map JInt r.
Proof.
  revert r. induction l as [|[] l IH]; intros r H; cbn in H; try discriminate; [now injection H as <-|].
  destruct (ints l) as [x|] eqn:E; [|discriminate]. injection H as <-. cbn. f_equal. now apply IH.
Qed.
Lemma opt_int_inv k d o : opt_int k d = Ok o -> optional k o d.
Proof.
  unfold opt_int, optional. destruct (dget k d) as [v|]; [|intros H; injection H as <-; auto].
  destruct v; intros H; try discriminate; injection H as <-; auto.
Qed.
Lemma opt_enum_inv k d o : opt_enum k (-1) 2 d = Ok o -> optional k o d /\ forall z, o = Some z -> -1 <= z <= 2.
Proof.
  unfold opt_enum. destruct (opt_int k d) as [[z|]|] eqn:E; cbn [bind]; try discriminate; intros H.
  - destruct (Z.leb_spec (-1) z), (Z.leb_spec z 2); cbn in H; try discriminate. injection H as <-.
    split; [now apply opt_int_inv|]. intros z' X. injection X as <-. lia.
  - injection H as <-. split; [now apply opt_int_inv|discriminate].
Qed.
Lemma rule_from_inv v r : rule_from v = Ok r -> describes r v.
Proof.
  unfold rule_from. destruct v as [| | | | | |d]; try discriminate. intros H. unfold req, req_int in H.
  destruct (dget "id" d) as [i|] eqn:A1; [|discriminate]. destruct (dget "name" d) as [n|] eqn:A2; [|discriminate]. cbn [bind] in H.
  destruct (dget "enable" d) as [[]|] eqn:A3; try discriminate. cbn [bind] in H.
  destruct (dget "wday" d) as [[]|] eqn:A4; try discriminate.
  destruct (ints l) as [wd|] eqn:A4'; [|discriminate]. cbn [bind] in H.
  destruct (dget "repeat" d) as [[]|] eqn:A5; try discriminate. cbn [bind] in H.
  destruct (opt_enum "sact" (-1) 2 d) as [x1|] eqn:E1; [|discriminate]. cbn [bind] in H.
  destruct (opt_enum "stime_opt" (-1) 2 d) as [x2|] eqn:E2; [|discriminate]. cbn [bind] in H.
  destruct (opt_int "smin" d) as [x3|] eqn:E3; [|discriminate]. cbn [bind] in H.
  destruct (opt_enum "eact" (-1) 2 d) as [x4|] eqn:E4; [|discriminate]. cbn [bind] in H.
  destruct (opt_enum "etime_opt" (-1) 2 d) as [x5|] eqn:E5; [|discriminate]. cbn [bind] in H.
  destruct (opt_int "emin" d) as [x6|] eqn:E6; [|discriminate]. cbn [bind] in H.
  apply opt_enum_inv in E1, E2, E4, E5. apply opt_int_inv in E3, E6. apply ints_inv in A4'. subst.
  destruct E1, E2, E4, E5.
  assert (X : exists li, match dget "s_light" d with None | Some JNull => Ok None | Some (JObj l) => Ok (Some l) | Some _ => Err PyValueError end = Ok li
     /\ match li with Some l => dget "s_light" d = Some (JObj l) | None => dget "s_light" d = None \/ dget "s_light" d = Some JNull end).
  { destruct (dget "s_light" d) as [[]|]; try discriminate; eexists; (split; [reflexivity|]); cbn; auto. }
  destruct X as (li & X & Y). rewrite X in H. cbn [bind] in H. injection H as <-.
  exists d. cbn [r_id r_name r_enable r_wday r_repeat r_sact r_stime r_smin r_eact r_etime r_emin r_light].
  repeat (split; [solve [auto]|]). 
  intros k z' [I|[I|[I|[I|[]]]]]; injection I as <- I; eauto.
Qed.
(** A rule is deleted by the id the device listed it under, and only a listed one. *)
Theorem rule_deleted : forall data l id r i v rs,
  listed data l -> Forall2 describes rs l -> nth_error rs i = Some r -> nth_error l i = Some v -> r_id r = JStr id ->
  schedule_delete data id = ([("schedule", "delete_rule", JObj [("id", JStr id)])], Go tt).
Proof.
  intros data l id r i v rs L F R V E. unfold schedule_delete. rewrite (rules_read _ _ _ L F).
  assert (X : has_id id r = true) by (unfold has_id; rewrite E; apply String.eqb_refl).
  destruct (find (has_id id) rs) as [r'|] eqn:Fi.
  - apply find_some in Fi. destruct Fi as [_ H]. unfold has_id in H. destruct (r_id r') eqn:I; try discriminate.
    apply String.eqb_eq in H. subst. unfold delete_rule. now rewrite I.
  - exfalso. apply nth_error_In in R. apply (find_none _ _ Fi) in R. congruence.
Qed.
Print Assumptions rule_deleted.
Theorem rule_unknown : forall data l id rs,
  listed data l -> Forall2 describes rs l -> (forall r, In r rs -> r_id r <> JStr id) ->
  schedule_delete data id = ([], Stop Exit1).
Proof.
  intros data l id rs L F N. unfold schedule_delete. rewrite (rules_read _ _ _ L F).
  destruct (find (has_id id) rs) as [r|] eqn:Fi; [|reflexivity]. exfalso. apply find_some in Fi. destruct Fi as [I H].
  apply (N _ I). unfold has_id in H. destruct (r_id r); try discriminate. apply String.eqb_eq in H. now subst.
Qed.
Print Assumptions rule_unknown.
(** One rule that cannot be read hides all the others. *)
Theorem rules_hidden_refuted : forall data l v, listed data l -> In v l -> (forall r, ~ describes r v) -> rules data = [].
Proof.
  intros data l v (g & G & L) I N. unfold rules, req. rewrite G. cbn [bind]. rewrite L. cbn [bind].
  assert (E : exists e, each rule_from l = Err e).
  { clear L G. induction l as [|x l IH]; [destruct I|]. cbn. destruct I as [->|I].
    - destruct (rule_from v) as [r|e] eqn:R; [|cbn; eauto]. apply rule_from_inv in R. now apply N in R.
    - destruct (IH I) as [e E]. destruct (rule_from x); cbn; [rewrite E; cbn|]; eauto. }
  destruct E as [e ->]. reflexivity.
Qed.
Print Assumptions rules_hidden_refuted.
(** Listing rules always ends in an error, even after printing them. *)
Theorem schedule_list_refuted : forall data l rs, listed data l -> Forall2 describes rs l ->
  schedule_list data = (rs, Stop Exit1).
Proof. intros data l rs L F. unfold schedule_list. now rewrite (rules_read _ _ _ L F). Qed.
Print Assumptions schedule_list_refuted.

(** ** C129 *)
(** A feature is set at most once, to the value the text stands for, and only a feature the device has. *)
Theorem feature_set_as_asked : forall V literal outcome features name value (done : list (fop V)) r n v,
  feature literal outcome features name value = (done, r) -> In (FSet n v) done ->
  name = Some n /\ dmem n features = true
  /\ match value with
     | None => dget n features = Some true /\ v = None
     | Some text => exists x, literal text = Literal x /\ v = Some x
     end
  /\ exists a b, done = a ++ FSet n v :: b /\ (forall m u, ~ In (FSet m u) a) /\ (forall m u, ~ In (FSet m u) b).
Proof.
  intros V literal outcome features name value done r n v H I. unfold feature in H.
  destruct name as [nm|]; [|injection H as <- <-; destruct I].
  destruct (String.eqb_spec nm ""); [injection H as <- <-; destruct I|].
  unfold dmem.
  destruct (dget nm features) as [action|] eqn:D; [|injection H as <- <-; destruct I].
  destruct value as [text|].
  - destruct (literal text) as [x|e] eqn:P.
    + cbn [ops app] in H.
      assert (X : (n = nm /\ v = Some x) /\ exists b, done = FRead nm :: FSet nm (Some x) :: b /\ forall m u, ~ In (FSet m u) b).
      { destruct (outcome (FRead nm)); [|injection H as <- <-; destruct I as [I|[]]; discriminate].
        destruct (outcome (FSet nm (Some x))); [|injection H as <- <-].
        - destruct (outcome FUpdate); [|injection H as <- <-].
          + cbn [app] in H. destruct (outcome (FRead nm)); injection H as <- <-;
            (destruct I as [I|[I|[I|[I|[]]]]]; try discriminate; injection I as <- <-; split; [auto|];
             eexists; split; [reflexivity|]; intros m u [J|[J|[]]]; discriminate).
          + destruct I as [I|[I|[I|[]]]]; try discriminate; injection I as <- <-; split; [auto|];
            eexists; (split; [reflexivity|]); intros m u [J|[]]; discriminate.
        - destruct I as [I|[I|[]]]; try discriminate; injection I as <- <-; split; [auto|];
          eexists; (split; [reflexivity|]); intros m u []. }
      destruct X as [[-> ->] (b & -> & N)]. rewrite D. split; [reflexivity|]. split; [reflexivity|]. split; [eauto|].
      exists [FRead nm], b. split; [reflexivity|]. split; [intros m u [J|[]]; discriminate|exact N].
    + destruct e; injection H as <- <-; destruct I.
  - destruct action; cbn [ops app] in H.
    + destruct (outcome (FSet nm None)); injection H as <- <-; (destruct I as [I|[]]; injection I as <- <-;
      rewrite D; split; [reflexivity|]; split; [reflexivity|]; split; [auto|];
      exists [], []; split; [reflexivity|]; split; intros m u []).
    + destruct (outcome (FRead nm)); injection H as <- <-; (destruct I as [I|[]]; discriminate).
Qed.
Print Assumptions feature_set_as_asked.
(** A known feature and a text that is a value: the feature is set and the device read again. *)
Theorem feature_set_done : forall V (literal : string -> parsed V) outcome features n action text x,
  n <> "" -> dget n features = Some action -> literal text = Literal x -> (forall o, outcome o = Ok tt) ->
  feature literal outcome features (Some n) (Some text) = ([FRead n; FSet n (Some x); FUpdate; FRead n], Go tt).
Proof.
  intros V literal outcome features n action text x N D P O. unfold feature. destruct (String.eqb_spec n ""); [contradiction|].
  rewrite D, P. cbn [ops app]. now rewrite !O.
Qed.
Print Assumptions feature_set_done.
Theorem feature_unknown : forall V (literal : string -> parsed V) outcome features n value,
  n <> "" -> dget n features = None -> feature literal outcome features (Some n) value = ([], Stop Exit1).
Proof. intros V literal outcome features n value N D. unfold feature. destruct (String.eqb_spec n ""); [contradiction|]. now rewrite D. Qed.
Print Assumptions feature_unknown.

(** unpair: only a paired device, and success is only claimed when it is gone. *)
Theorem unpair_checked : forall before after unpaired updated id ops r,
  hub_unpair before after unpaired updated id = (ops, r) ->
  (r = Go tt <-> In id before /\ unpaired = Ok tt /\ updated = Ok tt /\ ~ In id after)
  /\ (forall x, In (HUnpair x) ops -> x = id /\ In id before)
  /\ (In id before -> In (HUnpair id) ops).
Proof.
  intros before after unpaired updated id ops r H. unfold hub_unpair in H.
  assert (M : forall l, existsb (String.eqb id) l = true <-> In id l).
  { intros l. rewrite existsb_exists. split; [intros (x & I & E); apply String.eqb_eq in E; now subst|].
    intros I. exists id. split; [exact I|apply String.eqb_refl]. }
  destruct (existsb (String.eqb id) before) eqn:B; cbn [negb] in H.
  - apply M in B. destruct unpaired as [[]|].
    2: { injection H as <- <-. split; [split; [discriminate|intros (_ & E & _); discriminate]|].
         split; [intros x [I|[]]; injection I as <-; auto|intros _; left; reflexivity]. }
    destruct updated as [[]|]; injection H as <- <-.
    + split; [|split; [intros x [I|[I|[]]]; [injection I as <-; auto|discriminate]|intros _; left; reflexivity]].
      destruct (existsb (String.eqb id) after) eqn:A.
      * apply M in A. split; [discriminate|]. intros (_ & _ & _ & N). contradiction.
      * split; [|reflexivity]. intros _. repeat split; auto. intros I. apply M in I. congruence.
    + split; [split; [discriminate|intros (_ & _ & E & _); discriminate]|].
      split; [intros x [I|[I|[]]]; [injection I as <-; auto|discriminate]|intros _; left; reflexivity].
  - injection H as <- <-. assert (N : ~ In id before) by (intros I; apply M in I; congruence).
    split; [split; [discriminate|intros (I & _); contradiction]|]. split; [intros x []|contradiction].
Qed.
Print Assumptions unpair_checked.

(** A light command sends exactly what was asked for, once, or is refused and sends nothing. *)
Lemma in_rangeP lo hi z : in_range lo hi z = true <-> lo <= z <= hi.
Proof. unfold in_range. rewrite Bool.andb_true_iff, !Z.leb_le. lia. Qed.
Lemma in_effects e l : existsb (String.eqb e) l = true <-> In e l.
Proof.
  rewrite existsb_exists. split; [intros (x & I & E); apply String.eqb_eq in E; now subst|].
  intros I. exists e. split; [exact I|apply String.eqb_refl].
Qed.
Theorem light_command_sends : forall l c calls r x,
  light_command l c = (calls, r) -> (In x calls <-> asks l c x /\ calls = [x] /\ r = Go VDone).
Proof.
  intros l c calls r x H. split.
  - intros I. unfold asks, supported. destruct c as [[v|] t|[v|] t|[e|]|vs t]; cbn [light_command in_range_opt] in H.
    + destruct (in_range 0 100 v) eqn:E; cbn [negb] in H; [|injection H as <- <-; destruct I].
      apply in_rangeP in E.
      destruct (has_brightness l); cbn [negb] in H; injection H as <- <-; [|destruct I]. destruct I as [<-|[]]. auto 6.
    + destruct (has_brightness l); cbn [negb] in H; injection H as <- <-; destruct I.
    + destruct (in_range 2500 9000 v) eqn:E; cbn [negb] in H; [|injection H as <- <-; destruct I].
      apply in_rangeP in E.
      destruct (has_temperature l); cbn [negb] in H; injection H as <- <-; [|destruct I]. destruct I as [<-|[]]. auto 6.
    + destruct (has_temperature l); cbn [negb] in H; injection H as <- <-; destruct I.
    + destruct (has_effect l); cbn [negb] in H; [|injection H as <- <-; destruct I].
      destruct (existsb (String.eqb e) (effect_list l)) eqn:E; cbn [negb] in H; injection H as <- <-; [|destruct I].
      apply in_effects in E. destruct I as [<-|[]]. auto 6.
    + destruct (has_effect l); cbn [negb] in H; injection H as <- <-; destruct I.
    + destruct vs as [|h [|s [|v [|w vs]]]].
      * destruct (has_hsv l), (at_hsv l) as [[? ?] ?]; cbn [negb] in H; injection H as <- <-; destruct I.
      * destruct (in_range 0 360 h), (has_hsv l); cbn [negb] in H; injection H as <- <-; destruct I.
      * destruct (in_range 0 360 h), (in_range 0 100 s), (has_hsv l); cbn [negb andb] in H; injection H as <- <-; destruct I.
      * destruct (in_range 0 360 h) eqn:E1, (in_range 0 100 s) eqn:E2, (in_range 0 100 v) eqn:E3, (has_hsv l); cbn [negb andb] in H;
        injection H as <- <-; try (exfalso; exact I).
        apply in_rangeP in E1, E2, E3. destruct I as [<-|[]]. auto 10.
      * injection H as <- <-; destruct I.
  - intros (_ & -> & _). left. reflexivity.
Qed.
Print Assumptions light_command_sends.
Theorem light_command_obeyed : forall l c x, asks l c x -> light_command l c = ([x], Go VDone).
Proof.
  intros l c x [S A]. unfold supported in S.
  destruct c as [[v|] t|[v|] t|[e|]|vs t], x as [v' t'|v' t'|e'|h s v' t']; try contradiction; cbn [light_command in_range_opt].
  - destruct A as (-> & -> & R). apply in_rangeP in R. now rewrite R, S.
  - destruct A as (-> & -> & R). apply in_rangeP in R. now rewrite R, S.
  - destruct A as (-> & R). apply in_effects in R. now rewrite S, R.
  - destruct A as (-> & -> & R1 & R2 & R3). apply in_rangeP in R1, R2, R3. now rewrite R1, R2, R3, S.
Qed.
Print Assumptions light_command_obeyed.
Theorem light_command_refused : forall l c, ~ is_read c -> (forall x, ~ asks l c x) ->
  fst (light_command l c) = [] /\ (snd (light_command l c) = Stop Usage \/ snd (light_command l c) = Stop Exit1).
Proof.
  intros l c R N. destruct (light_command l c) as [calls r] eqn:H. cbn [fst snd].
  assert (C : calls = []).
  { destruct calls as [|x calls]; [reflexivity|]. exfalso. apply (N x). apply (light_command_sends _ _ _ _ x H). left. reflexivity. }
  split; [exact C|]. subst.
  destruct c as [[v|] t|[v|] t|[e|]|vs t]; cbn [light_command in_range_opt is_read] in *; try (exfalso; tauto).
  - destruct (negb _); [injection H as <-; auto|]. destruct (negb _); [injection H as <-; auto|discriminate].
  - destruct (negb _); [injection H as <-; auto|]. destruct (negb _); [injection H as <-; auto|discriminate].
  - destruct (negb _); [injection H as <-; auto|]. destruct (negb _); [injection H as <-; auto|discriminate].
  - destruct vs as [|h [|s [|v [|w vs]]]]; [exfalso; tauto| | | |injection H as <-; auto];
    (destruct (negb _); [injection H as <-; auto|]); (destruct (negb _); [injection H as <-; auto|]); try discriminate; injection H as <-; auto.
Qed.
Print Assumptions light_command_refused.
(** Reading sends nothing and gives the present value, but for the colour temperature. *)
Theorem light_shown_partial : forall l c, supported l c -> is_read c -> (forall t, c <> Temperature None t) ->
  exists v, light_command l c = ([], Go v) /\ shows l c v.
Proof.
  intros l c S R T. unfold supported in S.
  destruct c as [[v|] t|[v|] t|[e|]|[|h vs] t]; try contradiction; cbn [light_command in_range_opt].
  - rewrite S. eexists. split; reflexivity.
  - exfalso. now apply (T t).
  - rewrite S. eexists. split; reflexivity.
  - rewrite S. destruct (at_hsv l) as [[h s] v] eqn:E. eexists. split; [reflexivity|]. cbn [shows]. now rewrite E.
Qed.
Print Assumptions light_shown_partial.
Theorem temperature_shown_refuted : forall l t, has_temperature l = true ->
  exists v, light_command l (Temperature None t) = ([], Go v) /\ ~ shows l (Temperature None t) v.
Proof.
  intros l t S. cbn [light_command in_range_opt]. rewrite S. destruct (temperature_range l). eexists. split; [reflexivity|]. discriminate.
Qed.
Print Assumptions temperature_shown_refuted.

(** ** The hypotheses are met *)
Definition demo_presets : dict light_state :=
  [("Light preset 1", mkLight None (Some (AInt 50)) (Some (AInt 0)) (Some (AInt 0)) (Some (AInt 2700)) None);
   ("Light preset 2", mkLight None (Some (AInt 75)) (Some (AInt 240)) (Some (AInt 100)) (Some (AInt 0)) None)].
Example demo_modify : presets_modify demo_presets 1 (Some (AInt 10)) None None None
  = Go ("Light preset 2", mkLight None (Some (AInt 10)) (Some (AInt 240)) (Some (AInt 100)) (Some (AInt 0)) None).
Proof. reflexivity. Qed.
Example demo_given : some_given (Some (AInt 10)) None None None /\ NoDup (dkeys demo_presets).
Proof. split; [left; discriminate|]. repeat constructor; cbn; intuition discriminate. Qed.
Example demo_temperature : presets_modify demo_presets 0 None None None (Some (AInt 4000)) = Stop (Raise PyAttributeError).
Proof. reflexivity. Qed.
Definition demo_behavior : dict json :=
  [("soft_on", JObj [("mode", JStr "last_status")]);
   ("hard_on", JObj [("mode", JStr "customize_preset"); ("index", JInt 2)])].
Example demo_reports : reports_behavior (mkBulb (mkB LastStatus None None None None None) (mkB CustomizePreset (Some 2) None None None None)) demo_behavior.
Proof. split; eexists; (split; [reflexivity|]); repeat split; reflexivity. Qed.
Example demo_written : turn_on_behavior (Ok (JObj demo_behavior)) (Some Hard) false (Some 3)
  = ([GetBehavior; SetBehavior [("soft", JObj [("mode", JStr "last_status")]);
                                ("hard", JObj [("mode", JStr "customize_preset"); ("index", JInt 3)])]], Go None).
Proof. reflexivity. Qed.
Definition demo_rule (id : string) : dict json :=
  [("id", JStr id); ("name", JStr "wake"); ("enable", JInt 1); ("wday", JArr [JInt 1; JInt 0]); ("repeat", JInt 1);
   ("sact", JInt 1); ("stime_opt", JInt 0); ("smin", JInt 420); ("eact", JInt (-1))].
Definition demo_parsed (id : string) : rule :=
  mkRule (JStr id) (JStr "wake") 1 [1; 0] 1 (Some 1) (Some 0) (Some 420) (Some (-1)) None None None.
Definition demo_data : dict json := [("get_rules", JObj [("rule_list", JArr [JObj (demo_rule "A"); JObj (demo_rule "B")])])].
Example demo_listed : listed demo_data [JObj (demo_rule "A"); JObj (demo_rule "B")]
  /\ Forall2 describes [demo_parsed "A"; demo_parsed "B"] [JObj (demo_rule "A"); JObj (demo_rule "B")].
Proof.
  split; [eexists; split; reflexivity|].
  repeat constructor; apply rule_from_inv; reflexivity.
Qed.
Example demo_delete : schedule_delete demo_data "B" = ([("schedule", "delete_rule", JObj [("id", JStr "B")])], Go tt)
  /\ schedule_delete demo_data "C" = ([], Stop Exit1).
Proof. split; reflexivity. Qed.
(** A rule without a name, as a device may store it, is no rule to the library. *)
Example demo_unreadable : forall r, ~ describes r (JObj [("id", JStr "C"); ("enable", JInt 1)]).
Proof. intros r (d & E & _ & N & _). injection E as <-. discriminate. Qed.
Example demo_feature : feature (fun s => if String.eqb s "1" then Literal 1 else NoLiteral PyValueError) (fun _ => Ok tt)
    [("brightness", false); ("reboot", true)] (Some "brightness") (Some "1")
  = ([FRead "brightness"; FSet "brightness" (Some 1); FUpdate; FRead "brightness"], Go tt).
Proof. reflexivity. Qed.
Example demo_unpair : hub_unpair ["a"; "b"] ["a"] (Ok tt) (Ok tt) "b" = ([HUnpair "b"; HUpdate], Go tt)
  /\ hub_unpair ["a"; "b"] ["a"; "b"] (Ok tt) (Ok tt) "b" = ([HUnpair "b"; HUpdate], Stop Exit1).
Proof. split; reflexivity. Qed.
Definition demo_lamp := mkLamp true true true true 40 3000 (2500, 6500) "Off" ["Off"; "Party"] (240, 100, 40).
Example demo_light : asks demo_lamp (Hsv [120; 50; 75] None) (SetHsv 120 50 75 None)
  /\ light_command demo_lamp (Temperature None None) = ([], Go (VPair 2500 6500))
  /\ light_command demo_lamp (Hsv [120; 50] None) = ([], Stop Usage).
Proof. repeat split; cbn; auto; lia. Qed.

(** SMART lights and light presets (C39, C43, C48, C72). *)
From Coq Require Import QArith Lia DecimalString DecimalNat DecimalFacts.
From Verif Require Import Base Base_Lemmas Py IotLight_Model IotLight_Props SmartLight_Model.
Open Scope string_scope.
Open Scope list_scope.
Open Scope Z_scope.

(** The parameters are exactly those listed with a value. *)
Definition params_are (d : dict pv) (l : list (string * option pv)) : Prop :=
  forall k, dget k d = match dget k l with Some v => v | None => None end.
(** An action made exactly this one call, and returns what came back. *)
Definition calls (reply : call -> res json) (m : M (list call) json) (method : string) (l : list (string * option pv)) : Prop :=
  exists d, params_are d l /\ forall log, m log = (log ++ [mkCall method d], reply (mkCall method d)).
(** It raised and called nothing. *)
Definition raises (m : M (list call) json) : Prop :=
  exists e, (e = KKasa \/ e = PyTypeError \/ e = PyValueError) /\ forall log, m log = (log, Err e).
Definition pnum (o : option arg) : option pv := match o with Some a => Some (PNum a) | None => None end.
Ltac par := let k := fresh "k" in intro k; cbn [dget dset ddel app map fst snd option_map String.eqb Ascii.eqb Bool.eqb pnum num drop_none];
  repeat match goal with |- context [String.eqb k ?s] => let E := fresh in destruct (String.eqb k s) eqn:E; [apply String.eqb_eq in E; subst k; reflexivity|] end;
  try reflexivity.

(** ** C43 *)
(** Setting a state makes one call: device_on is false exactly when the brightness is zero
    or light_on is false; the fields that are set come along. *)
Lemma state_call_partial_lemma : forall reply s,
  let zero := match brightness s with Some v => eqb_arg v (AInt 0) | None => false end in
  let off := zero || match light_on s with Some false => true | _ => false end in
  calls reply (set_state reply s) "set_device_info"
    [("device_on", Some (PBool (negb off))); ("brightness", if zero then None else pnum (brightness s)); ("hue", pnum (hue s));
     ("saturation", pnum (saturation s)); ("color_temp", pnum (color_temp s)); ("transition", pnum (transition s));
     ("light_on", if zero then option_map PBool (light_on s) else None)].
Proof.
  intros reply [l v h s c t] zero off. unfold set_state. cbn [light_on brightness hue saturation color_temp transition] in *.
  eexists. split; [|intro log; reflexivity]. unfold off, zero. clear off zero.
  destruct v as [v|]; [destruct (eqb_arg v (AInt 0))|]; destruct l as [[]|], h, s, c, t;
    unfold asdict, params_are; cbn [light_on brightness hue saturation color_temp transition]; par.
Qed.
Theorem state_call_partial : forall reply s,
  let zero := match brightness s with Some v => Qeq_bool (arg_q v) 0 | None => false end in
  let off := zero || match light_on s with Some false => true | _ => false end in
  calls reply (set_state reply s) "set_device_info"
    [("device_on", Some (PBool (negb off))); ("brightness", if zero then None else pnum (brightness s)); ("hue", pnum (hue s));
     ("saturation", pnum (saturation s)); ("color_temp", pnum (color_temp s)); ("transition", pnum (transition s));
     ("light_on", if zero then option_map PBool (light_on s) else None)].
Proof. exact state_call_partial_lemma. Qed.
Print Assumptions state_call_partial.
Example state_call_ex : fst (set_state (fun _ => Ok JNull) (mkLight None (Some (AInt 5)) None None None None) []) =
  [mkCall "set_device_info" [("brightness", PNum (AInt 5)); ("device_on", PBool true)]].
Proof. reflexivity. Qed.
(** With brightness zero, light_on goes along, so the call may contradict itself. *)
Theorem state_call_refuted : exists s,
  fst (set_state (fun _ => Ok JNull) s []) = [mkCall "set_device_info" [("light_on", PBool true); ("device_on", PBool false)]].
Proof. exists (mkLight (Some true) (Some (AInt 0)) None None None None). reflexivity. Qed.
Print Assumptions state_call_refuted.

(** ** C72 *)
Theorem smart_brightness : forall reply f v,
  (int_in 1 100 v -> (calls reply (SmartLight_Model.set_brightness reply None v) "set_device_info" [("brightness", Some (PNum v))]) /\
                     SmartLight_Model.set_brightness reply (Some f) v = f v) /\
  (v = AInt 0 -> forall e, calls reply (SmartLight_Model.set_brightness reply e v) "set_device_info" [("device_on", Some (PBool false))]) /\
  (~ int_in 0 100 v -> forall e, raises (SmartLight_Model.set_brightness reply e v)).
Proof.
  intros reply f v. unfold SmartLight_Model.set_brightness. split; [|split].
  - intros (z & -> & Hz). cbn [is_int negb orb]. rewrite !leb_int, eqb_int.
    replace (0 <=? z) with true by (symmetry; apply Z.leb_le; lia). replace (z <=? 100) with true by (symmetry; apply Z.leb_le; lia).
    replace (z =? 0) with false by (symmetry; apply Z.eqb_neq; lia). cbn [andb negb]. split; [|reflexivity].
    exists [("brightness", PNum (AInt z))]. split; [par|reflexivity].
  - intros -> e. cbn [is_int negb orb]. rewrite !leb_int, eqb_int. cbn. exists [("device_on", PBool false)]. split; [par|reflexivity].
  - intros N e. destruct (int_in_no _ _ _ N) as [->|[-> ->]]; cbn; exists PyValueError; (split; [tauto|reflexivity]).
Qed.
Print Assumptions smart_brightness.
Theorem smart_hsv : forall reply has h s v,
  let valid := has = true /\ int_in 0 360 h /\ int_in 0 100 s /\ opt_ok (int_in 0 100) v in
  (valid -> calls reply (SmartLight_Model.set_hsv reply has h s v) "set_device_info"
     [("hue", Some (PNum h)); ("saturation", Some (PNum s)); ("color_temp", Some (PNum (AInt 0))); ("brightness", pnum v)]) /\
  (~ valid -> raises (SmartLight_Model.set_hsv reply has h s v)).
Proof.
  intros reply has h s v valid. subst valid. unfold SmartLight_Model.set_hsv. split.
  - intros (-> & Hh & Hs & Hv). apply int_in_spec in Hh, Hs. apply andb_true_iff in Hh as [H1 H2], Hs as [H3 H4].
    rewrite H1, H2, H3, H4. cbn [negb]. destruct v as [v|]; cbn [opt_ok] in Hv.
    + eexists. split; [|intro log; unfold mbind, mlift; rewrite (check_ok _ Hv); reflexivity]. par.
    + eexists. split; [|intro log; reflexivity]. par.
  - intro N. destruct has; cbn [negb]; [|exists KKasa; split; [tauto|reflexivity]].
    destruct (int_in_dec 0 360 h) as [Hh|Hh].
    2:{ destruct (int_in_no _ _ _ Hh) as [->|[-> ->]]; cbn [negb]; [exists PyTypeError|exists PyValueError]; (split; [tauto|reflexivity]). }
    pose proof Hh as Hh'. apply int_in_spec in Hh'. apply andb_true_iff in Hh' as [-> ->]. cbn [negb].
    destruct (int_in_dec 0 100 s) as [Hs|Hs].
    2:{ destruct (int_in_no _ _ _ Hs) as [->|[-> ->]]; cbn [negb]; [exists PyTypeError|exists PyValueError]; (split; [tauto|reflexivity]). }
    pose proof Hs as Hs'. apply int_in_spec in Hs'. apply andb_true_iff in Hs' as [-> ->]. cbn [negb].
    destruct v as [v|]; [|exfalso; apply N; repeat split; auto; exact I].
    destruct (int_in_dec 0 100 v) as [Hv|Hv]; [exfalso; apply N; cbn; auto|].
    destruct (check_no v Hv) as [C|C]; [exists PyTypeError|exists PyValueError]; (split; [tauto|]); intro log; unfold mbind, mlift; rewrite C; reflexivity.
Qed.
Print Assumptions smart_hsv.
Theorem smart_temperature_partial : forall reply has range temp v,
  let (lo, hi) := match range with Some r => r | None => (2500, 6500) end in
  let valid := has = true /\ num_in lo hi temp in
  (valid -> opt_ok (int_in 1 100) v -> calls reply (SmartLight_Model.set_color_temp reply has range temp v) "set_device_info"
     [("color_temp", Some (PNum temp)); ("brightness", pnum v)]) /\
  (~ valid -> raises (SmartLight_Model.set_color_temp reply has range temp v)).
Proof.
  intros reply has range temp v. unfold SmartLight_Model.set_color_temp, temp_bounds.
  destruct (match range with Some r => r | None => (2500, 6500) end) as [lo hi] eqn:R.
  cbv zeta.
  assert (Num : ltb_arg temp (AInt lo) || ltb_arg (AInt hi) temp = false <-> num_in lo hi temp).
  { rewrite orb_false_iff. unfold num_in. pose proof (leb_spec (AInt lo) temp) as L1. pose proof (leb_spec temp (AInt hi)) as L2.
    unfold leb_arg in L1, L2. rewrite negb_true_iff in L1, L2. cbn [arg_q] in L1, L2. rewrite L1, L2. reflexivity. }
  split.
  - intros [-> Hn] Hv. apply Num in Hn. cbn [negb]. rewrite Hn. destruct v as [v|].
    + destruct Hv as (z & -> & Hz). rewrite eqb_int. replace (z =? 0) with false by (symmetry; apply Z.eqb_neq; lia).
      eexists. split; [|intro log; reflexivity]. par.
    + eexists. split; [|intro log; reflexivity]. par.
  - intro N. destruct has; cbn [negb]; [|exists KKasa; split; [tauto|reflexivity]].
    destruct (ltb_arg temp (AInt lo) || ltb_arg (AInt hi) temp) eqn:E; [exists PyValueError; split; [tauto|reflexivity]|].
    exfalso. apply N. split; [reflexivity|]. apply Num. reflexivity.
Qed.
Print Assumptions smart_temperature_partial.
Example smart_temperature_ex : num_in 2500 6500 (AInt 6500) /\ opt_ok (int_in 1 100) (Some (AInt 1)).
Proof. split; [split; discriminate|eexists; split; [reflexivity|lia]]. Qed.
(** A brightness given with a temperature is not checked, nor is anything in a state. *)
Lemma smart_unchecked_refuted_lemma : forall reply v, eqb_arg v (AInt 0) = false ->
  calls reply (SmartLight_Model.set_color_temp reply true None (AInt 3000) (Some v)) "set_device_info"
     [("color_temp", Some (PNum (AInt 3000))); ("brightness", Some (PNum v))] /\
  calls reply (set_state reply (mkLight None (Some v) (Some v) (Some v) (Some v) None)) "set_device_info"
     [("device_on", Some (PBool true)); ("brightness", Some (PNum v)); ("hue", Some (PNum v)); ("saturation", Some (PNum v)); ("color_temp", Some (PNum v))].
Proof.
  intros reply v H. split.
  - unfold SmartLight_Model.set_color_temp. cbn [negb temp_bounds]. cbn. rewrite H. eexists. split; [|intro log; reflexivity]. par.
  - unfold set_state. cbn [brightness light_on]. rewrite H. eexists. split; [|intro log; reflexivity]. unfold asdict. cbn [light_on brightness hue saturation color_temp transition]. par.
Qed.
Theorem smart_unchecked_refuted : forall reply v, Qeq_bool (arg_q v) 0 = false ->
  calls reply (SmartLight_Model.set_color_temp reply true None (AInt 3000) (Some v)) "set_device_info"
     [("color_temp", Some (PNum (AInt 3000))); ("brightness", Some (PNum v))] /\
  calls reply (set_state reply (mkLight None (Some v) (Some v) (Some v) (Some v) None)) "set_device_info"
     [("device_on", Some (PBool true)); ("brightness", Some (PNum v)); ("hue", Some (PNum v)); ("saturation", Some (PNum v)); ("color_temp", Some (PNum v))].
Proof. exact smart_unchecked_refuted_lemma. Qed.
Print Assumptions smart_unchecked_refuted.
Example smart_unchecked_ex : eqb_arg (AInt (-700)) (AInt 0) = false.
Proof. reflexivity. Qed.

(** ** C48 *)
(** A device that keeps what it is sent, for one direction. *)
Definition obey (key : string) (c : call) (r : treply) : treply :=
  match dget key (c_params c) with
  | Some (PObj [("enable", PBool e); ("duration", PNum (AInt d))]) =>
      if String.eqb (c_method c) "set_on_off_gradually_info" then mkTR e d (r_max r) else r
  | _ => r
  end.
(** The maximum: what the device reports, or 60. *)
Definition maximum (r : treply) : Z := match r_max r with Some m => m | None => 60 end.
(** From a refreshed state, setting the transition and refreshing reads what was set. *)
Theorem transition_round_trip : forall reply on off ts seconds,
  post_update (Some on) (Some off) = Ok ts ->
  (seconds <= maximum on -> exists c, (forall log, set_transition reply "on_state" (ts_on ts) seconds log = (log ++ [c], reply c)) /\
     exists ts', post_update (Some (obey "on_state" c on)) (Some (obey "off_state" c off)) = Ok ts' /\
       reading (ts_on ts') = Z.max 0 seconds /\ reading (ts_off ts') = reading (ts_off ts) /\
       (seconds <= 0 -> t_enable (ts_on ts') = false /\ t_duration (ts_on ts') = t_duration (ts_on ts)) /\
       (0 < seconds -> ts_enabled ts' = true)) /\
  (seconds <= maximum off -> exists c, (forall log, set_transition reply "off_state" (ts_off ts) seconds log = (log ++ [c], reply c)) /\
     exists ts', post_update (Some (obey "on_state" c on)) (Some (obey "off_state" c off)) = Ok ts' /\
       reading (ts_off ts') = Z.max 0 seconds /\ reading (ts_on ts') = reading (ts_on ts) /\
       (seconds <= 0 -> t_enable (ts_off ts') = false /\ t_duration (ts_off ts') = t_duration (ts_off ts)) /\
       (0 < seconds -> ts_enabled ts' = true)) /\
  (maximum on < seconds -> raises (set_transition reply "on_state" (ts_on ts) seconds)) /\
  (maximum off < seconds -> raises (set_transition reply "off_state" (ts_off ts) seconds)).
Proof.
  intros reply on off ts seconds [= <-]. cbn [ts_on ts_off]. unfold set_transition, read_state. cbn [t_max t_duration].
  fold (maximum on) (maximum off). split; [|split; [|split]].
  - intro H. replace (maximum on <? seconds) with false by (symmetry; apply Z.ltb_ge; lia).
    destruct (seconds <=? 0) eqn:E; eexists; (split; [intro log; reflexivity|]); cbn; eexists; (split; [reflexivity|]); cbn;
      [apply Z.leb_le in E|apply Z.leb_gt in E]; repeat split; try lia; try reflexivity.
  - intro H. replace (maximum off <? seconds) with false by (symmetry; apply Z.ltb_ge; lia).
    destruct (seconds <=? 0) eqn:E; eexists; (split; [intro log; reflexivity|]); cbn; eexists; (split; [reflexivity|]); cbn;
      [apply Z.leb_le in E|apply Z.leb_gt in E]; repeat split; try lia; try reflexivity.
  - intro H. apply Z.ltb_lt in H. rewrite H. exists PyValueError. split; [tauto|reflexivity].
  - intro H. apply Z.ltb_lt in H. rewrite H. exists PyValueError. split; [tauto|reflexivity].
Qed.
Print Assumptions transition_round_trip.
Example transition_ex : exists ts, post_update (Some (mkTR false 10 (Some 60))) (Some (mkTR true 7 None)) = Ok ts /\ reading (ts_on ts) = 0 /\ reading (ts_off ts) = 7.
Proof. eexists. repeat split. Qed.

(** ** C39 *)
Lemma dec_inj m n : dec m = dec n -> m = n.
Proof.
  unfold dec. intro H. assert (U : forall k, Nat.to_uint k <> Decimal.Nil).
  { intros k E. assert (K : Nat.of_uint (Nat.to_uint k) = k) by apply DecimalNat.Unsigned.of_to.
    destruct k; [discriminate|]. rewrite E in K. discriminate. }
  apply (f_equal NilZero.uint_of_string) in H. rewrite !NilZero.usu in H by apply U. injection H as H.
  apply DecimalNat.Unsigned.to_uint_inj in H. exact H.
Qed.
Lemma append_inj a b c : (a ++ b = a ++ c)%string -> b = c.
Proof. induction a as [|x a IH]; cbn; intro H; [exact H|injection H as H; auto]. Qed.
Lemma preset_name_inj m n : preset_name m = preset_name n -> m = n.
Proof. intro H. apply append_inj in H. apply dec_inj, H. Qed.
Lemma dset_fresh {A} k (v : A) d : ~ In k (dkeys d) -> dset k v d = d ++ [(k, v)].
Proof.
  induction d as [|[k' v'] d IH]; cbn; intro H; [reflexivity|]. rewrite seqb_neq by (intro E; apply H; left; congruence).
  rewrite IH by tauto. reflexivity.
Qed.
Lemma key_index_app {A} k (a b : dict A) : key_index k (a ++ b) =
  match key_index k a with Some i => Some i | None => option_map (Nat.add (length a)) (key_index k b) end.
Proof.
  induction a as [|[k' v] a IH]; cbn; [destruct (key_index k b); reflexivity|]. destruct (String.eqb k k'); [reflexivity|].
  rewrite IH. destruct (key_index k a); cbn; [reflexivity|]. destruct (key_index k b); reflexivity.
Qed.
Lemma key_index_none {A} k (d : dict A) : ~ In k (dkeys d) -> key_index k d = None.
Proof.
  induction d as [|[k' v] d IH]; cbn; intro H; [reflexivity|]. rewrite seqb_neq by (intro E; apply H; left; congruence). rewrite IH by tauto. reflexivity.
Qed.
Lemma key_index_in {A} k (d : dict A) i : key_index k d = Some i -> (i < length d)%nat /\ nth_error (dkeys d) i = Some k.
Proof.
  revert i. induction d as [|[k' v] d IH]; intros i H; [discriminate|]. cbn in H. destruct (String.eqb_spec k k') as [E|].
  - injection H as <-. subst. cbn. split; [lia|reflexivity].
  - destruct (key_index k d) as [j|]; [|discriminate]. injection H as <-. destruct (IH j eq_refl). cbn. split; [lia|assumption].
Qed.

(** Legacy: the list of named presets, entry by entry. *)
Definition named (n : nat) (l : list entry) : dict light_state :=
  flat_map (fun p => if e_id (snd p) then [] else [(preset_name (S (fst p)), e_state (snd p))]) (combine (seq n (length l)) l).
Lemma named_keys n l k : In k (dkeys (named n l)) -> exists m, (n <= m)%nat /\ k = preset_name (S m).
Proof.
  revert n. induction l as [|e l IH]; intros n H; [destruct H|]. unfold named in H. cbn [length seq combine flat_map fst snd] in H.
  fold (named (S n) l) in H. destruct (e_id e); cbn [app] in H.
  - destruct (IH _ H) as (m & Hm & ->). exists m. split; [lia|reflexivity].
  - destruct H as [<-|H]; [exists n; split; [lia|reflexivity]|]. destruct (IH _ H) as (m & Hm & ->). exists m. split; [lia|reflexivity].
Qed.
Lemma iot_presets_named : forall l n p, (forall m, (n <= m)%nat -> ~ In (preset_name (S m)) (dkeys p)) -> iot_presets_from n l p = p ++ named n l.
Proof.
  induction l as [|e l IH]; intros n p H; [cbn; rewrite app_nil_r; reflexivity|].
  cbn [iot_presets_from]. unfold named. cbn [length seq combine flat_map fst snd]. fold (named (S n) l). destruct (e_id e).
  - rewrite IH; [reflexivity|]. intros m Hm. apply H. lia.
  - replace (n + 1)%nat with (S n) by lia. rewrite dset_fresh by (apply H; lia). rewrite IH; [rewrite <- app_assoc; reflexivity|].
    intros m Hm Hi. unfold dkeys in Hi. rewrite map_app in Hi. apply in_app_or in Hi as [Hi|[Hi|[]]]; [apply (H m); [lia|exact Hi]|].
    apply preset_name_inj in Hi. lia.
Qed.
(** Entry number n of the device, unless it is an effect, is listed as "Light preset n+1";
    and nothing else is listed. *)
Theorem iot_preset_listed : forall l name s,
  dget name (iot_presets l) = Some s <-> exists n e, nth_error l n = Some e /\ e_id e = false /\ name = preset_name (S n) /\ s = e_state e.
Proof.
  intros l name s. unfold iot_presets. rewrite iot_presets_named by (intros m _ []). cbn [app].
  assert (G : forall l n, dget name (named n l) = Some s <-> exists m e, nth_error l m = Some e /\ e_id e = false /\ name = preset_name (S (n + m)) /\ s = e_state e).
  { clear l. induction l as [|e l IH]; intro n.
    - cbn. split; [discriminate|]. intros (m & e & H & _). destruct m; discriminate.
    - unfold named. cbn [length seq combine flat_map fst snd]. fold (named (S n) l). destruct (e_id e) eqn:Ei; cbn [app].
      + rewrite IH. split.
        * intros (m & e' & H1 & H2 & H3 & H4). exists (S m), e'. replace (n + S m)%nat with (S n + m)%nat by lia. auto.
        * intros ([|m] & e' & H1 & H2 & H3 & H4); [cbn in H1; congruence|]. exists m, e'. replace (S n + m)%nat with (n + S m)%nat by lia. auto.
      + cbn [dget]. destruct (String.eqb_spec name (preset_name (S n))) as [Hn|Hn].
        * split.
          -- intros [= <-]. exists 0%nat, e. rewrite Nat.add_0_r. auto.
          -- intros (m & e' & H1 & H2 & H3 & H4). rewrite Hn in H3. apply preset_name_inj in H3. assert (m = 0)%nat by lia. subst m. cbn in H1. congruence.
        * rewrite IH. split.
          -- intros (m & e' & H1 & H2 & H3 & H4). exists (S m), e'. replace (n + S m)%nat with (S n + m)%nat by lia. auto.
          -- intros ([|m] & e' & H1 & H2 & H3 & H4); [rewrite Nat.add_0_r in H3; congruence|]. exists m, e'. replace (S n + m)%nat with (n + S m)%nat by lia. auto. }
  apply (G l 0%nat).
Qed.
Print Assumptions iot_preset_listed.
(** Effects before entry n. *)
Definition effects_before (l : list entry) (n : nat) : nat := length (filter e_id (firstn n l)).
Lemma named_index l : forall k n e, nth_error l n = Some e -> e_id e = false ->
  key_index (preset_name (S (k + n))) (named k l) = Some (n - effects_before l n)%nat.
Proof.
  unfold effects_before. induction l as [|x l IH]; intros k n e Hn He; [destruct n; discriminate|].
  unfold named. cbn [length seq combine flat_map fst snd]. fold (named (S k) l). destruct n as [|n].
  - injection Hn as ->. rewrite He. rewrite Nat.add_0_r. cbn. rewrite seqb_refl. reflexivity.
  - cbn [firstn filter]. replace (k + S n)%nat with (S k + n)%nat by lia. pose proof (IH (S k) n e Hn He) as Hi.
    assert (B : (length (filter e_id (firstn n l)) <= n)%nat).
    { etransitivity; [|apply (firstn_le_length n l)]. clear. induction (firstn n l) as [|y m IHm]; cbn; [lia|destruct (e_id y); cbn; lia]. }
    destruct (e_id x); cbn [app].
    + rewrite Hi. cbn [length]. f_equal.
    + cbn [key_index]. rewrite seqb_neq by (intro E; apply preset_name_inj in E; lia). rewrite Hi. cbn [option_map]. f_equal. lia.
Qed.
(** Saving under that name goes to slot n less the number of effects listed before it:
    to its own slot when there is none. *)
Theorem iot_save_partial : forall reply l n e s, nth_error l n = Some e -> e_id e = false ->
  calls reply (iot_save reply (iot_presets l) (preset_name (S n)) s) "set_preferred_state"
    [("index", Some (PNum (AInt (Z.of_nat (n - effects_before l n))))); ("light_on", option_map PBool (light_on s)); ("brightness", pnum (brightness s));
     ("hue", pnum (hue s)); ("saturation", pnum (saturation s)); ("color_temp", pnum (color_temp s)); ("transition", pnum (transition s))].
Proof.
  intros reply l n e s Hn He. unfold iot_save, iot_presets. rewrite iot_presets_named by (intros m _ []). cbn [app].
  pose proof (named_index l 0 n e Hn He) as Hi. cbn [Nat.add] in Hi. rewrite Hi. destruct (named 0 l) eqn:En; [discriminate|].
  eexists. split; [|intro log; reflexivity]. destruct s as [s1 s2 s3 s4 s5 s6]. unfold asdict. cbn [light_on brightness hue saturation color_temp transition].
  destruct s1, s2, s3, s4, s5, s6; par.
Qed.
Print Assumptions iot_save_partial.
Corollary iot_save_own_slot : forall reply l n e s, nth_error l n = Some e -> (forall m e', (m <= n)%nat -> nth_error l m = Some e' -> e_id e' = false) ->
  exists d, dget "index" d = Some (PNum (AInt (Z.of_nat n))) /\
    forall log, iot_save reply (iot_presets l) (preset_name (S n)) s log = (log ++ [mkCall "set_preferred_state" d], reply (mkCall "set_preferred_state" d)).
Proof.
  intros reply l n e s Hn Hb. destruct (iot_save_partial reply l n e s Hn) as (d & Hd & Hm); [apply (Hb n); [lia|exact Hn]|].
  exists d. split; [|exact Hm]. rewrite Hd. cbn [dget]. cbn [String.eqb Ascii.eqb Bool.eqb]. f_equal. f_equal. f_equal.
  assert (E : effects_before l n = 0%nat); [|lia]. unfold effects_before.
  assert (F : filter e_id (firstn n l) = []); [|rewrite F; reflexivity]. clear - Hb. revert l Hb. induction n as [|n IH]; intros l Hb; [reflexivity|].
  destruct l as [|x l]; [reflexivity|]. cbn. rewrite (Hb 0%nat x) by (lia || reflexivity). apply IH. intros m e' Hm H. apply (Hb (S m) e'); [lia|exact H].
Qed.
Print Assumptions iot_save_own_slot.
Theorem iot_save_refuted : exists l e, nth_error l 1 = Some e /\ e_id e = false /\ forall reply s,
  exists d, dget "index" d = Some (PNum (AInt 0)) /\ 
    forall log, iot_save reply (iot_presets l) (preset_name 2) s log = (log ++ [mkCall "set_preferred_state" d], reply (mkCall "set_preferred_state" d)).
Proof.
  set (l := [mkEntry true (mkLight None None None None None None); mkEntry false (mkLight None (Some (AInt 50)) None None None None)]).
  exists l, (mkEntry false (mkLight None (Some (AInt 50)) None None None None)). split; [reflexivity|]. split; [reflexivity|]. intros reply s.
  destruct (iot_save_partial reply l 1%nat (mkEntry false (mkLight None (Some (AInt 50)) None None None None)) s eq_refl eq_refl) as (d & Hd & Hm). exists d. split; [rewrite Hd; reflexivity|exact Hm].
Qed.
Print Assumptions iot_save_refuted.
(** Names that are not listed are refused. *)
Theorem iot_save_unknown : forall reply l name s, dget name (iot_presets l) = None -> raises (iot_save reply (iot_presets l) name s).
Proof.
  intros reply l name s H. unfold iot_save. assert (K : key_index name (iot_presets l) = None) by (apply key_index_none, dget_None, H).
  rewrite K. destruct (iot_presets l); [exists KKasa|exists PyValueError]; (split; [tauto|reflexivity]).
Qed.
Print Assumptions iot_save_unknown.

(** SMART: the entries that are presets, with the state each is listed with. *)
Definition sstate (e : sentry) : light_state := mkLight None (s_brightness e) (s_hue e) (s_sat e) (s_temp e) None.
Definition is_preset (e : sentry) : bool := match s_brightness e with Some _ => true | None => false end.
Definition colourless (e : sentry) : bool := match s_temp e, s_hue e, s_sat e with None, None, None => true | _, _, _ => false end.
Definition numbered (prefix : string) (n : nat) (l : list light_state) : dict light_state :=
  map (fun p => ((prefix ++ dec (S (fst p)))%string, snd p)) (combine (seq n (length l)) l).
Lemma numbered_app prefix n l x : numbered prefix n (l ++ [x]) = numbered prefix n l ++ [((prefix ++ dec (S (n + length l)))%string, x)].
Proof.
  unfold numbered. revert n. induction l as [|y l IH]; intro n; cbn [app length seq combine map fst snd].
  - rewrite Nat.add_0_r. reflexivity.
  - cbn. rewrite (IH (S n)). replace (S n + length l)%nat with (n + S (length l))%nat by lia. reflexivity.
Qed.
Lemma numbered_key prefix n l k : In k (dkeys (numbered prefix n l)) -> exists m, (n <= m < n + length l)%nat /\ k = (prefix ++ dec (S m))%string.
Proof.
  revert n. induction l as [|x l IH]; intros n H; [destruct H|]. unfold numbered in H. cbn [length seq combine map fst snd dkeys] in H.
  destruct H as [<-|H]; [exists n; split; [cbn; lia|reflexivity]|]. destruct (IH (S n) H) as (m & Hm & ->). exists m. split; [cbn [length]; lia|reflexivity].
Qed.
Lemma numbered_fresh prefix l x : dset (prefix ++ dec (length l + 1)) x (numbered prefix 0 l) = numbered prefix 0 (l ++ [x]).
Proof.
  rewrite dset_fresh.
  - rewrite numbered_app. cbn [Nat.add]. replace (length l + 1)%nat with (S (length l)) by lia. reflexivity.
  - intro H. apply numbered_key in H as (m & Hm & E). apply append_inj, dec_inj in E. lia.
Qed.
Lemma numbered_index prefix l : forall n m, (m < length l)%nat -> key_index (prefix ++ dec (S (n + m))) (numbered prefix n l) = Some m.
Proof.
  induction l as [|x l IH]; intros n m Hm; [cbn in Hm; lia|]. unfold numbered. cbn [length seq combine map fst snd key_index].
  destruct m as [|m].
  - rewrite Nat.add_0_r, seqb_refl. reflexivity.
  - rewrite seqb_neq by (intro E; apply append_inj, dec_inj in E; lia).
    fold (numbered prefix (S n) l). replace (n + S m)%nat with (S n + m)%nat by lia. rewrite IH by (cbn in Hm; lia). reflexivity.
Qed.
Lemma from_states_spec : forall l done only, from_states (length done) l (mkSP (numbered "Light preset " 0 done) only) =
  mkSP (numbered "Light preset " 0 (done ++ map sstate (filter is_preset l))) (only || existsb colourless (filter is_preset l)).
Proof.
  induction l as [|e l IH]; intros done only; cbn [from_states filter map existsb].
  - rewrite app_nil_r, orb_false_r. reflexivity.
  - assert (Ep : is_preset e = match s_brightness e with Some _ => true | None => false end) by reflexivity.
    rewrite Ep. destruct (s_brightness e) as [b|] eqn:Eb; [|apply IH].
    cbn [sp_presets sp_brightness_only map existsb]. unfold preset_name.
    rewrite numbered_fresh. replace (S (length done)) with (length (done ++ [mkLight None (Some b) (s_hue e) (s_sat e) (s_temp e) None])) by (rewrite app_length; cbn; lia).
    rewrite IH. rewrite <- app_assoc. cbn [app].
    assert (Es : sstate e = mkLight None (Some b) (s_hue e) (s_sat e) (s_temp e) None) by (unfold sstate; rewrite Eb; reflexivity).
    rewrite Es. f_equal.
    assert (Ec : colourless e = match s_temp e, s_hue e, s_sat e with None, None, None => true | _, _, _ => false end) by reflexivity.
    rewrite Ec. destruct (s_temp e), (s_hue e), (s_sat e); cbn; rewrite ?orb_true_r; try reflexivity.
Qed.
Lemma from_brightness_spec : forall l done, from_brightness (length done) l (numbered "Brightness preset " 0 done) =
  numbered "Brightness preset " 0 (done ++ map (fun b => mkLight None (Some b) None None None None) l).
Proof.
  induction l as [|b l IH]; intro done; cbn [from_brightness map]; [rewrite app_nil_r; reflexivity|].
  rewrite numbered_fresh. replace (S (length done)) with (length (done ++ [mkLight None (Some b) None None None None])) by (rewrite app_length; cbn; lia).
  rewrite IH, <- app_assoc. reflexivity.
Qed.
(** The presets of a reply are listed in order, as "Light preset 1", ... *)
Theorem smart_presets_listed : forall old states b, states <> [] ->
  sp_presets (smart_post_update old states b) = numbered "Light preset " 0 (map sstate (filter is_preset states)) /\
  sp_brightness_only (smart_post_update old states b) = (sp_brightness_only old || existsb colourless (filter is_preset states))%bool.
Proof.
  intros old states b Hne. destruct states as [|e l]; [congruence|]. unfold smart_post_update.
  pose proof (from_states_spec (e :: l) [] (sp_brightness_only old)) as H. change (from_states 0 (e :: l) (mkSP [] (sp_brightness_only old)) = mkSP (numbered "Light preset " 0 (map sstate (filter is_preset (e :: l)))) (sp_brightness_only old || existsb colourless (filter is_preset (e :: l)))%bool) in H.
  rewrite H. split; reflexivity.
Qed.
Print Assumptions smart_presets_listed.
(** A reply all of whose presets have colours, on a device that never reported one
    without: saving under the n-th name goes to slot n, when no effect is stored
    among the first n. *)
Theorem smart_save_partial : forall reply old states b n s,
  sp_brightness_only old = false -> (forall e, In e states -> is_preset e = true -> colourless e = false) ->
  (n < length states)%nat -> (forall m e, (m <= n)%nat -> nth_error states m = Some e -> is_preset e = true) ->
  (exists e, nth_error states n = Some e /\ dget (preset_name (S n)) (sp_presets (smart_post_update old states b)) = Some (sstate e)) /\
  forall log, smart_save reply (smart_post_update old states b) (preset_name (S n)) s log =
    let c := mkCall "edit_preset_rules" [("index", PNum (AInt (Z.of_nat n))); ("state", PObj (drop_none (asdict s)))] in (log ++ [c], reply c).
Proof.
  intros reply old states b n s Ho Hc Hn Hp.
  assert (Hne : states <> []) by (intros ->; cbn in Hn; lia).
  destruct (smart_presets_listed old states b Hne) as [E1 E2]. rewrite E1. unfold smart_save. rewrite E1, E2, Ho. cbn [orb].
  assert (Ex : existsb colourless (filter is_preset states) = false).
  { destruct (existsb colourless (filter is_preset states)) eqn:E; [|reflexivity]. apply existsb_exists in E as (e & He & Hq).
    apply filter_In in He as [Hi Hb]. rewrite (Hc e Hi Hb) in Hq. discriminate. }
  rewrite Ex.
  assert (Len : (n < length (map sstate (filter is_preset states)))%nat /\ forall e, nth_error states n = Some e -> nth_error (map sstate (filter is_preset states)) n = Some (sstate e)).
  { clear - Hn Hp. revert n Hn Hp. induction states as [|x l IH]; intros n Hn Hp; [cbn in Hn; lia|].
    cbn [filter]. rewrite (Hp 0%nat x) by (lia || reflexivity). cbn [map length]. destruct n as [|n].
    - split; [lia|]. intros e [= ->]. reflexivity.
    - destruct (IH n) as [L N]; [cbn in Hn; lia|intros m e Hm He; apply (Hp (S m)); [lia|exact He]|]. split; [lia|exact N]. }
  destruct Len as [Len Nth]. split.
  - destruct (nth_error states n) as [e|] eqn:En; [|apply nth_error_None in En; lia]. exists e. split; [reflexivity|].
    clear - Nth Len. specialize (Nth e eq_refl). unfold preset_name.
    assert (G : forall l k n x, nth_error l n = Some x -> dget ("Light preset " ++ dec (S (k + n))) (numbered "Light preset " k l) = Some x).
    { clear. induction l as [|y l IH]; intros k n x H; [destruct n; discriminate|]. unfold numbered. cbn [length seq combine map fst snd dget].
      destruct n as [|n]; [injection H as ->; rewrite Nat.add_0_r, seqb_refl; reflexivity|].
      rewrite seqb_neq by (intro E; apply append_inj, dec_inj in E; lia). fold (numbered "Light preset " (S k) l).
      replace (k + S n)%nat with (S k + n)%nat by lia. apply IH, H. }
    apply (G _ 0%nat n _ Nth).
  - intro log. unfold preset_name. pose proof (numbered_index "Light preset " (map sstate (filter is_preset states)) 0 n Len) as Ni.
    cbn [Nat.add] in Ni. rewrite Ni. reflexivity.
Qed.
Print Assumptions smart_save_partial.
Example smart_save_ex : let e := mkSE (Some (AInt 5)) None (Some (AInt 1)) (Some (AInt 2)) in
  is_preset e = true /\ colourless e = false /\
  fst (smart_save (fun _ => Ok JNull) (smart_post_update (mkSP [] false) [e; e] []) "Light preset 2" (mkLight None (Some (AInt 9)) None None None None) []) =
  [mkCall "edit_preset_rules" [("index", PNum (AInt 1)); ("state", PObj [("brightness", PNum (AInt 9))])]].
Proof. repeat split. Qed.
(** A device with brightness presets only: the whole list is sent, with that one place
    changed. *)
Theorem smart_save_brightness : forall reply old l n s, (n < length l)%nat ->
  let sp := smart_post_update old [] l in
  exists l', length l' = length l /\ nth_error l' n = Some (brightness s) /\
    (forall m, m <> n -> nth_error l' m = option_map Some (nth_error l m)) /\
    forall log, smart_save reply sp ("Brightness preset " ++ dec (S n)) s log =
      let c := mkCall "set_preset_rules" [("brightness", PList l')] in (log ++ [c], reply c).
Proof.
  intros reply old l n s Hn sp. assert (Es : sp = mkSP (numbered "Brightness preset " 0 (map (fun b => mkLight None (Some b) None None None None) l)) true).
  { unfold sp, smart_post_update. destruct l as [|b l]; [cbn in Hn; lia|]. f_equal. exact (from_brightness_spec (b :: l) []). }
  rewrite Es. unfold smart_save. cbn [sp_presets sp_brightness_only].
  pose proof (numbered_index "Brightness preset " (map (fun b => mkLight None (Some b) None None None None) l) 0 n) as Ni.
  rewrite map_length in Ni. specialize (Ni Hn). cbn [Nat.add] in Ni. rewrite Ni.
  assert (Em : forall k (q : list arg), map (fun p : string * light_state => brightness (snd p)) (numbered "Brightness preset " k (map (fun b => mkLight None (Some b) None None None None) q)) = map Some q).
  { clear. intros k q. revert k. induction q as [|b q IH]; intro k; [reflexivity|]. unfold numbered. cbn [map length seq combine fst snd brightness]. f_equal. apply (IH (S k)). }
  rewrite Em. exists (replace n (brightness s) (map Some l)).
  assert (R : forall (q : list (option arg)) n v, (n < length q)%nat -> length (replace n v q) = length q /\ nth_error (replace n v q) n = Some v /\ forall m, m <> n -> nth_error (replace n v q) m = nth_error q m).
  { clear. induction q as [|x q IH]; intros n v H; [cbn in H; lia|]. destruct n as [|n]; cbn.
    - repeat split. intros [|m] Hm; [congruence|reflexivity].
    - destruct (IH n v) as (H1 & H2 & H3); [cbn in H; lia|]. repeat split; [congruence|exact H2|]. intros [|m] Hm; [reflexivity|apply H3; congruence]. }
  destruct (R (map Some l) n (brightness s)) as (R1 & R2 & R3); [rewrite map_length; exact Hn|]. rewrite map_length in R1.
  repeat split; [exact R1|exact R2|]. intros m Hm. rewrite (R3 m Hm). apply nth_error_map.
Qed.
Print Assumptions smart_save_brightness.
(** An effect stored before the presets shifts the slot; a preset without colours makes
    saving drop all colours, for good. *)
Theorem smart_save_refuted :
  (exists states, fst (smart_save (fun _ => Ok JNull) (smart_post_update (mkSP [] false) states []) "Light preset 1" (mkLight None (Some (AInt 9)) (Some (AInt 1)) None None None) []) =
     [mkCall "edit_preset_rules" [("index", PNum (AInt 0)); ("state", PObj [("brightness", PNum (AInt 9)); ("hue", PNum (AInt 1))])]] /\
     exists e, nth_error states 0 = Some e /\ is_preset e = false) /\
  (forall reply first states b n s log, states <> [] -> existsb colourless (filter is_preset first) = true ->
     (n < length (filter is_preset states))%nat ->
     exists l, fst (smart_save reply (smart_post_update (smart_post_update (mkSP [] false) first b) states b) (preset_name (S n)) s log) = log ++ [mkCall "set_preset_rules" [("brightness", PList l)]]).
Proof.
  split.
  - exists [mkSE None None None None; mkSE (Some (AInt 1)) None (Some (AInt 2)) None]. split; [reflexivity|]. eexists. split; reflexivity.
  - intros reply first states b n s log Hne Hc Hn. 
    assert (Hf : first <> []) by (intros ->; discriminate).
    destruct (smart_presets_listed (mkSP [] false) first b Hf) as [_ F2].
    destruct (smart_presets_listed (smart_post_update (mkSP [] false) first b) states b Hne) as [E1 E2].
    unfold smart_save. rewrite E1, E2, F2, Hc. cbn [sp_brightness_only orb].
    pose proof (numbered_index "Light preset " (map sstate (filter is_preset states)) 0 n) as Ni. rewrite map_length in Ni.
    specialize (Ni Hn). cbn [Nat.add] in Ni. unfold preset_name. rewrite Ni. eexists. reflexivity.
Qed.
Print Assumptions smart_save_refuted.

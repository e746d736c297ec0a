(** Energy readings and statistics (C36-C38). *)
From Coq Require Import QArith Lia Lqa.
From Verif Require Import Base Base_Lemmas Py Emeter_Model Emeter_Spec.
Open Scope string_scope.
Open Scope list_scope.

(** ** C37 *)
Lemma prefix_self q : String.prefix (base q) (milli q) = true /\ String.prefix (base q) (base q) = true.
Proof. destruct q; split; reflexivity. Qed.
Lemma downscale_skip item d : (forall k, In k (dkeys d) -> String.prefix item k = false) -> downscale item d = None.
Proof.
  induction d as [|[k v] d IH]; intro H; [reflexivity|]. cbn [downscale].
  rewrite (H k) by (left; reflexivity). apply IH. intros k' Hk. apply H. right. exact Hk.
Qed.
Lemma downscale_only item k0 x d : (forall k, In k (dkeys d) -> String.prefix item k = true -> k = k0) ->
  String.prefix item k0 = true -> dget k0 d = Some (Some x) -> downscale item d = Some (x / 1000)%Q.
Proof.
  induction d as [|[k v] d IH]; intros H Hp Hd; [discriminate|]. cbn [downscale dget] in *.
  destruct (String.eqb_spec k0 k) as [->|Hne].
  - injection Hd as ->. rewrite Hp. reflexivity.
  - destruct (String.prefix item k) eqn:E.
    + exfalso. apply Hne. symmetry. apply H; [left; reflexivity|exact E].
    + apply IH; auto. intros k' Hk. apply H. right. exact Hk.
Qed.
Lemma getitem_milli_missing q d : dget (milli q) d = None -> getitem (milli q) d =
  match dget (base q) d with None => Err PyKeyError | Some None => Err PyTypeError | Some (Some x) => Ok (Some (x * 1000)%Q) end.
Proof. intro H. unfold getitem. rewrite H. destruct q; reflexivity. Qed.
Lemma getitem_base_missing q d : dget (base q) d = None -> getitem (base q) d = Ok (downscale (base q) d).
Proof. intro H. unfold getitem. rewrite H. destruct q; reflexivity. Qed.
Lemma getitem_present k v d : dget k d = Some v -> getitem k d = Ok v.
Proof. intro H. unfold getitem. rewrite H. reflexivity. Qed.
Lemma only_base_absent q d : only_name q (milli q) d -> dget (base q) d = None.
Proof.
  intro H. apply dget_None. intro Hi. assert (E : base q = milli q) by (apply H; [exact Hi|apply prefix_self]).
  destruct q; discriminate.
Qed.
Lemma only_milli_absent q d : only_name q (base q) d -> dget (milli q) d = None.
Proof.
  intro H. apply dget_None. intro Hi. assert (E : milli q = base q) by (apply H; [exact Hi|apply prefix_self]).
  destruct q; discriminate.
Qed.

(** Whatever unit a device reports a quantity in, it can be read in base units and in
    milli units, and the two agree with what was reported. *)
Theorem readings_consistent : forall q v d, means q v d ->
  exists b m, getitem (base q) d = Ok (Some b) /\ getitem (milli q) d = Ok (Some m) /\ (b == v)%Q /\ (m == v * 1000)%Q.
Proof.
  intros q v d [[H O]|(x & [H O] & E)].
  - exists v, (v * 1000)%Q. split; [apply getitem_present, H|]. split; [|split; reflexivity].
    rewrite getitem_milli_missing by (apply only_milli_absent, O). rewrite H. reflexivity.
  - exists (x / 1000)%Q, x. split; [|split; [apply getitem_present, H|split; [symmetry; exact E|rewrite E; field]]].
    rewrite getitem_base_missing by (apply only_base_absent, O).
    rewrite (downscale_only (base q) (milli q) x d); auto. apply prefix_self.
Qed.
Print Assumptions readings_consistent.
Example readings_consistent_ex : means Power (3 # 2) [("current_ma", Some (7#1)); ("power_mw", Some (1500 # 1))].
Proof.
  right. exists (1500 # 1). split; [split; [reflexivity|]|reflexivity].
  intros k [<-|[<-|[]]] H; [discriminate H|reflexivity].
Qed.

(** In base units a quantity never raises, and one that is not reported is absent. *)
Theorem readings_absent_partial : forall q d,
  (exists v, getitem (base q) d = Ok v) /\ (not_reported q d -> getitem (base q) d = Ok None) /\
  (forall k, ~ In k (map base [Voltage; Power; Current; Energy; Total] ++ map milli [Voltage; Power; Current; Energy; Total]) ->
     dget k d = None -> getitem k d = Err PyKeyError).
Proof.
  intros q d. split; [|split].
  - destruct (dget (base q) d) as [v|] eqn:E; [exists v; apply getitem_present, E|].
    eexists. apply getitem_base_missing, E.
  - intro H. assert (E : dget (base q) d = None).
    { apply dget_None. intro Hi. apply (H _ Hi). apply prefix_self. }
    rewrite getitem_base_missing by exact E. f_equal. apply downscale_skip.
    intros k Hk. destruct (String.prefix (base q) k) eqn:Ep; [|reflexivity]. exfalso. exact (H k Hk Ep).
  - intros k Hk Hd. unfold getitem. rewrite Hd.
    assert (E : smem k valid_keys = false) by (apply smem_false; intro H; apply Hk; cbn in *; tauto).
    rewrite E. reflexivity.
Qed.
Print Assumptions readings_absent_partial.
Example readings_absent_ex : not_reported Voltage [("power_mw", Some 1%Q)].
Proof. intros k [<-|[]] H. discriminate H. Qed.
(** In milli units a quantity that is not reported raises KeyError. *)
Theorem readings_absent_refuted : forall q d, not_reported q d -> getitem (milli q) d = Err PyKeyError.
Proof.
  intros q d H. assert (E : dget (base q) d = None) by (apply dget_None; intro Hi; apply (H _ Hi), prefix_self).
  rewrite getitem_milli_missing; [rewrite E; reflexivity|].
  apply dget_None. intro Hi. apply (H _ Hi), prefix_self.
Qed.
Print Assumptions readings_absent_refuted.
(** Another field whose name merely begins alike is read as the quantity. *)
Theorem readings_prefix_refuted : exists d, ~ In "power" (dkeys d) /\ ~ In "power_mw" (dkeys d) /\
  exists x, getitem "power" d = Ok (Some x) /\ (x == 9 # 10)%Q.
Proof.
  exists [("power_factor", Some (900 # 1))]. cbn.
  repeat apply conj; try (intros [H|[]]; discriminate). eexists. split; reflexivity.
Qed.
Print Assumptions readings_prefix_refuted.

(** ** C36 *)
Lemma add_sums_spec d : forall t t', dwf d -> add_sums d t = Ok t' ->
  no_nulls d /\
  (forall k, opt_eq (dget k t') (match dget k d with
                        | Some (Some x) => Some ((match dget k t with Some y => y | None => 0 end) + x)%Q
                        | _ => dget k t end)).
Proof.
  induction d as [|[k v] d IH]; intros t t' Hw H; cbn [add_sums] in H.
  - injection H as <-. split; [intros k; discriminate|]. intro k. cbn. destruct (dget k t); cbn; [reflexivity|exact I].
  - inversion Hw as [|? ? Hn Hw']; subst. cbn [fst] in Hn. unfold add_sum in H. cbn [fst snd] in H.
    destruct v as [x|]; [cbn [bind] in H|discriminate]. destruct (IH _ _ Hw' H) as [N S].
    assert (Hk : dget k d = None) by (apply dget_None; exact Hn). split.
    + intros k'. cbn [dget]. destruct (String.eqb_spec k' k); [discriminate|apply N].
    + intro y. specialize (S y). cbn [dget]. rewrite dget_dset in S. destruct (String.eqb_spec y k) as [Ey|Ey]; [|exact S]. rewrite Ey in *.
      rewrite Hk in S. exact S.
Qed.
Lemma add_sums_total d : forall t, dwf d -> no_nulls d -> exists t', add_sums d t = Ok t'.
Proof.
  induction d as [|[k v] d IH]; intros t Hw N; [eexists; reflexivity|].
  inversion Hw as [|? ? Hn Hw']; subst. cbn [add_sums]. unfold add_sum. cbn [fst snd].
  destruct v as [x|]; [|exfalso; apply (N k); cbn; rewrite seqb_refl; reflexivity]. cbn [bind]. apply IH; [exact Hw'|].
  intros k' H. apply (N k'). cbn. destruct (String.eqb_spec k' k) as [->|]; [|exact H].
  apply dget_Some_key in H. contradiction.
Qed.
Lemma opt_eq_sym a b : opt_eq a b -> opt_eq b a.
Proof. destruct a, b; cbn; auto. intro H. symmetry. exact H. Qed.
Lemma opt_eq_trans a b c : opt_eq a b -> opt_eq b c -> opt_eq a c.
Proof. destruct a, b, c; cbn; auto; try contradiction. intros H1 H2. rewrite H1. exact H2. Qed.

Lemma merge_sums_spec ds : forall t t', Forall dwf ds -> merge_sums_from ds t = Ok t' ->
  Forall no_nulls ds /\
  forall k, opt_eq (dget k t') (match dget k t, values k ds with
                        | None, [] => None
                        | o, l => Some ((match o with Some y => y | None => 0 end) + qsum l)%Q end).
Proof.
  induction ds as [|d ds IH]; intros t t' Hw H; cbn [merge_sums_from] in H.
  - injection H as <-. split; [constructor|]. intro k. cbn. destruct (dget k t); cbn; [ring|exact I].
  - inversion Hw; subst. destruct (add_sums d t) as [t1|] eqn:E; [cbn [bind] in H|discriminate].
    destruct (add_sums_spec d t t1) as [N S]; auto. destruct (IH _ _ ltac:(assumption) H) as [Ns Ss].
    split; [constructor; assumption|]. intro k. specialize (S k). specialize (Ss k).
    eapply opt_eq_trans; [exact Ss|].
    assert (V : values k (d :: ds) = (match dget k d with Some (Some x) => [x] | _ => [] end) ++ values k ds) by reflexivity. rewrite V. clear V.
    specialize (N k). destruct (dget k d) as [[x|]|].
    + destruct (dget k t1) as [y1|]; [|contradiction]. cbn [app].
      destruct (dget k t) as [y|]; unfold opt_eq in *; rewrite S; cbn [qsum]; ring.
    + contradiction.
    + cbn [app]. destruct (dget k t1) as [y1|], (dget k t) as [y|]; try contradiction; unfold opt_eq in *; [rewrite S; reflexivity|].
      destruct (values k ds); [exact I|reflexivity].
Qed.

(** The strip's readings, field by field: the sum of the sockets' fields, except for
    the voltage in millivolts, which is the average without its fraction. *)
Theorem strip_sums : forall ds d, Forall dwf ds -> strip_status ds = Ok d ->
  ds <> [] /\ Forall no_nulls ds /\
  (forall k, k <> "voltage_mv" ->
     match values k ds with
     | [] => dget k d = None
     | l => exists x, dget k d = Some (Some x) /\ (x == qsum l)%Q
     end) /\
  exists n : Z, dget "voltage_mv" d = Some (Some (inject_Z n)) /\
     n = q_int (qsum (values "voltage_mv" ds) / count ds).
Proof.
  intros ds d Hw H. unfold strip_status in H.
  destruct (merge_sums ds) as [t|] eqn:E; [cbn [bind] in H|discriminate].
  destruct (merge_sums_spec ds [] t Hw E) as [N S].
  destruct ds as [|d0 ds]; [discriminate|]. set (L := d0 :: ds) in *. injection H as <-.
  assert (G : forall k (u : dict Q), dget k (map (fun kv => (fst kv, Some (snd kv))) u) = option_map Some (dget k u)).
  { intros k u. induction u as [|[k' v] u IH]; [reflexivity|]. cbn. destruct (String.eqb k k'); [reflexivity|exact IH]. }
  split; [discriminate|]. split; [exact N|]. split.
  - intros k Hk. rewrite G, dget_dset_other by exact Hk. specialize (S k). cbn [dget] in S.
    destruct (values k L) as [|x l]; destruct (dget k t); unfold opt_eq in S; try contradiction; [reflexivity|].
    eexists. split; [reflexivity|]. rewrite S. ring.
  - rewrite G, dget_dset_same. cbn [option_map]. eexists. split; [reflexivity|].
    specialize (S "voltage_mv"). cbn [dget] in S.
    assert (Q_int_comp : forall a b, (a == b)%Q -> q_int a = q_int b).
    { clear. intros [an ad] [bn bd] H. unfold q_int, Qeq in *. cbn in *.
      rewrite <- (Z.quot_mul_cancel_r an (Zpos ad) (Zpos bd)) by lia. rewrite H.
      rewrite (Z.mul_comm (Zpos ad) (Zpos bd)). apply Z.quot_mul_cancel_r; lia. }
    apply Q_int_comp. unfold count.
    destruct (values "voltage_mv" L) as [|x l]; destruct (dget "voltage_mv" t); unfold opt_eq in S; try contradiction; [reflexivity|].
    rewrite S. apply Qmult_comp; [ring|reflexivity].
Qed.
Print Assumptions strip_sums.
Example strip_sums_ex : exists d,
  strip_status [[("voltage_mv", Some 120001%Q); ("power_mw", Some 500%Q)]; [("voltage_mv", Some 120002%Q); ("power_mw", Some 250%Q)]] = Ok d /\
  dget "power_mw" d = Some (Some (750 # 1)) /\ dget "voltage_mv" d = Some (Some (120001 # 1)).
Proof. eexists. vm_compute. repeat split. Qed.

(** It is there whenever the strip has sockets and no reading is null. *)
Theorem strip_total : forall ds, ds <> [] -> Forall dwf ds -> Forall no_nulls ds -> exists d, strip_status ds = Ok d.
Proof.
  intros ds Hne Hw Hn. unfold strip_status.
  assert (G : forall t, exists t', merge_sums_from ds t = Ok t').
  { clear Hne. induction ds as [|d ds IH]; intro t; [eexists; reflexivity|].
    inversion Hw; subst. inversion Hn; subst. cbn [merge_sums_from]. destruct (add_sums_total d t) as [t1 E]; auto.
    rewrite E. cbn [bind]. apply IH; auto. }
  destruct (G []) as [t E]. unfold merge_sums. rewrite E. cbn [bind]. destruct ds; [congruence|]. eexists. reflexivity.
Qed.
Print Assumptions strip_total.
(** A strip without sockets fails with ZeroDivisionError. *)
Theorem strip_empty_refuted : strip_status [] = Err PyZeroDivision.
Proof. reflexivity. Qed.
Print Assumptions strip_empty_refuted.

Lemma values_of k (P : Q -> reading -> Prop) xs ds : (forall x d, P x d -> dget k d = Some (Some x)) -> Forall2 P xs ds -> values k ds = xs.
Proof.
  intros HP H. induction H as [|x d xs ds Hx H IH]; [reflexivity|].
  unfold values. cbn [flat_map]. fold (values k ds). rewrite (HP _ _ Hx), IH. reflexivity.
Qed.
Lemma strip_keys ds d k : Forall dwf ds -> strip_status ds = Ok d -> In k (dkeys d) -> k <> "voltage_mv" -> exists d', In d' ds /\ In k (dkeys d').
Proof.
  intros Hw H Hk Hne. destruct (strip_sums ds d Hw H) as (_ & _ & S & _). specialize (S k Hne).
  destruct (values k ds) as [|x l] eqn:E; [apply dget_None in S; contradiction|].
  assert (Hx : In x (values k ds)) by (rewrite E; left; reflexivity).
  unfold values in Hx. apply in_flat_map in Hx as (d' & Hd & Hx). exists d'. split; [exact Hd|].
  destruct (dget k d') as [v|] eqn:Ek; [|contradiction]. apply dget_Some_key in Ek. exact Ek.
Qed.
Lemma strip_only q k xs ds d (P : Q -> reading -> Prop) : (forall x d, P x d -> only_name q k d) -> Forall2 P xs ds ->
  Forall dwf ds -> strip_status ds = Ok d -> (names_like q "voltage_mv" -> k = "voltage_mv") -> only_name q k d.
Proof.
  intros HP HF Hw H Hv k' Hk Hl. destruct (string_dec k' "voltage_mv") as [->|Hne]; [symmetry; auto|].
  destruct (strip_keys ds d k' Hw H Hk Hne) as (d' & Hd & Hk').
  assert (Hx : exists x, P x d').
  { clear - HF Hd. induction HF; [contradiction|]. destruct Hd as [<-|Hd]; eauto. }
  destruct Hx as [x Hx]. exact (HP _ _ Hx k' Hk' Hl).
Qed.
Lemma qsum_div xs : (qsum (map (fun x => x / 1000) xs) == qsum xs / 1000)%Q.
Proof. induction xs as [|x xs IH]; [reflexivity|]. cbn [map qsum]. rewrite IH. field. Qed.

(** Current, power, total and energy: the strip's reading, in base units, is the sum of
    its sockets', whichever units they report in. *)
Theorem strip_aggregates : forall q ds d xs, q <> Voltage -> Forall dwf ds -> strip_status ds = Ok d ->
  (Forall2 (in_base q) xs ds -> exists b, getitem (base q) d = Ok (Some b) /\ (b == qsum xs)%Q) /\
  (Forall2 (in_milli q) xs ds -> exists b, getitem (base q) d = Ok (Some b) /\ (b == qsum (map (fun x => x / 1000) xs))%Q).
Proof.
  intros q ds d xs Hq Hw H. destruct (strip_sums ds d Hw H) as (Hne & _ & S & _).
  assert (Hv : ~ names_like q "voltage_mv") by (destruct q; try (exfalso; apply Hq; reflexivity); intro E; discriminate E).
  assert (Hval : forall k x l, values k ds = x :: l -> k <> "voltage_mv" -> exists b, dget k d = Some (Some b) /\ (b == qsum (x :: l))%Q).
  { intros k x l E Hk. specialize (S k Hk). rewrite E in S. exact S. }
  split; intro HF.
  - assert (E : values (base q) ds = xs) by (eapply values_of; [|exact HF]; intros x d' [Hx _]; exact Hx).
    destruct xs as [|x xs]; [inversion HF; subst; exfalso; apply Hne; reflexivity|].
    destruct (Hval _ _ _ E) as (b & Hb & Eb); [destruct q; discriminate|].
    exists b. split; [apply getitem_present, Hb|exact Eb].
  - assert (E : values (milli q) ds = xs) by (eapply values_of; [|exact HF]; intros x d' [Hx _]; exact Hx).
    assert (O : only_name q (milli q) d).
    { eapply (strip_only q (milli q) xs ds d (in_milli q)); eauto; [intros x d' [_ Ho]; exact Ho|]. intro. contradiction. }
    destruct xs as [|x xs]; [inversion HF; subst; exfalso; apply Hne; reflexivity|].
    destruct (Hval _ _ _ E) as (b & Hb & Eb); [destruct q; try (exfalso; apply Hq; reflexivity); discriminate|].
    exists (b / 1000)%Q. split; [|rewrite qsum_div, Eb; reflexivity].
    rewrite getitem_base_missing by (apply only_base_absent, O). f_equal.
    apply (downscale_only (base q) (milli q)); auto. apply prefix_self.
Qed.
Print Assumptions strip_aggregates.
Example strip_aggregates_ex :
  Forall2 (in_milli Current) [250%Q; 500%Q] [[("current_ma", Some 250%Q)]; [("current_ma", Some 500%Q)]].
Proof. repeat constructor; try (intros k [<-|[]] H; reflexivity). Qed.

(** The voltage is the average of the sockets', down to a millivolt, for sockets that
    report millivolts. *)
Theorem strip_voltage_partial : forall ds d xs, Forall dwf ds -> strip_status ds = Ok d ->
  Forall2 (in_milli Voltage) xs ds -> Forall (fun x => 0 <= x)%Q xs ->
  exists b, getitem "voltage" d = Ok (Some b) /\
    let avg := (qsum (map (fun x => x / 1000) xs) / count ds)%Q in (avg - (1 # 1000) < b /\ b <= avg)%Q.
Proof.
  intros ds d xs Hw H HF Hpos. destruct (strip_sums ds d Hw H) as (Hne & _ & _ & n & Hn & En).
  assert (E : values "voltage_mv" ds = xs) by (eapply (values_of "voltage_mv" (in_milli Voltage)); [|exact HF]; intros x d' [Hx _]; exact Hx).
  assert (O : only_name Voltage "voltage_mv" d).
  { eapply (strip_only Voltage "voltage_mv" xs ds d (in_milli Voltage)); eauto. intros x d' [_ Ho]; exact Ho. }
  exists (inject_Z n / 1000)%Q. split.
  - change "voltage" with (base Voltage). rewrite getitem_base_missing by (apply only_base_absent, O). f_equal.
    apply (downscale_only (base Voltage) "voltage_mv"); auto.
  - cbv zeta. rewrite qsum_div. rewrite E in En.
    assert (Hs : (0 <= qsum xs)%Q) by (clear - Hpos; induction Hpos; cbn [qsum]; [lra|lra]).
    assert (Hc : (0 < count ds)%Q).
    { unfold count. change 0%Q with (inject_Z 0). rewrite <- Zlt_Qlt. destruct ds; [congruence|]. cbn. lia. }
    set (a := (qsum xs / count ds)%Q) in *.
    assert (Ha : (0 <= a)%Q) by (apply Qle_shift_div_l; [exact Hc|lra]).
    assert (Hd : (inject_Z n <= a /\ a < inject_Z n + 1)%Q).
    { subst n. clear - Ha. destruct a as [p r]. unfold q_int, Qle, Qlt, Qplus, inject_Z in *. cbn in *.
      assert (0 <= p)%Z by lia. rewrite !Z.mul_1_r. 
      rewrite Z.quot_div_nonneg by lia. pose proof (Z.div_mod p (Zpos r)). pose proof (Z.mod_pos_bound p (Zpos r)). nia. }
    assert (Ea : (qsum xs / 1000 / count ds == a / 1000)%Q) by (unfold a; field; intro Hz; rewrite Hz in Hc; lra).
    rewrite Ea. destruct Hd as [H1 H2]. clear - H1 H2.
    setoid_replace (a / 1000)%Q with (a * (1 # 1000))%Q by field.
    setoid_replace (inject_Z n / 1000)%Q with (inject_Z n * (1 # 1000))%Q by field. lra.
Qed.
Print Assumptions strip_voltage_partial.
Example strip_voltage_ex : Forall2 (in_milli Voltage) [120001%Q; 120004%Q] [[("voltage_mv", Some 120001%Q)]; [("voltage_mv", Some 120004%Q)]].
Proof. repeat constructor; try (intros k [<-|[]] H; reflexivity). Qed.
(** For sockets that report volts it is their sum. *)
Theorem strip_voltage_sum_refuted : forall ds d xs, Forall dwf ds -> strip_status ds = Ok d ->
  Forall2 (in_base Voltage) xs ds -> exists b, getitem "voltage" d = Ok (Some b) /\ (b == qsum xs)%Q.
Proof.
  intros ds d xs Hw H HF. destruct (strip_sums ds d Hw H) as (Hne & _ & S & _).
  assert (E : values "voltage" ds = xs) by (eapply (values_of "voltage" (in_base Voltage)); [|exact HF]; intros x d' [Hx _]; exact Hx).
  specialize (S "voltage" ltac:(discriminate)). rewrite E in S.
  destruct xs as [|x xs]; [inversion HF; subst; exfalso; apply Hne; reflexivity|]. destruct S as (b & Hb & Eb).
  exists b. split; [apply getitem_present, Hb|exact Eb].
Qed.
Print Assumptions strip_voltage_sum_refuted.
Example strip_voltage_sum_ex : exists d b,
  strip_status [[("voltage", Some 120%Q)]; [("voltage", Some 122%Q)]] = Ok d /\ getitem "voltage" d = Ok (Some b) /\ (b == 242)%Q.
Proof. eexists. eexists. split; [vm_compute; reflexivity|]. split; [vm_compute; reflexivity|]. reflexivity. Qed.

(** The power shown for the strip, and its total, are the sums of the sockets' readings,
    an absent one counting nothing; reading them never raises. *)
Theorem strip_power : forall q ds, exists vs s,
  Forall2 (fun v d => getitem (base q) d = Ok v) vs ds /\ sum_item (base q) ds = Ok s /\
  (s == qsum (map (fun v => match v with Some x => x | None => 0 end) vs))%Q.
Proof.
  intros q ds. induction ds as [|d ds (vs & s & HF & Hs & E)].
  - exists [], 0%Q. repeat split. constructor.
  - destruct (readings_absent_partial q d) as ((v & Hv) & _ & _). cbn [sum_item]. rewrite Hv, Hs. cbn [bind].
    eexists (v :: vs), _. split; [constructor; assumption|]. split; [reflexivity|]. cbn [map qsum]. rewrite E. reflexivity.
Qed.
Print Assumptions strip_power.

(** ** C38 *)
Lemma qget_qset k v m k' : qget k' (qset k v m) = if Qeq_bool k' k then Some v else qget k' m.
Proof.
  induction m as [|[k0 v0] m IH]; cbn [qset qget]; [reflexivity|].
  destruct (Qeq_bool k k0) eqn:E0; cbn [qget].
  - apply Qeq_bool_iff in E0. destruct (Qeq_bool k' k0) eqn:E1.
    + apply Qeq_bool_iff in E1. assert (E : (k' == k)%Q) by (rewrite E0; exact E1). apply Qeq_bool_iff in E. rewrite E. reflexivity.
    + destruct (Qeq_bool k' k) eqn:E; [|reflexivity]. apply Qeq_bool_iff in E. rewrite E0 in E. apply Qeq_bool_iff in E. congruence.
  - rewrite IH. destruct (Qeq_bool k' k) eqn:E; destruct (Qeq_bool k' k0) eqn:E1; auto.
    apply Qeq_bool_iff in E. apply Qeq_bool_iff in E1. rewrite E in E1. apply Qeq_bool_iff in E1. congruence.
Qed.
Lemma Qeq_bool_sym a b : Qeq_bool a b = Qeq_bool b a.
Proof.
  destruct (Qeq_bool a b) eqn:E1; destruct (Qeq_bool b a) eqn:E2; auto.
  - apply Qeq_bool_iff in E1. symmetry in E1. apply Qeq_bool_iff in E1. congruence.
  - apply Qeq_bool_iff in E2. symmetry in E2. apply Qeq_bool_iff in E2. congruence.
Qed.
Lemma find_app {A} (f : A -> bool) l l' : find f (l ++ l') = match find f l with Some x => Some x | None => find f l' end.
Proof. induction l as [|x l IH]; [reflexivity|]. cbn. destruct (f x); auto. Qed.

Lemma convert_all_spec ek vk scale data : forall m m', convert_all ek vk scale data m = Ok m' ->
  (forall e, In e data -> dget ek e <> None /\ dget vk e <> None) /\
  forall k, qget k m' = match last_for ek k data with
                        | Some e => match dget vk e with Some v => Some (v * scale)%Q | None => None end
                        | None => qget k m end.
Proof.
  induction data as [|e data IH]; intros m m' H; cbn [convert_all] in H.
  - injection H as <-. split; [intros ? []|reflexivity].
  - unfold eitem in H. destruct (dget ek e) as [k0|] eqn:Ek; [cbn [bind] in H|discriminate].
    destruct (dget vk e) as [v0|] eqn:Ev; [cbn [bind] in H|discriminate].
    destruct (IH _ _ H) as [C S]. split.
    + intros e' [<-|Hi]; [rewrite Ek, Ev; split; discriminate|auto].
    + intro k. rewrite S. unfold last_for. cbn [rev]. rewrite find_app. fold (last_for ek k data).
      destruct (last_for ek k data) as [e'|]; [reflexivity|]. cbn [find]. rewrite Ek, qget_qset, (Qeq_bool_sym k k0).
      destruct (Qeq_bool k0 k); [rewrite Ev|]; reflexivity.
Qed.
Lemma convert_all_total ek vk scale data : forall m, (forall e, In e data -> dget ek e <> None /\ dget vk e <> None) ->
  exists m', convert_all ek vk scale data m = Ok m'.
Proof.
  induction data as [|e data IH]; intros m H; [eexists; reflexivity|]. cbn [convert_all]. unfold eitem.
  destruct (H e (or_introl eq_refl)) as [H1 H2]. destruct (dget ek e); [|congruence]. destruct (dget vk e); [|congruence].
  cbn [bind]. apply IH. intros e' Hi. apply H. right. exact Hi.
Qed.
Lemma convert_one_spec ek vk scale key l : (forall e, In e l -> dget ek e <> None /\ dget vk e <> None) ->
  exists m, convert_one ek vk scale key l = Ok m /\
    qget key m = match find (fun e => match dget ek e with Some x => Qeq_bool x key | None => false end) l with
                 | Some e => match dget vk e with Some v => Some (v * scale)%Q | None => None end
                 | None => None end.
Proof.
  induction l as [|e l IH]; intro H; [exists []; split; reflexivity|].
  destruct (H e (or_introl eq_refl)) as [H1 H2]. cbn [convert_one find]. unfold eitem.
  destruct (dget ek e) as [k|] eqn:Ek; [|congruence]. cbn [bind]. destruct (Qeq_bool k key) eqn:E.
  - destruct (dget vk e) as [v|]; [|congruence]. cbn [bind]. eexists. split; [reflexivity|]. cbn. rewrite Qeq_bool_sym, E. reflexivity.
  - apply IH. intros e' Hi. apply H. right. exact Hi.
Qed.

(** The unit of the whole list is taken from the first entry. *)
Lemma energy_value kwh data e0 rest ek : data = e0 :: rest -> uniform data -> complete ek (energy_of kwh) data ->
  let wh := dmem "energy_wh" e0 in
  let vk := if wh then "energy_wh" else "energy" in
  let scale := (if wh then if kwh then 1 / 1000 else 1 else if kwh then 1 else 1000)%Q in
  forall e, In e data -> dget vk e <> None /\ opt_eq (match dget vk e with Some v => Some (v * scale)%Q | None => None end) (energy_of kwh e).
Proof.
  intros -> Hu Hc wh vk scale e He. destruct (Hc e He) as [_ Hv].
  assert (Hw : dmem "energy_wh" e = wh) by (apply (Hu e e0); [exact He|left; reflexivity]).
  unfold vk, scale, energy_of, dmem in *. destruct wh.
  - destruct (dget "energy_wh" e) as [x|]; [|discriminate]. split; [discriminate|]. destruct kwh; cbn [opt_eq]; [field|ring].
  - destruct (dget "energy_wh" e) as [x|]; [discriminate|]. destruct (dget "energy" e); [|congruence]. split; [discriminate|].
    destruct kwh; cbn [opt_eq]; [ring|reflexivity].
Qed.

(** The statistics: for each day (month) the energy of the last entry for it, in the
    unit asked for; and the entry for one day alone is the same. *)
Theorem statistics_partial : forall data ek kwh, uniform data -> complete ek (energy_of kwh) data ->
  exists m, convert_stat_data data ek kwh None = Ok m /\
  (forall k, opt_eq (qget k m) (match last_for ek k data with Some e => energy_of kwh e | None => None end)) /\
  (forall k, exists m1, convert_stat_data data ek kwh (Some k) = Ok m1 /\ qget k m1 = qget k m).
Proof.
  intros data ek kwh Hu Hc. destruct data as [|e0 rest] eqn:Ed.
  { exists []. repeat split. intro k. exists []. split; reflexivity. }
  pose proof (energy_value kwh data e0 rest ek Ed ltac:(subst; assumption) ltac:(subst; assumption)) as V. cbv zeta in V.
  rewrite <- Ed in *. unfold convert_stat_data. rewrite Ed. rewrite <- Ed. cbv zeta.
  set (wh := dmem "energy_wh" e0) in *. set (vk := if wh then "energy_wh" else "energy") in *.
  set (scale := (if wh then if kwh then 1 / 1000 else 1 else if kwh then 1 else 1000)%Q) in *.
  assert (C : forall e, In e data -> dget ek e <> None /\ dget vk e <> None) by (intros e He; split; [apply (Hc e He)|apply (V e He)]).
  destruct (convert_all_total ek vk scale data [] C) as [m Em]. exists m. split; [exact Em|].
  destruct (convert_all_spec _ _ _ _ _ _ Em) as [_ S]. split.
  - intro k. rewrite S. destruct (last_for ek k data) as [e|] eqn:El; [|exact I].
    apply V. unfold last_for in El. apply find_some in El as [El _]. apply in_rev, El.
  - intro k. destruct (convert_one_spec ek vk scale k (rev data)) as (m1 & E1 & G1); [intros e He; apply C, in_rev, He|].
    exists m1. split; [exact E1|]. rewrite G1, S. reflexivity.
Qed.
Print Assumptions statistics_partial.
Example statistics_ex :
  let data := [[("day", 1%Q); ("energy_wh", 1500%Q)]; [("day", 2%Q); ("energy_wh", 250%Q)]] in
  uniform data /\ complete "day" (energy_of true) data.
Proof.
  split.
  - intros e e' [<-|[<-|[]]] [<-|[<-|[]]]; reflexivity.
  - intros e [<-|[<-|[]]]; split; discriminate.
Qed.
(** Today's (this month's) consumption: the same entry, zero when there is none. *)
Theorem consumption_now : forall data ek now, uniform data -> complete ek (energy_of true) data ->
  exists x, consumption data ek now = Ok x /\
    (x == match last_for ek now data with Some e => match energy_of true e with Some v => v | None => 0 end | None => 0 end)%Q.
Proof.
  intros data ek now Hu Hc. destruct (statistics_partial data ek true Hu Hc) as (m & _ & S & O).
  destruct (O now) as (m1 & E1 & G1). unfold consumption. rewrite E1. cbn [bind]. eexists. split; [reflexivity|].
  specialize (S now). rewrite G1. destruct (qget now m) as [v|]; destruct (last_for ek now data) as [e|]; cbn [opt_eq] in S; try contradiction; try reflexivity.
  - destruct (energy_of true e); [exact S|contradiction].
  - destruct (energy_of true e); [contradiction|reflexivity].
Qed.
Print Assumptions consumption_now.
(** The same for usage minutes. *)
Theorem usage_statistics : forall data ek, complete ek (dget "time") data ->
  exists m, convert_usage data ek = Ok m /\
  (forall k, opt_eq (qget k m) (match last_for ek k data with Some e => dget "time" e | None => None end)) /\
  (forall k, usage_now data ek k = Ok (match last_for ek k data with Some e => dget "time" e | None => None end)).
Proof.
  intros data ek Hc. unfold convert_usage. destruct (convert_all_total ek "time" 1 data [] Hc) as [m Em]. exists m. split; [exact Em|].
  destruct (convert_all_spec _ _ _ _ _ _ Em) as [_ S]. split.
  - intro k. rewrite S. destruct (last_for ek k data) as [e|]; [|exact I]. destruct (dget "time" e); cbn [opt_eq]; [ring|exact I].
  - intro k. unfold usage_now, last_for.
    assert (C : forall e, In e (rev data) -> dget ek e <> None /\ dget "time" e <> None) by (intros e He; apply Hc, in_rev, He).
    induction (rev data) as [|e l IH]; [reflexivity|]. destruct (C e (or_introl eq_refl)) as [H1 H2].
    cbn [find]. unfold eitem in *. destruct (dget ek e) as [x|]; [|congruence]. cbn [bind]. destruct (Qeq_bool x k).
    + destruct (dget "time" e); [reflexivity|congruence].
    + apply IH. intros e' Hi. apply C. right. exact Hi.
Qed.
Print Assumptions usage_statistics.
Example usage_statistics_ex : complete "day" (dget "time") [[("day", 1%Q); ("time", 30%Q)]].
Proof. intros e [<-|[]]; split; discriminate. Qed.
(** A list whose entries use different units fails. *)
Theorem statistics_refuted : exists data, complete "day" (energy_of true) data /\ convert_stat_data data "day" true None = Err PyKeyError.
Proof.
  exists [[("day", 1%Q); ("energy", 1%Q)]; [("day", 2%Q); ("energy_wh", 250%Q)]]. split; [|reflexivity].
  intros e [<-|[<-|[]]]; split; discriminate.
Qed.
Print Assumptions statistics_refuted.

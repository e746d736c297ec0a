(** C88-C90: the modules and features of a device. *)
From Coq Require Import ListDec.
From Verif Require Import Base Py Base_Lemmas Feats_Model Feats_Spec.
Open Scope string_scope. Open Scope list_scope. Open Scope Z_scope.

Lemma NoDup_app_l {A} (l l' : list A) : NoDup (l ++ l') -> NoDup l.
Proof.
  induction l as [|x l IH]; [constructor|]. cbn. intros H. inversion H; subst.
  constructor; [|auto]. intros Hx. apply H2, in_app_iff. auto.
Qed.

Definition admitted (e : env) (m : mclass) : Prop :=
  wanted e m = true /\ check_supported e (c_check m) = Ok true.

Lemma In_put n x ms : In x (put n ms) <-> x = n \/ In x ms.
Proof.
  unfold put. destruct (smem n ms) eqn:H.
  - apply smem_In in H. split; [auto|]. intros [->|]; auto.
  - rewrite in_app_iff. cbn. intuition congruence.
Qed.

Lemma NoDup_put n ms : NoDup ms -> NoDup (put n ms).
Proof.
  unfold put. destruct (smem n ms) eqn:H; intros Hn; [easy|].
  apply smem_false in H.
  apply NoDup_rev in Hn. rewrite <- (rev_involutive (ms ++ [n])).
  apply NoDup_rev. rewrite rev_app_distr. cbn. constructor; [|easy].
  rewrite <- in_rev. easy.
Qed.

Lemma add_modules_exact e : forall cs ms,
  (forall m, In m cs -> exists b, check_supported e (c_check m) = Ok b) ->
  exists ms', add_modules e cs ms = (ms', Ok tt)
    /\ (NoDup ms -> NoDup ms')
    /\ forall n, In n ms' <-> In n ms \/ exists m, In m cs /\ c_name m = n /\ admitted e m.
Proof.
  induction cs as [|m cs IH]; intros ms H.
  - exists ms. split; [reflexivity|]. split; [easy|]. intros n. split; [auto|].
    intros [|(m & [] & _)]; easy.
  - cbn [add_modules]. unfold mbind at 1.
    assert (Hs : exists ms1,
      (if wanted e m
       then (do! ok <- mlift (check_supported e (c_check m)) ;;
             (if ok : bool then fun ms0 => (put (c_name m) ms0, Ok tt) else mret tt))
       else mret tt) ms = (ms1, Ok tt)
      /\ (NoDup ms -> NoDup ms1)
      /\ forall n, In n ms1 <-> In n ms \/ (c_name m = n /\ admitted e m)).
    { destruct (H m (or_introl eq_refl)) as (b & Hb). unfold admitted.
      destruct (wanted e m) eqn:Hw.
      - unfold mbind, mlift. rewrite Hb. destruct b.
        + eexists. split; [reflexivity|]. split; [apply NoDup_put|].
          intros n. rewrite In_put. intuition congruence.
        + eexists. split; [reflexivity|]. split; [easy|].
          intros n. intuition congruence.
      - eexists. split; [reflexivity|]. split; [easy|]. intros n. intuition congruence. }
    destruct Hs as (ms1 & -> & Hd1 & H1).
    destruct (IH ms1) as (ms2 & E2 & Hd2 & H2).
    { intros; apply H; right; easy. }
    exists ms2. split; [exact E2|]. split; [auto|].
    intros n. rewrite H2, H1. split.
    + intros [[|[Ha Hb]]|(m' & Hm & Hn & Hadm)]; [auto| |].
      * right. exists m. split; [left; reflexivity|]. auto.
      * right. exists m'. split; [right; exact Hm|]. auto.
    + intros [|(m' & [<-|Hm] & Hn & Hadm)]; [auto|auto|].
      right. exists m'. auto.
Qed.

Definition pairs_of (cs : list mclass) : list (string * string) :=
  flat_map (fun m => match c_component m with Some c => [(c_name m, c)] | None => [] end) cs.

Definition fields_of (cs : list mclass) : list (string * string) :=
  flat_map (fun m => map (fun k => (c_name m, k)) (c_keys m)) cs.

Lemma component_table : component_for = pairs_of smart_registry.
Proof. reflexivity. Qed.

Lemma field_table : field_for = fields_of smart_registry.
Proof. reflexivity. Qed.

(** For every class of the registry the support check and the parent-only mark
    are those of the specification's tables. *)
Lemma registry_checks : Forall (fun m =>
  (forall k, In (c_name m, k) also_needs <-> c_check m = CKey k)
  /\ (In (c_name m) parent_only <-> c_parent_only m = true)
  /\ (c_name m = "Time" <-> c_check m = CNoHub)
  /\ (c_name m = "ColorTemperature" <-> c_check m = CRange)) smart_registry.
Proof.
  unfold smart_registry, plain, keyed.
  repeat (apply Forall_cons;
    [ cbn [c_name c_check c_parent_only];
      split; [intros k; unfold also_needs; cbn [In]; intuition congruence|];
      split; [unfold parent_only; cbn [In]; intuition discriminate|];
      split; intuition discriminate |]).
  apply Forall_nil.
Qed.

Lemma range_ok e r : range_is (e_info e) r ->
  exists b, range_varies (e_info e) = Ok b
    /\ (b = true <-> forall lo hi, r = Some (lo, hi) -> lo <> hi).
Proof.
  unfold range_is, range_varies. destruct r as [[lo hi]|].
  - intros ->. cbn. eexists. split; [reflexivity|].
    rewrite Bool.negb_true_iff, Z.eqb_neq. split.
    + intros H a b [= -> ->]. easy.
    + intros H. apply (H lo hi eq_refl).
  - intros [-> | ->]; eexists; (split; [reflexivity|]); split; easy.
Qed.

Lemma wanted_spec e m : wanted e m = true <->
  (c_parent_only m = true -> e_parent e <> Some false)
  /\ ((exists c, c_component m = Some c /\ In c (e_components e))
      \/ exists k v, In k (c_keys m) /\ dget k (e_info e) = Some v /\ v <> JNull).
Proof.
  unfold wanted. rewrite Bool.andb_true_iff, Bool.orb_true_iff, Bool.negb_true_iff.
  rewrite existsb_exists.
  assert (Hp : match e_parent e with Some false => c_parent_only m | _ => false end = false
               <-> (c_parent_only m = true -> e_parent e <> Some false)).
  { destruct (e_parent e) as [[]|], (c_parent_only m); intuition congruence. }
  assert (Hc : match c_component m with Some c => smem c (e_components e) | None => false end = true
               <-> exists c, c_component m = Some c /\ In c (e_components e)).
  { destruct (c_component m) as [c|].
    - rewrite smem_In. split; [eauto|]. intros (c' & [= <-] & H). easy.
    - split; [easy|]. intros (c & H & _). easy. }
  assert (Hk : (exists x, In x (c_keys m) /\ reported e x = true)
               <-> exists k v, In k (c_keys m) /\ dget k (e_info e) = Some v /\ v <> JNull).
  { unfold reported. split.
    - intros (k & Hk & H). exists k. destruct (dget k (e_info e)) as [v|]; [|easy].
      exists v. destruct v; easy.
    - intros (k & v & Hk & H & Hv). exists k. rewrite H. split; [easy|]. destruct v; easy. }
  rewrite Hp, Hc, Hk. reflexivity.
Qed.

Lemma offers_one_spec e r n : range_is (e_info e) r ->
  (exists m, In m smart_registry /\ c_name m = n /\ admitted e m) <-> offers_one e r n.
Proof.
  intros Hr. destruct (range_ok e r Hr) as (b & Eb & Hb).
  assert (Hchk : forall m, In m smart_registry ->
    (check_supported e (c_check m) = Ok true <->
     (forall k, In (c_name m, k) also_needs -> dget k (e_info e) <> None)
     /\ (c_name m = "Time" -> e_parent e <> Some true)
     /\ (c_name m = "ColorTemperature" -> forall lo hi, r = Some (lo, hi) -> lo <> hi))).
  { intros m Hm. pose proof registry_checks as HF. rewrite Forall_forall in HF.
    destruct (HF m Hm) as (Hn & Hpo & Ht & Hct).
    rewrite Ht, Hct. destruct (c_check m) as [|k| |] eqn:Ec; cbn [check_supported].
    - split; [|easy]. intros _. split; [|easy]. intros k Hk. apply Hn in Hk. easy.
    - split.
      + intros [= H]. split; [|easy]. intros k' Hk'. apply Hn in Hk'.
        injection Hk' as <-. unfold dmem in H. destruct (dget k (e_info e)); easy.
      + intros (H & _). f_equal. unfold dmem.
        specialize (H k (proj2 (Hn k) eq_refl)). destruct (dget k (e_info e)); easy.
    - rewrite Eb. split.
      + intros [= H]. split; [|split; [easy|]].
        * intros k Hk. apply Hn in Hk. easy.
        * intros _. apply Hb; easy.
      + intros (_ & _ & H). f_equal. apply Hb. auto.
    - split.
      + intros [= H]. split; [|split; [|easy]].
        * intros k Hk. apply Hn in Hk. easy.
        * intros _ E. rewrite E in H. easy.
      + intros (_ & H & _). f_equal. specialize (H eq_refl).
        destruct (e_parent e) as [[]|]; congruence. }
  split.
  - intros (m & Hm & <- & Hw & Hc). apply (Hchk m Hm) in Hc. destruct Hc as (Hc1 & Hc2 & Hc3).
    pose proof registry_checks as HF. rewrite Forall_forall in HF.
    destruct (HF m Hm) as (Hn & Hpo & Ht & Hct).
    apply wanted_spec in Hw. destruct Hw as (Hp & Hw).
    split; [|split; [exact Hc1|split; [|split; [|exact Hc3]]]].
    + destruct Hw as [(c & Ec & Hc)|(k & v & Hk & Hv & Hnn)].
      * left. exists c. split; [|easy]. rewrite component_table. apply in_flat_map.
        exists m. split; [easy|]. rewrite Ec. left. reflexivity.
      * right. exists k, v. split; [|easy]. rewrite field_table. apply in_flat_map.
        exists m. split; [easy|]. apply in_map_iff. exists k. easy.
    + intros H. apply Hp, Hpo, H.
    + intros H. specialize (Hc2 H).
      assert (Hf : e_parent e <> Some false).
      { apply Hp, Hpo. rewrite H. cbn. auto. }
      destruct (e_parent e) as [[]|]; congruence.
  - intros (Hs & Hn & Hpo & Ht & Hct).
    assert (Hex : exists m, In m smart_registry /\ c_name m = n
      /\ ((exists c, c_component m = Some c /\ In c (e_components e))
          \/ exists k v, In k (c_keys m) /\ dget k (e_info e) = Some v /\ v <> JNull)).
    { destruct Hs as [(c & Hc & Hin)|(k & v & Hk & Hv & Hnn)].
      - rewrite component_table in Hc. apply in_flat_map in Hc. destruct Hc as (m & Hm & Hc).
        exists m. destruct (c_component m) as [c'|] eqn:Ec; [|easy].
        destruct Hc as [[= <- <-]|[]]. split; [easy|]. split; [easy|]. left. exists c'. auto.
      - rewrite field_table in Hk. apply in_flat_map in Hk. destruct Hk as (m & Hm & Hk).
        apply in_map_iff in Hk. destruct Hk as (k' & [= <- ->] & Hk).
        exists m. split; [easy|]. split; [easy|]. right. exists k, v. auto. }
    destruct Hex as (m & Hm & <- & Hw). exists m. split; [easy|]. split; [easy|].
    pose proof registry_checks as HF. rewrite Forall_forall in HF.
    destruct (HF m Hm) as (_ & Hpo' & _ & _).
    split.
    + apply wanted_spec. split; [|exact Hw]. intros H. apply Hpo, Hpo', H.
    + apply Hchk; [easy|]. split; [exact Hn|]. split; [|exact Hct].
      intros H. rewrite (Ht H). easy.
Qed.

Lemma In_to_front n x ms : In x (to_front n ms) <-> In x ms.
Proof.
  unfold to_front. destruct (smem n ms) eqn:H; [|easy]. apply smem_In in H. cbn.
  rewrite filter_In, Bool.negb_true_iff, String.eqb_neq.
  destruct (string_dec x n) as [->|]; intuition congruence.
Qed.

Lemma NoDup_to_front n ms : NoDup ms -> NoDup (to_front n ms).
Proof.
  unfold to_front. destruct (smem n ms); [|easy]. intros H. constructor.
  - rewrite filter_In, Bool.negb_true_iff, String.eqb_neq. easy.
  - apply NoDup_filter. easy.
Qed.

(** C88: a device has exactly the modules it offers, each once, and Time, if
    there, comes first. *)
Theorem smart_modules e r : range_is (e_info e) r ->
  exists ms, init_modules e [] = (ms, Ok tt)
    /\ NoDup ms
    /\ (forall n, In n ms <-> offers e r n)
    /\ (In "Time" ms -> exists rest, ms = "Time" :: rest).
Proof.
  intros Hr. destruct (add_modules_exact e smart_registry []) as (ms & E & Hd & Hin).
  { intros m Hm. destruct (range_ok e r Hr) as (b & Eb & _).
    destruct (c_check m); cbn [check_supported]; eauto. }
  assert (Hone : forall n, In n ms <-> offers_one e r n).
  { intros n. rewrite Hin, <- (offers_one_spec e r n Hr). cbn. tauto. }
  exists (add_combined ms). unfold init_modules, mbind. rewrite E.
  split; [reflexivity|].
  unfold add_combined.
  set (m1 := if smem "Brightness" ms || smem "Color" ms || smem "ColorTemperature" ms
             then put "Light" ms else ms).
  set (m2 := if smem "TemperatureControl" m1 && smem "TemperatureSensor" m1
             then put "Thermostat" m1 else m1).
  assert (H1 : NoDup m1 /\ forall n, In n m1 <-> In n ms
     \/ n = "Light" /\ (In "Brightness" ms \/ In "Color" ms \/ In "ColorTemperature" ms)).
  { unfold m1. destruct (smem "Brightness" ms || _ || _) eqn:Es.
    - split; [apply NoDup_put; apply Hd; constructor|]. intros n. rewrite In_put.
      rewrite !Bool.orb_true_iff, !smem_In in Es. tauto.
    - split; [apply Hd; constructor|]. intros n.
      rewrite !Bool.orb_false_iff, !smem_false in Es. tauto. }
  destruct H1 as (D1 & H1).
  assert (H2 : NoDup m2 /\ forall n, In n m2 <-> In n m1
     \/ n = "Thermostat" /\ In "TemperatureControl" ms /\ In "TemperatureSensor" ms).
  { assert (Ht : forall t, t <> "Light" -> (In t m1 <-> In t ms)).
    { intros t Hne. rewrite H1. tauto. }
    unfold m2. destruct (smem "TemperatureControl" m1 && smem "TemperatureSensor" m1) eqn:Es.
    - split; [apply NoDup_put; easy|]. intros n. rewrite In_put.
      rewrite Bool.andb_true_iff, !smem_In, !Ht in Es by discriminate. tauto.
    - split; [easy|]. intros n.
      rewrite Bool.andb_false_iff, !smem_false, !Ht in Es by discriminate. tauto. }
  destruct H2 as (D2 & H2).
  split; [apply NoDup_to_front; easy|]. split.
  - intros n. rewrite In_to_front, H2, H1. unfold offers. rewrite <- !Hone. tauto.
  - rewrite In_to_front. intros H. apply smem_In in H. unfold to_front. rewrite H. eauto.
Qed.
Print Assumptions smart_modules.

(** A colour bulb that is a stand-alone device *)
Example smart_modules_ex :
  let e := mkEnv ["device"; "time"; "brightness"; "color"; "color_temperature"; "preset"]
             [("brightness", JInt 50); ("color_temp_range", JArr [JInt 2500; JInt 6500]);
              ("overheated", JBool false)] None in
  range_is (e_info e) (Some (2500, 6500))
  /\ fst (init_modules e []) = ["Time"; "Brightness"; "Color"; "ColorTemperature";
       "DeviceModule"; "LightPreset"; "OverheatProtection"; "Light"].
Proof. split; reflexivity. Qed.

(** A socket of a strip and a sensor of a hub leave out different modules. *)
Example smart_modules_children :
  let comps := ["device"; "time"; "firmware"; "temperature"; "temp_control"] in
  fst (init_modules (mkEnv comps [] (Some false)) [])
    = ["TemperatureControl"; "TemperatureSensor"; "Thermostat"]
  /\ fst (init_modules (mkEnv comps [] (Some true)) [])
    = ["DeviceModule"; "Firmware"; "TemperatureControl"; "TemperatureSensor"; "Thermostat"].
Proof. split; reflexivity. Qed.

(** C88: the same for cameras *)
Theorem cam_modules_exact components hub :
  NoDup (cam_modules components hub)
  /\ forall n, In n (cam_modules components hub) <-> cam_offers components hub n.
Proof.
  split.
  - unfold cam_modules.
    assert (H : forall (f : string * option string -> bool) l,
              NoDup (map fst l) -> NoDup (map fst (filter f l))).
    { intros f l. induction l as [|x l IH]; cbn; [easy|]. intros Hd. inversion Hd; subst.
      destruct (f x); [|auto]. cbn. constructor; [|auto].
      intros Hin. apply in_map_iff in Hin. destruct Hin as (y & Ey & Hy).
      apply filter_In in Hy. apply H1. rewrite <- Ey. apply in_map. easy. }
    apply H. cbn. repeat constructor; cbn; intuition discriminate.
  - intros n. unfold cam_modules. rewrite in_map_iff. split.
    + intros ([m o] & <- & Hin). apply filter_In in Hin. destruct Hin as (Hin & Hf).
      cbn [fst snd] in *. apply Bool.andb_true_iff in Hf. destruct Hf as (Hc & Hh).
      unfold cam_offers. destruct o as [c|].
      * right; right. exists c. split; [|split; [apply smem_In; easy|]].
        -- cbn in Hin. unfold cam_component_for. cbn [In]. intuition congruence.
        -- intros ->. exact Hh.
      * cbn in Hin. intuition congruence.
    + unfold cam_offers. intros [->|[->|(c & Hin & Hc & Hh)]].
      * exists ("devicemodule", None). split; [easy|]. apply filter_In. split; [cbn; tauto|easy].
      * exists ("Time", None). split; [easy|]. apply filter_In. split; [cbn; tauto|easy].
      * exists (n, Some c). split; [easy|]. apply filter_In. split.
        -- unfold cam_component_for in Hin. cbn [In] in Hin. cbn. intuition congruence.
        -- cbn [fst snd]. apply smem_In in Hc. rewrite Hc. cbn [andb].
           destruct (String.eqb_spec n "childdevice") as [En|]; [|reflexivity].
           rewrite (Hh En). reflexivity.
Qed.
Print Assumptions cam_modules_exact.

Example cam_modules_ex :
  cam_modules ["video"; "childControl"; "siren"] false = ["Alarm"; "Camera"; "devicemodule"; "Time"]
  /\ cam_modules ["childControl"] true = ["childdevice"; "devicemodule"; "Time"].
Proof. split; reflexivity. Qed.

(** ** C89 *)

Lemma add_all_ok ids : forall fs fs', add_all ids fs = (fs', Ok tt) -> fs' = fs ++ ids
  /\ (NoDup fs -> NoDup fs').
Proof.
  induction ids as [|i ids IH]; intros fs fs'.
  - cbn. intros [= <-]. rewrite app_nil_r. auto.
  - cbn [add_all]. unfold mbind, add_feature. destruct (smem i fs) eqn:H; [easy|].
    intros E. apply IH in E. destruct E as (-> & Hd). rewrite <- app_assoc. split; [reflexivity|].
    intros Hn. rewrite <- app_assoc in Hd. apply Hd. pose proof (NoDup_put i fs Hn) as Hp.
    unfold put in Hp. rewrite H in Hp. exact Hp.
Qed.

Lemma add_all_iff ids : forall fs, NoDup fs ->
  (NoDup (fs ++ ids) -> add_all ids fs = (fs ++ ids, Ok tt))
  /\ (~ NoDup (fs ++ ids) -> exists fs', add_all ids fs = (fs', Err KKasa)).
Proof.
  induction ids as [|i ids IH]; intros fs Hn.
  - cbn. rewrite app_nil_r. split; [reflexivity|easy].
  - cbn [add_all]. unfold mbind, add_feature. destruct (smem i fs) eqn:H.
    + split.
      * intros Hd. exfalso. apply smem_In in H. apply NoDup_remove_2 in Hd.
        apply Hd, in_app_iff. auto.
      * intros _. eauto.
    + pose proof (NoDup_put i fs Hn) as Hp. unfold put in Hp. rewrite H in Hp.
      destruct (IH (fs ++ [i]) Hp) as (IH1 & IH2). rewrite <- app_assoc in IH1, IH2.
      cbn in IH1, IH2. auto.
Qed.

Lemma mod_features_ok mods : forall fs fs',
  add_module_features mods fs = (fs', Ok tt) ->
  (exists idss, mods = map Ok idss /\ fs' = fs ++ concat idss) /\ (NoDup fs -> NoDup fs').
Proof.
  induction mods as [|r mods IH]; intros fs fs'.
  - cbn. intros [= <-]. split; [|easy]. exists []. cbn. rewrite app_nil_r. auto.
  - cbn [add_module_features]. unfold mbind, mlift. destruct r as [ids|e]; [|easy].
    destruct (add_all ids fs) as [fs1 [[]|e]] eqn:E; [|easy].
    apply add_all_ok in E. destruct E as (-> & Hd1). intros E2. apply IH in E2.
    destruct E2 as ((idss & -> & ->) & Hd2). split; [|auto].
    exists (ids :: idss). cbn. rewrite app_assoc. auto.
Qed.

Lemma mod_features_success idss : forall fs, NoDup (fs ++ concat idss) ->
  add_module_features (map Ok idss) fs = (fs ++ concat idss, Ok tt).
Proof.
  induction idss as [|ids idss IH]; intros fs Hd.
  - cbn. rewrite app_nil_r. reflexivity.
  - cbn [map add_module_features concat]. unfold mbind, mlift. cbn [concat] in Hd.
    rewrite app_assoc in Hd.
    assert (Hd1 : NoDup (fs ++ ids)).
    { apply NoDup_app_l in Hd. exact Hd. }
    assert (Hd0 : NoDup fs).
    { apply NoDup_app_l in Hd1. exact Hd1. }
    rewrite (proj1 (add_all_iff ids fs Hd0) Hd1). rewrite IH by exact Hd.
    rewrite <- app_assoc. reflexivity.
Qed.

Lemma all_features_concat own mods fs :
  all_features own mods fs <-> exists idss, mods = map Ok idss /\ fs = own ++ concat idss.
Proof.
  split.
  - induction 1 as [|mods ids fs H (idss & -> & ->)].
    + exists []. cbn. rewrite app_nil_r. auto.
    + exists (idss ++ [ids]). rewrite map_app, concat_app. cbn.
      rewrite app_nil_r, app_assoc. auto.
  - intros (idss & -> & ->). induction idss as [|ids idss IH] using rev_ind.
    + cbn. rewrite app_nil_r. constructor.
    + rewrite map_app, concat_app. cbn. rewrite app_nil_r, app_assoc. constructor. exact IH.
Qed.

(** A device without features gets all of them, each once, exactly when no
    module fails and no identifier occurs twice. *)
Theorem features_first own mods fs :
  update_features own mods [] = (fs, Ok tt) <-> all_features own mods fs /\ NoDup fs.
Proof.
  unfold update_features, init_features, mbind. rewrite all_features_concat. split.
  - destruct (add_all own []) as [f1 [[]|e]] eqn:E; [|easy].
    apply add_all_ok in E. cbn in E. destruct E as (-> & Hd1). intros E2.
    apply mod_features_ok in E2. destruct E2 as (Hex & Hd2). split; [exact Hex|].
    apply Hd2, Hd1. constructor.
  - intros ((idss & -> & ->) & Hd).
    assert (Hd0 : NoDup ([] ++ own)).
    { apply NoDup_app_l in Hd. exact Hd. }
    rewrite (proj1 (add_all_iff own [] (NoDup_nil _)) Hd0). cbn [app].
    apply mod_features_success. exact Hd.
Qed.
Print Assumptions features_first.

(** Features never change once there are some. *)
Lemma updates_keep tries : forall f fs,
  fst (updates tries (f :: fs)) = f :: fs
  /\ Forall (fun r => r = Ok tt) (snd (updates tries (f :: fs))).
Proof.
  induction tries as [|[own mods] tries IH]; intros f fs; [cbn; auto|].
  cbn [updates update_features]. specialize (IH f fs).
  destruct (updates tries (f :: fs)) as [fs' rs]. cbn in *. destruct IH; auto.
Qed.

(** C89: if the first update that gets as far as the features succeeds, the
    device has all its features from then on, whatever happens later, and no
    later update fails because of them.  Missing from the full statement: the
    case where that update fails half way. *)
Theorem features_complete_partial own mods fs rest :
  all_features own mods fs -> NoDup fs -> fs <> [] ->
  fst (updates ((own, mods) :: rest) []) = fs
  /\ Forall (fun r => r = Ok tt) (snd (updates ((own, mods) :: rest) [])).
Proof.
  intros Ha Hd Hne. cbn [updates].
  rewrite (proj2 (features_first own mods fs) (conj Ha Hd)).
  destruct fs as [|f fs]; [easy|].
  pose proof (updates_keep rest f fs) as (H1 & H2).
  destruct (updates rest (f :: fs)) as [fs' rs]. cbn in *. auto.
Qed.
Print Assumptions features_complete_partial.

Example features_complete_ex :
  let own := smart_own [("device_on", JBool true); ("rssi", JInt (-50))] false in
  let mods := [Ok ["device_time"]; Ok ["brightness"]] in
  all_features own mods ["device_id"; "state"; "rssi"; "reboot"; "device_time"; "brightness"]
  /\ NoDup ["device_id"; "state"; "rssi"; "reboot"; "device_time"; "brightness"].
Proof.
  split; [|repeat constructor; cbn; intuition discriminate].
  apply all_features_concat. exists [["device_time"]; ["brightness"]]. split; reflexivity.
Qed.

(** A camera hub whose siren module comes first and whose connection query
    failed during the first update: the device module raises while the
    features are set up.  Every later update reports success, although the
    features of the device module and of everything after it are missing. *)
Definition hub_ok : list (res (list string)) :=
  [Ok ["alarm"; "alarm_sound"]; Ok ["device_id"; "rssi"; "signal_level"]; Ok ["device_time"]].
Definition hub_bad : list (res (list string)) :=
  [Ok ["alarm"; "alarm_sound"]; Err (KDevice (Some (-1))); Ok ["device_time"]].

Theorem features_complete_refuted : forall later,
  let r := updates (([], hub_bad) :: repeat ([], hub_ok) (S later)) [] in
  fst r = ["alarm"; "alarm_sound"]
  /\ snd r = Err (KDevice (Some (-1))) :: repeat (Ok tt) (S later)
  /\ all_features [] hub_ok
       ["alarm"; "alarm_sound"; "device_id"; "rssi"; "signal_level"; "device_time"].
Proof.
  intros later. cbv zeta. generalize (S later) as n. intros n.
  assert (H : forall n fs, fs = ["alarm"; "alarm_sound"] ->
     updates (repeat ([], hub_ok) n) fs = (["alarm"; "alarm_sound"], repeat (Ok tt) n)).
  { clear n. intros n fs ->. induction n as [|n IH]; [reflexivity|].
    cbn [repeat updates update_features]. rewrite IH. reflexivity. }
  split; [|split].
  - cbn [updates]. change (update_features [] hub_bad [])
      with (["alarm"; "alarm_sound"], @Err unit (KDevice (Some (-1)))).
    cbv beta iota. rewrite H by reflexivity. reflexivity.
  - cbn [updates]. change (update_features [] hub_bad [])
      with (["alarm"; "alarm_sound"], @Err unit (KDevice (Some (-1)))).
    cbv beta iota. rewrite H by reflexivity. reflexivity.
  - apply all_features_concat. unfold hub_ok.
    exists [["alarm"; "alarm_sound"]; ["device_id"; "rssi"; "signal_level"]; ["device_time"]].
    split; reflexivity.
Qed.
Print Assumptions features_complete_refuted.

(** Two modules that define the same identifier make the first update fail
    with a library exception: a device with both the child_protection and the
    button_and_led component (both modules define "child_lock"), or with both
    battery_detect and clean (both define "battery_level"), cannot be set up. *)
Theorem features_clash own idss :
  NoDup own -> ~ NoDup (own ++ concat idss) ->
  snd (update_features own (map Ok idss) []) = Err KKasa.
Proof.
  intros Hd Hc. unfold update_features, init_features, mbind.
  rewrite (proj1 (add_all_iff own [] (NoDup_nil _)) Hd). cbn [app].
  assert (H : forall idss fs, NoDup fs -> ~ NoDup (fs ++ concat idss) ->
            snd (add_module_features (map Ok idss) fs) = Err KKasa).
  { clear. induction idss as [|ids idss IH]; intros fs Hd Hc.
    - cbn in Hc. rewrite app_nil_r in Hc. easy.
    - cbn [map add_module_features]. unfold mbind, mlift.
      destruct (NoDup_dec string_dec (fs ++ ids)) as [Hn|Hn].
      + rewrite (proj1 (add_all_iff ids fs Hd) Hn). apply IH; [easy|].
        cbn [concat] in Hc. rewrite app_assoc in Hc. exact Hc.
      + destruct (proj2 (add_all_iff ids fs Hd) Hn) as (fs' & ->). reflexivity. }
  apply H; easy.
Qed.
Print Assumptions features_clash.

Example features_clash_ex :
  snd (update_features ["device_id"; "reboot"] (map Ok [["child_lock"]; ["child_lock"]]) [])
  = Err KKasa.
Proof. reflexivity. Qed.

(** The device's own features: nothing else than its info decides, and no
    identifier occurs twice. *)
Theorem smart_own_features info unpair :
  NoDup (smart_own info unpair)
  /\ forall id, In id (smart_own info unpair) <->
       id = "device_id" \/ id = "reboot" \/ (id = "unpair" /\ unpair = true)
       \/ exists k, In (k, id) [("device_on", "state"); ("signal_level", "signal_level");
                                ("rssi", "rssi"); ("ssid", "ssid"); ("on_time", "on_since")]
                    /\ dget k info <> None.
Proof.
  assert (Hm : forall k, dget k info <> None <-> dmem k info = true).
  { intros k. unfold dmem. destruct (dget k info); easy. }
  split.
  - unfold smart_own.
    destruct (dmem "device_on" info), (dmem "signal_level" info), (dmem "rssi" info),
      (dmem "ssid" info), (dmem "on_time" info), unpair; cbn;
      repeat constructor; cbn; intuition discriminate.
  - intros id. unfold smart_own. rewrite !in_app_iff.
    assert (Ho : forall k x, In id (if dmem k info then [x] else [])
                 <-> x = id /\ dmem k info = true).
    { intros k x. destruct (dmem k info); cbn; intuition discriminate. }
    rewrite !Ho. cbn [In].
    assert (Hu : In id (if unpair then ["unpair"] else []) <-> "unpair" = id /\ unpair = true).
    { destruct unpair; cbn; intuition discriminate. }
    rewrite Hu. split.
    + intros H.
      destruct H as [[H|[]]|[[H M]|[[H M]|[[H M]|[[H M]|[[H M]|[[H|[]]|[H M]]]]]]]];
        [left; congruence| | | | | |right; left; congruence|right; right; left; intuition congruence];
        right; right; right; eexists; rewrite Hm; (split; [|exact M]); rewrite <- H; tauto.
    + intros [->|[->|[[-> ->]|(k & Hk & M)]]]; [tauto|tauto|tauto|].
      rewrite Hm in M.
      destruct Hk as [[= <- <-]|[[= <- <-]|[[= <- <-]|[[= <- <-]|[[= <- <-]|[]]]]]]; tauto.
Qed.
Print Assumptions smart_own_features.

(** ** C90 *)

(** The first time an attribute is asked for, the answer is the feature the
    attribute is bound to, if the module has it now. *)
Theorem feature_lookup cls fs a cache : dget a cache = None ->
  match cls a with
  | ANone | AFree => get_feature cls fs a cache = (cache, Err KKasa)
  | ABound (Some n) => exists o, snd (get_feature cls fs a cache) = Ok o
      /\ match o with
         | Some f => In f fs /\ f_id f = n
         | None => forall f, In f fs -> f_id f <> n
         end
  | ABound None => exists o, snd (get_feature cls fs a cache) = Ok o
      /\ match o with
         | Some f => In f fs /\ (f_getter f = Some a \/ f_setter f = Some a)
         | None => forall f, In f fs -> f_getter f <> Some a /\ f_setter f <> Some a
         end
  end.
Proof.
  intros Hc. unfold get_feature. rewrite Hc. unfold bound_feature.
  destruct (cls a) as [| |[n|]]; [reflexivity|reflexivity| |].
  - eexists. split; [reflexivity|]. destruct (find _ fs) as [f|] eqn:E.
    + apply find_some in E. destruct E as (Hin & E). apply String.eqb_eq in E. auto.
    + intros f Hf Hid. apply (find_none _ _ E) in Hf. apply String.eqb_neq in Hf. auto.
  - assert (Hg : forall o, goes_by a o = true <-> o = Some a).
    { intros [x|]; cbn; [rewrite String.eqb_eq|]; split; congruence. }
    eexists. split; [reflexivity|]. destruct (find _ fs) as [f|] eqn:E.
    + apply find_some in E. destruct E as (Hin & E).
      rewrite Bool.orb_true_iff, !Hg in E. auto.
    + intros f Hf. apply (find_none _ _ E) in Hf.
      rewrite Bool.orb_false_iff in Hf. rewrite <- !Hg. intuition congruence.
Qed.
Print Assumptions feature_lookup.

Lemma get_feature_cache cls fs a b cache :
  dget b (fst (get_feature cls fs a cache))
  = if String.eqb b a then
      match dget a cache with
      | Some r => Some r
      | None => match bound_feature cls fs a with Ok r => Some r | Err _ => None end
      end
    else dget b cache.
Proof.
  unfold get_feature. destruct (String.eqb_spec b a) as [->|Hne].
  - destruct (dget a cache) eqn:E; cbn; [exact E|].
    destruct (bound_feature cls fs a); cbn; [apply dget_dset_same|exact E].
  - destruct (dget a cache); cbn; [easy|].
    destruct (bound_feature cls fs a); cbn; [apply dget_dset_other; easy|easy].
Qed.

(** As long as the features do not change, every answer is the right one, in
    any order of questions. *)
Theorem feature_lookups_partial cls fs qs a :
  (forall q, In q qs -> fst q = fs) ->
  snd (get_feature cls fs a (lookups cls qs [])) = bound_feature cls fs a.
Proof.
  intros Hq.
  assert (H : forall qs cache, (forall q, In q qs -> fst q = fs) ->
    (forall b r, dget b cache = Some r -> bound_feature cls fs b = Ok r) ->
    forall b r, dget b (lookups cls qs cache) = Some r -> bound_feature cls fs b = Ok r).
  { clear. induction qs as [|[fs' a] qs IH]; intros cache Hq Hc; [exact Hc|].
    cbn [lookups]. apply IH; [intros; apply Hq; right; easy|].
    assert (fs' = fs) as -> by exact (Hq (fs', a) (or_introl eq_refl)).
    intros b r. rewrite get_feature_cache. destruct (String.eqb_spec b a) as [->|]; [|apply Hc].
    destruct (dget a cache) eqn:E; [intros [= <-]; apply Hc; exact E|].
    destruct (bound_feature cls fs a); congruence. }
  unfold get_feature. destruct (dget a (lookups cls qs [])) as [r|] eqn:E.
  - cbn. symmetry. apply (H qs [] Hq); [easy|exact E].
  - destruct (bound_feature cls fs a); reflexivity.
Qed.
Print Assumptions feature_lookups_partial.

(** Asking before the features exist (after a first update that failed) makes
    the feature look unsupported for ever. *)
Theorem feature_lookup_refuted cls fs a fname f later :
  cls a = ABound fname -> bound_feature cls fs a = Ok (Some f) ->
  snd (get_feature cls fs a (lookups cls (([], a) :: later) [])) = Ok None.
Proof.
  intros Hb _.
  assert (H : forall qs cache, dget a cache = Some None -> dget a (lookups cls qs cache) = Some None).
  { induction qs as [|[fs' b] qs IH]; intros cache Hc; [exact Hc|].
    cbn [lookups]. apply IH. rewrite get_feature_cache.
    destruct (String.eqb_spec a b) as [<-|]; [rewrite Hc; reflexivity|exact Hc]. }
  unfold get_feature. cbn [lookups]. rewrite H; [reflexivity|].
  rewrite get_feature_cache, String.eqb_refl. unfold bound_feature. rewrite Hb.
  destruct fname; reflexivity.
Qed.
Print Assumptions feature_lookup_refuted.

(** A light asked for its brightness *)
Example feature_lookup_ex :
  let cls := fun a => if String.eqb a "brightness" then ABound None
                      else if String.eqb a "state" then AFree else ANone in
  let fs := [mkFeat "hsv" (Some "hsv") (Some "set_hsv");
             mkFeat "brightness" (Some "brightness") (Some "set_brightness")] in
  snd (get_feature cls fs "brightness" []) = Ok (Some (mkFeat "brightness" (Some "brightness") (Some "set_brightness")))
  /\ snd (get_feature cls fs "state" []) = Err KKasa
  /\ snd (get_feature cls fs "brightness" (lookups cls [([], "brightness")] [])) = Ok None.
Proof. repeat split. Qed.

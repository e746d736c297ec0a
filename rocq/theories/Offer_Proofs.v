(** Lemmas for Offer_Props. *)
From Verif Require Import Base Py Base_Lemmas Smod_Model Feats_Model Feats_Spec Feats_Props Gadget_Model CamMod_Model WholeCam_Spec Read_Model Read_Spec Read_Proofs Read_Props
  CamRead_Model CamRead_Spec CamRead_Proofs CamRead_Props Offer_Model Offer_Spec.
Open Scope string_scope.
Open Scope list_scope.
Open Scope Z_scope.

(** ** Lists of lists *)

Lemma NoDup_app {A} (a b : list A) : NoDup (a ++ b) <-> NoDup a /\ NoDup b /\ forall x, In x a -> In x b -> False.
Proof.
  induction a as [|y a IH]; cbn [List.app].
  - split; [intros H; repeat split; auto; constructor|tauto].
  - split.
    + intros H. inversion H as [|? ? N D]; subst. apply IH in D. destruct D as (Da & Db & X). repeat split; auto.
      * constructor; auto. intros I. apply N. apply in_or_app. auto.
      * intros x [->|I] J; [apply N; apply in_or_app; auto|eauto].
    + intros (Da & Db & X). inversion Da as [|? ? N D]; subst. constructor.
      * intros I. apply in_app_or in I. destruct I as [I|I]; [auto|]. apply (X y); [left; reflexivity|exact I].
      * apply IH. repeat split; auto. intros x I J. apply (X x); [right; exact I|exact J].
Qed.
Lemma NoDup_concat {A} (g : string -> list A) ms : NoDup ms ->
  (forall n, In n ms -> NoDup (g n)) -> (forall n n' x, In n ms -> In n' ms -> In x (g n) -> In x (g n') -> n = n') ->
  NoDup (concat (map g ms)).
Proof.
  induction ms as [|n ms IH]; cbn [map concat]; intros D E X; [constructor|]. inversion D as [|? ? N D']; subst.
  apply NoDup_app. split; [apply E; left; reflexivity|]. split.
  - apply IH; auto. intros m I; apply E; right; exact I. intros a b x I J; apply X; right; assumption.
  - intros x I J. apply in_concat in J. destruct J as (l & L & J). apply in_map_iff in L. destruct L as (n' & <- & N').
    apply N. rewrite (X n n' x); auto; [left; reflexivity|right; exact N'].
Qed.
Lemma NoDup_concat_not {A} (g : string -> list A) ms n n' x : n <> n' -> In n ms -> In n' ms -> In x (g n) -> In x (g n') ->
  ~ NoDup (concat (map g ms)).
Proof.
  intros N. induction ms as [|m ms IH]; cbn [map concat]; intros I J X Y; [destruct I|].
  intros D. apply NoDup_app in D. destruct D as (_ & D & E).
  assert (C : forall a, In a ms -> In x (g a) -> In x (concat (map g ms))).
  { intros a Ia Xa. apply in_concat. exists (g a). split; [apply in_map; exact Ia|exact Xa]. }
  destruct I as [->|I].
  - destruct J as [J|J]; [contradiction|]. exact (E x X (C _ J Y)).
  - destruct J as [->|J]; [exact (E x Y (C _ I X))|]. exact (IH I J X Y D).
Qed.

(** ** The tables *)
Section Tables.
Variables (f : facts) (smooth : Z) (own : dict reply) (parent : option (dict reply)) (info : dict json).
Notation rows := (rows f smooth own parent info).
Notation feats := (feats f smooth own parent info).
Notation module_features := (module_features f smooth own parent info).
Notation wear := (wear own parent info).

Definition pair_of (r : row) : string * string := (r_module r, r_id r).
Definition pair_eqb (a b : string * string) : bool := String.eqb (fst a) (fst b) && String.eqb (snd a) (snd b).
Lemma pair_eqb_eq a b : pair_eqb a b = true <-> a = b.
Proof.
  destruct a, b. unfold pair_eqb. cbn [fst snd]. rewrite Bool.andb_true_iff, !String.eqb_eq. intuition congruence.
Qed.
Definition clashing : list (string * string * string) :=
  [("ChildLock", "ChildProtection", "child_lock"); ("BatterySensor", "Clean", "battery_level")].
Definition clash_b (a b : string * string) : bool :=
  existsb (fun c => (String.eqb (fst a) (fst (fst c)) && String.eqb (fst b) (snd (fst c))
                     || String.eqb (fst b) (fst (fst c)) && String.eqb (fst a) (snd (fst c)))
                    && String.eqb (snd a) (snd c)) clashing.
Lemma table_ids worn :
  forallb (fun a => forallb (fun b => negb (String.eqb (snd a) (snd b)) || String.eqb (fst a) (fst b) || clash_b a b)
                            (map pair_of (rows worn))) (map pair_of (rows worn)) = true.
Proof. vm_compute. reflexivity. Qed.
Fixpoint nodup_b (l : list (string * string)) : bool :=
  match l with [] => true | a :: l => negb (existsb (pair_eqb a) l) && nodup_b l end.
Lemma nodup_b_ok l : nodup_b l = true -> NoDup l.
Proof.
  induction l as [|a l IH]; cbn [nodup_b]; [constructor|]. intros H. apply Bool.andb_true_iff in H. destruct H as (H & H').
  constructor; [|auto]. intros I. apply Bool.negb_true_iff in H.
  assert (T : existsb (pair_eqb a) l = true). { apply existsb_exists. exists a. split; [exact I|]. apply pair_eqb_eq. reflexivity. }
  congruence.
Qed.
Lemma table_nodup worn : NoDup (map pair_of (rows worn)).
Proof. apply nodup_b_ok. vm_compute. reflexivity. Qed.
Definition own_ids : list string := ["device_id"; "state"; "signal_level"; "rssi"; "ssid"; "on_since"; "reboot"; "unpair"].
Lemma table_own worn :
  forallb (fun a => negb (smem (snd a) own_ids) || pair_eqb a ("TemperatureControl", "state")) (map pair_of (rows worn)) = true.
Proof. vm_compute. reflexivity. Qed.

Lemma in_feats worn n id g : In (id, g) (feats worn n) <->
  exists r, In r (rows worn) /\ r_module r = n /\ r_when r = true /\ r_id r = id /\ r_getter r = g.
Proof.
  unfold Offer_Model.feats. rewrite in_map_iff. split.
  - intros (r & E & I). apply filter_In in I. destruct I as (I & C). apply Bool.andb_true_iff in C. destruct C as (C & W).
    apply String.eqb_eq in C. injection E as E1 E2. eauto 6.
  - intros (r & I & M & W & E1 & E2). exists r. split; [congruence|]. apply filter_In. split; [exact I|].
    rewrite W, Bool.andb_true_r. apply String.eqb_eq. exact M.
Qed.
Lemma in_ids worn n id : In id (map fst (feats worn n)) <->
  existsb (fun r => String.eqb (r_module r) n && (String.eqb (r_id r) id && r_when r)) (rows worn) = true.
Proof.
  rewrite existsb_exists, in_map_iff. split.
  - intros ((i & g) & <- & I). apply in_feats in I. destruct I as (r & I & M & W & E1 & _). exists r. split; [exact I|].
    rewrite M, E1, W. cbn [fst]. rewrite !String.eqb_refl. reflexivity.
  - intros (r & I & C). apply Bool.andb_true_iff in C. destruct C as (M & C). apply Bool.andb_true_iff in C. destruct C as (E & W).
    apply String.eqb_eq in M, E. exists (id, r_getter r). split; [reflexivity|]. apply in_feats. eauto 6.
Qed.
Lemma in_ids_row worn n id : In id (map fst (feats worn n)) -> In (n, id) (map pair_of (rows worn)).
Proof.
  intros I. apply in_map_iff in I. destruct I as ((i & g) & <- & I). apply in_feats in I.
  destruct I as (r & I & M & _ & E & _). apply in_map_iff. exists r. split; [unfold pair_of; cbn [fst]; congruence|exact I].
Qed.
Lemma ids_nodup worn n : NoDup (map fst (feats worn n)).
Proof.
  unfold Offer_Model.feats. rewrite map_map. cbn [fst]. generalize (table_nodup worn). generalize (rows worn) as l.
  induction l as [|r l IH]; cbn [map filter]; intros D; [constructor|]. inversion D as [|? ? N D']; subst.
  destruct (String.eqb (r_module r) n && r_when r) eqn:C; [|auto]. cbn [map]. constructor; [|auto].
  intros I. apply in_map_iff in I. destruct I as (r' & E & I). apply filter_In in I. destruct I as (I & C').
  apply Bool.andb_true_iff in C, C'. destruct C as (C & _). destruct C' as (C' & _). apply String.eqb_eq in C, C'.
  apply N. apply in_map_iff. exists r'. split; [unfold pair_of; congruence|exact I].
Qed.
Lemma ids_clash worn n n' id : In id (map fst (feats worn n)) -> In id (map fst (feats worn n')) -> n <> n' ->
  (n, n', id) = ("ChildLock", "ChildProtection", "child_lock") \/ (n', n, id) = ("ChildLock", "ChildProtection", "child_lock")
  \/ (n, n', id) = ("BatterySensor", "Clean", "battery_level") \/ (n', n, id) = ("BatterySensor", "Clean", "battery_level").
Proof.
  intros I J N. apply in_ids_row in I, J. pose proof (table_ids worn) as T. rewrite forallb_forall in T. specialize (T _ I).
  rewrite forallb_forall in T. specialize (T _ J). cbn [fst snd] in T. rewrite String.eqb_refl in T. cbn [negb orb] in T.
  destruct (String.eqb_spec n n') as [|_]; [contradiction|]. cbn [orb] in T. unfold clash_b, clashing in T. cbn [existsb fst snd] in T.
  rewrite Bool.orb_false_r in T. rewrite !Bool.orb_true_iff, !Bool.andb_true_iff, !Bool.orb_true_iff, !Bool.andb_true_iff, !String.eqb_eq in T.
  intuition congruence.
Qed.
Lemma ids_own worn n id : In id (map fst (feats worn n)) -> In id own_ids -> n = "TemperatureControl" /\ id = "state".
Proof.
  intros I J. apply in_ids_row in I. pose proof (table_own worn) as T. rewrite forallb_forall in T. specialize (T _ I).
  cbn [snd] in T. apply smem_In in J. rewrite J in T. cbn [negb orb] in T. apply pair_eqb_eq in T. split; congruence.
Qed.

(** Only the features of the consumables depend on their wear. *)
Lemma feats_worn w1 w2 n : n <> "Consumables" -> feats w1 n = feats w2 n.
Proof.
  intros N. unfold Offer_Model.feats, Offer_Model.rows. rewrite !filter_app, !map_app.
  assert (E : String.eqb "Consumables" n = false). { apply String.eqb_neq. congruence. }
  assert (Z : forall ms (wr : dict json), filter (fun r => String.eqb (r_module r) n && r_when r)
     (flat_map (fun m : string * string => let here := dmem (snd m) wr in
       [ mkRow "Consumables" here (fst m ++ "_used")%string Other; mkRow "Consumables" here (fst m ++ "_remaining")%string Other;
         mkRow "Consumables" here (fst m ++ "_reset")%string Other ]) ms) = []).
  { induction ms as [|m ms IH]; intros wr; [reflexivity|]. cbn [flat_map]. rewrite filter_app, IH. cbv zeta. cbn [filter r_module r_when]. rewrite E. reflexivity. }
  unfold rows_of_wear. rewrite !Z. reflexivity.
Qed.
Lemma features_ok worn ms : (In "Consumables" ms -> wear = Ok worn) ->
  forall n, In n ms -> module_features n = Ok (feats worn n).
Proof.
  intros C n I. unfold Offer_Model.module_features. destruct (String.eqb_spec n "Consumables") as [->|N].
  - rewrite (C I). reflexivity.
  - cbn [bind]. rewrite (feats_worn [] worn n N). reflexivity.
Qed.
Lemma gathered_ok worn ms : (forall n, In n ms -> module_features n = Ok (feats worn n)) ->
  gathered f smooth own parent info ms = Ok (concat (map (feats worn) ms)).
Proof.
  induction ms as [|n ms IH]; intros H; [reflexivity|]. cbn [gathered map concat].
  rewrite (H n) by (left; reflexivity). cbn [bind]. rewrite IH by (intros m I; apply H; right; exact I). reflexivity.
Qed.
Lemma mods_ok worn ms : (forall n, In n ms -> module_features n = Ok (feats worn n)) ->
  map (fun n => let! l := module_features n in Ok (map fst l)) ms = map Ok (map (fun n => map fst (feats worn n)) ms).
Proof.
  induction ms as [|n ms IH]; intros H; [reflexivity|]. cbn [map].
  rewrite (H n) by (left; reflexivity). cbn [bind]. rewrite IH by (intros m I; apply H; right; exact I). reflexivity.
Qed.

Lemma own_is unpair : map fst (own_features info unpair) = smart_own info unpair.
Proof.
  unfold own_features, smart_own, has. rewrite !map_app.
  destruct (dmem "device_on" info), (dmem "signal_level" info), (dmem "rssi" info), (dmem "ssid" info), (dmem "on_time" info), unpair; reflexivity.
Qed.
Lemma own_in unpair id : In id (smart_own info unpair) -> In id own_ids.
Proof.
  unfold smart_own.
  destruct (dmem "device_on" info), (dmem "signal_level" info), (dmem "rssi" info), (dmem "ssid" info), (dmem "on_time" info), unpair;
    cbn; tauto.
Qed.

Lemma concat_fst {A B} (g : string -> list (A * B)) ms : map fst (concat (map g ms)) = concat (map (fun n => map fst (g n)) ms).
Proof. induction ms as [|n ms IH]; [reflexivity|]. cbn [map concat]. rewrite map_app, IH. reflexivity. Qed.

(** A device none of whose modules clash *)
Definition clear_of_clashes (worn : dict json) (ms : list string) : Prop :=
  ~ (In "ChildLock" ms /\ In "ChildProtection" ms)
  /\ ~ (In "BatterySensor" ms /\ In "battery_level" (map fst (feats worn "BatterySensor")) /\ In "Clean" ms)
  /\ ~ (In "TemperatureControl" ms /\ In "state" (map fst (own_features info false))).
Lemma state_own unpair : In "state" (map fst (own_features info unpair)) <-> dmem "device_on" info = true.
Proof.
  rewrite own_is. unfold smart_own.
  destruct (dmem "device_on" info), (dmem "signal_level" info), (dmem "rssi" info), (dmem "ssid" info), (dmem "on_time" info), unpair;
    cbn; intuition discriminate.
Qed.
Lemma first_ok worn ms unpair : (forall n, In n ms -> module_features n = Ok (feats worn n)) -> NoDup ms -> clear_of_clashes worn ms ->
  first_features f smooth own parent info unpair ms = Ok (own_features info unpair ++ concat (map (feats worn) ms))
  /\ NoDup (map fst (own_features info unpair ++ concat (map (feats worn) ms))).
Proof.
  intros H D (C1 & C2 & C3).
  assert (X : NoDup (map fst (own_features info unpair ++ concat (map (feats worn) ms)))).
  { rewrite map_app, concat_fst. apply NoDup_app. split; [|split].
    - rewrite own_is. apply smart_own_features.
    - apply NoDup_concat; [exact D|intros n _; apply ids_nodup|]. intros n n' x I I' J J'.
      destruct (string_dec n n') as [E|N]; [exact E|exfalso].
      pose proof (ids_clash worn n n' x J J' N) as Y.
      destruct Y as [Y|[Y|[Y|Y]]]; injection Y as E1 E2 E3; rewrite E1, E2 in *; tauto || (apply C2; rewrite E3 in *; tauto).
    - intros x I J. apply in_concat in J. destruct J as (l & L & J). apply in_map_iff in L. destruct L as (n & <- & N).
      rewrite own_is in I. pose proof I as I0. apply own_in in I0. destruct (ids_own worn n x J I0) as (-> & ->).
      apply C3. split; [exact N|]. rewrite <- own_is in I. apply state_own in I. apply state_own. exact I. }
  split; [|exact X]. unfold first_features. rewrite (mods_ok worn ms H).
  assert (U : update_features (map fst (own_features info unpair)) (map Ok (map (fun n => map fst (feats worn n)) ms)) []
              = (map fst (own_features info unpair ++ concat (map (feats worn) ms)), Ok tt)).
  { apply features_first. split; [|exact X]. apply all_features_concat. eexists. split; [reflexivity|].
    rewrite map_app, concat_fst. reflexivity. }
  rewrite U. cbn [snd bind]. rewrite (gathered_ok worn ms H). reflexivity.
Qed.
Lemma first_clash worn ms unpair : (forall n, In n ms -> module_features n = Ok (feats worn n)) -> ~ clear_of_clashes worn ms ->
  first_features f smooth own parent info unpair ms = Err KKasa.
Proof.
  intros H C. unfold first_features. rewrite (mods_ok worn ms H). rewrite features_clash; [reflexivity|rewrite own_is; apply smart_own_features|].
  intros X. apply C. apply NoDup_app in X. destruct X as (_ & X & Y). unfold clear_of_clashes.
  assert (A : In "child_lock" (map fst (feats worn "ChildLock"))). { apply in_ids. reflexivity. }
  assert (A' : In "child_lock" (map fst (feats worn "ChildProtection"))). { apply in_ids. reflexivity. }
  assert (B : In "battery_level" (map fst (feats worn "Clean"))). { apply in_ids. reflexivity. }
  assert (S : In "state" (map fst (feats worn "TemperatureControl"))). { apply in_ids. reflexivity. }
  split; [|split].
  - intros (I & J). refine (NoDup_concat_not (fun n => map fst (feats worn n)) ms "ChildLock" "ChildProtection" "child_lock" _ I J A A' X). discriminate.
  - intros (I & P & J). refine (NoDup_concat_not (fun n => map fst (feats worn n)) ms "BatterySensor" "Clean" "battery_level" _ I J P B X). discriminate.
  - intros (I & J). apply (Y "state").
    + apply state_own in J. apply state_own. exact J.
    + apply in_concat. exists (map fst (feats worn "TemperatureControl")). split; [|exact S]. apply in_map_iff. eauto.
Qed.

(** The getter of a feature *)
Definition getter_in (l : list row) (n id : string) : option getter :=
  option_map r_getter (find (fun r => pair_eqb (pair_of r) (n, id)) l).
Lemma getter_ok worn n id g : In (id, g) (feats worn n) -> getter_in (rows worn) n id = Some g.
Proof.
  intros I. apply in_feats in I. destruct I as (r & I & M & _ & E & <-). unfold getter_in. generalize (table_nodup worn) as D.
  revert I. generalize (rows worn) as l. induction l as [|x l IH]; intros I D; [destruct I|]. cbn [map] in D. inversion D as [|? ? N D']; subst.
  cbn [find]. destruct (pair_eqb (pair_of x) (r_module r, r_id r)) eqn:P.
  - cbn [option_map]. apply pair_eqb_eq in P. destruct I as [->|I]; [reflexivity|]. exfalso. apply N. rewrite P. apply in_map_iff. exists r. split; [reflexivity|exact I].
  - destruct I as [->|I]; [|auto]. exfalso. assert (T : pair_eqb (pair_of r) (r_module r, r_id r) = true) by (apply pair_eqb_eq; reflexivity). congruence.
Qed.
End Tables.

(** ** What a device gives *)
Definition in_table (t : list (string * list string)) (n id : string) : bool :=
  existsb (fun p : string * list string => String.eqb (fst p) n && existsb (String.eqb id) (snd p)) t.
Lemma in_table_ok t n id : in_table t n id = true -> exists l, In (n, l) t /\ In id l.
Proof.
  intros H. apply existsb_exists in H. destruct H as ((m & l) & I & C). apply Bool.andb_true_iff in C. destruct C as (E & C). cbn [fst snd] in *.
  apply String.eqb_eq in E as ->. apply existsb_exists in C. destruct C as (x & J & E). apply String.eqb_eq in E as <-. eauto.
Qed.

Section Given.
Variables (f : facts) (smooth : Z) (own : dict reply) (parent : option (dict reply)) (info : dict json) (w : answers) (worn : dict json).
Hypothesis (Hi : w "get_device_info" = RVal (JObj info)).
Lemma has_told k : has info k = true <-> fld w "get_device_info" [k] <> None.
Proof. unfold fld. rewrite Hi. cbn [follow]. unfold has, dmem. destruct (dget k info); intuition congruence. Qed.

Definition gives_rest (n id : string) : Prop :=
  let told k := fld w "get_device_info" [k] <> None in
  (n = "BatterySensor" /\ (id = "battery_low" /\ (told "at_low_battery" \/ told "is_low")
                              \/ id = "battery_level" /\ told "battery_percentage"))
  \/ (n = "Consumables" /\ exists part hours, In (part, hours) parts /\ fld w "getConsumablesInfo" [hours] <> None
                           /\ In id [(part ++ "_used")%string; (part ++ "_remaining")%string; (part ++ "_reset")%string])
  \/ (n = "Energy" /\ 1 < v_energy f /\ fld w "get_emeter_data" ["voltage_mv"] <> None /\ In id ["voltage"; "current"])
  \/ (n = "Firmware" /\ 1 < v_firmware f /\ id = "auto_update_enabled")
  \/ (n = "LightTransition" /\ (smooth <= 1 /\ id = "smooth_transitions"
                                \/ 1 < smooth /\ In id ["smooth_transition_on"; "smooth_transition_off"]))
  \/ (n = "TemperatureSensor" /\ told "current_temp_exception" /\ id = "temperature_warning").
Lemma gives_cases n id : gives f smooth w n id <-> (exists l, In (n, l) always /\ In id l) \/ gives_rest n id.
Proof. reflexivity. Qed.

Lemma ids_gives n id :
  (n = "Energy" -> (volts f own parent info = true <-> 1 < v_energy f /\ fld w "get_emeter_data" ["voltage_mv"] <> None)) ->
  (n = "Consumables" -> forall k, dmem k worn = true <-> fld w "getConsumablesInfo" [k] <> None) ->
  In id (map fst (feats f smooth own parent info worn n)) <-> gives f smooth w n id.
Proof.
  intros HV HW. rewrite gives_cases. split.
  - intros I. apply in_map_iff in I. destruct I as ((i & g) & Ei & I). cbn [fst] in Ei. subst i. apply in_feats in I.
    destruct I as (r & I & M & W & Ii & _). subst n id. unfold rows in I. apply in_app_or in I. destruct I as [I|I]; [|apply in_app_or in I; destruct I as [I|I]].
    + unfold rows_to_color in I. cbn [In] in I.
      repeat (destruct I as [<-|I]; [try (left; apply in_table_ok; reflexivity)|]); [| |destruct I];
        right; left; (split; [reflexivity|]); cbn [r_when r_id] in *.
      * left. split; [reflexivity|]. apply Bool.orb_true_iff in W. rewrite !has_told in W. exact W.
      * right. split; [reflexivity|]. apply has_told. exact W.
    + unfold rows_of_wear in I. apply in_flat_map in I. destruct I as ((part & hours) & P & I). cbn [fst snd] in I.
      assert (E : r_module r = "Consumables" /\ r_when r = dmem hours worn
                  /\ In (r_id r) [(part ++ "_used")%string; (part ++ "_remaining")%string; (part ++ "_reset")%string]).
      { cbv zeta in I. destruct I as [<-|[<-|[<-|[]]]]; (split; [reflexivity|]; split; [reflexivity|]); cbn [r_id In]; tauto. }
      destruct E as (E1 & E2 & E3). right. right. left. split; [exact E1|]. exists part, hours. split; [exact P|]. split; [|exact E3].
      apply (HW E1). congruence.
    + unfold rows_from_contact in I. cbn [In] in I.
      repeat (destruct I as [<-|I]; [try (left; apply in_table_ok; reflexivity)|]); [| | | | | | |destruct I];
        cbn [r_when r_id r_module] in *; right; unfold gives_rest; cbv zeta.
      * right. right. left. apply (HV eq_refl) in W. cbn [In]. tauto.
      * right. right. left. apply (HV eq_refl) in W. cbn [In]. tauto.
      * right. right. right. left. apply Z.ltb_lt in W. tauto.
      * right. right. right. right. left. apply Bool.negb_true_iff, Z.ltb_ge in W. tauto.
      * right. right. right. right. left. apply Z.ltb_lt in W. cbn [In]. tauto.
      * right. right. right. right. left. apply Z.ltb_lt in W. cbn [In]. tauto.
      * do 5 right. apply has_told in W. tauto.
  - intros G. apply in_ids. destruct G as [(l & I & J)|G].
    + unfold always in I. cbn [In] in I. clear HV HW.
      repeat (destruct I as [E|I]; [injection E as <- <-; cbn [In] in J; repeat (destruct J as [<-|J]; [reflexivity|]); destruct J|]). destruct I.
    + apply existsb_exists. unfold gives_rest in G. cbv zeta in G. rewrite <- !has_told in G.
      destruct G as [(-> & [(-> & G)|(-> & G)])|[(-> & part & hours & P & G & I)|[(-> & G & G' & I)|[(-> & G & ->)|[(-> & [(G & ->)|(G & I)])|(-> & G & ->)]]]]].
      * exists (mkRow "BatterySensor" (has info "at_low_battery" || has info "is_low") "battery_low" (Reads BatteryLow)).
        split; [apply in_or_app; left; unfold rows_to_color; cbn [In]; tauto|]. cbn. apply Bool.orb_true_iff. exact G.
      * exists (mkRow "BatterySensor" (has info "battery_percentage") "battery_level" (Reads Battery)).
        split; [apply in_or_app; left; unfold rows_to_color; cbn [In]; tauto|]. cbn. exact G.
      * apply (HW eq_refl) in G. exists (mkRow "Consumables" (dmem hours worn) id Other). split.
        -- apply in_or_app. right. apply in_or_app. left. apply in_flat_map. exists (part, hours). split; [exact P|]. cbv zeta. cbn [fst snd In] in *.
           destruct I as [<-|[<-|[<-|[]]]]; tauto.
        -- cbn [r_module r_id r_when]. rewrite G, !String.eqb_refl. reflexivity.
      * assert (V : volts f own parent info = true) by (apply (HV eq_refl); split; assumption).
        destruct I as [<-|[<-|[]]].
        -- exists (mkRow "Energy" (volts f own parent info) "voltage" (Reads EnergyVoltage)).
           split; [apply in_or_app; right; apply in_or_app; right; unfold rows_from_contact; cbn [In]; tauto|]. cbn [r_module r_id r_when]. rewrite V. reflexivity.
        -- exists (mkRow "Energy" (volts f own parent info) "current" (Reads EnergyCurrent)).
           split; [apply in_or_app; right; apply in_or_app; right; unfold rows_from_contact; cbn [In]; tauto|]. cbn [r_module r_id r_when]. rewrite V. reflexivity.
      * exists (mkRow "Firmware" (1 <? v_firmware f) "auto_update_enabled" (Reads AutoUpdate)).
        split; [apply in_or_app; right; apply in_or_app; right; unfold rows_from_contact; cbn [In]; tauto|]. cbn [r_module r_id r_when]. apply Z.ltb_lt in G. rewrite G. reflexivity.
      * exists (mkRow "LightTransition" (negb (1 <? smooth)) "smooth_transitions" Other).
        split; [apply in_or_app; right; apply in_or_app; right; unfold rows_from_contact; cbn [In]; tauto|]. cbn [r_module r_id r_when]. apply Z.ltb_ge in G. rewrite G. reflexivity.
      * apply Z.ltb_lt in G. destruct I as [<-|[<-|[]]].
        -- exists (mkRow "LightTransition" (1 <? smooth) "smooth_transition_on" Other).
           split; [apply in_or_app; right; apply in_or_app; right; unfold rows_from_contact; cbn [In]; tauto|]. cbn [r_module r_id r_when]. rewrite G. reflexivity.
        -- exists (mkRow "LightTransition" (1 <? smooth) "smooth_transition_off" Other).
           split; [apply in_or_app; right; apply in_or_app; right; unfold rows_from_contact; cbn [In]; tauto|]. cbn [r_module r_id r_when]. rewrite G. reflexivity.
      * exists (mkRow "TemperatureSensor" (has info "current_temp_exception") "temperature_warning" (Reads TemperatureWarning)).
        split; [apply in_or_app; right; apply in_or_app; right; unfold rows_from_contact; cbn [In]; tauto|]. cbn [r_module r_id r_when]. rewrite G. reflexivity.
Qed.

Lemma own_gives unpair id : In id (map fst (own_features info unpair)) <-> gives_itself unpair w id.
Proof.
  rewrite own_is. rewrite (proj2 (smart_own_features info unpair) id). unfold gives_itself.
  assert (X : forall k, fld w "get_device_info" [k] <> None <-> dget k info <> None).
  { intros k. unfold fld. rewrite Hi. cbn [follow]. destruct (dget k info); intuition congruence. }
  cbn [In]. split.
  - intros [->|[->|[(-> & ->)|(k & K & G)]]]; auto. do 2 right. exists k. split; [exact K|]. apply X. exact G.
  - intros [[<-|[<-|[]]]|[(-> & ->)|(k & K & G)]]; auto. do 3 right. exists k. split; [exact K|]. apply X. exact G.
Qed.
End Given.

(** ** What the features show *)
Section Shown.
Variables (f : facts) (smooth : Z) (own : dict reply) (parent : option (dict reply)) (info : dict json) (w : answers).
Hypothesis (P : proper w) (Hi : w "get_device_info" = RVal (JObj info)).

Lemma volts_told : complete f w own parent "Energy" ->
  (volts f own parent info = true <-> 1 < v_energy f /\ fld w "get_emeter_data" ["voltage_mv"] <> None).
Proof.
  intros C. destruct (C MEnergy) as (U & A); [unfold class_of; cbn [In]; tauto|]. unfold volts.
  destruct (1 <? v_energy f) eqn:V.
  - destruct (energy_v2 f w own parent info P V U A) as (d & now & em & E & _ & We & _ & G & _). rewrite E. cbn [bind sub]. rewrite G. cbn [bind jcontains].
    unfold fld. rewrite We. cbn [follow]. apply Z.ltb_lt in V. unfold dmem. destruct (dget "voltage_mv" em); intuition congruence.
  - destruct (energy_v1 f w own parent info P V U A) as (d & _ & E & _ & G & _). rewrite E. cbn [bind sub]. rewrite G. cbn [bind jcontains].
    apply Z.ltb_ge in V. unfold dmem. cbn [dget]. split; [discriminate|lia].
Qed.
Lemma wear_told : updated w ["getConsumablesInfo"] own parent -> answered w ["getConsumablesInfo"] [] ->
  exists worn, wear own parent info = Ok worn /\ forall k, dmem k worn = true <-> fld w "getConsumablesInfo" [k] <> None.
Proof.
  intros U A. destruct (A "getConsumablesInfo") as (v & V); [left; reflexivity|intros []|].
  destruct (p_objects _ P _ _ V) as (d & ->). exists d. unfold wear.
  rewrite (data_one w own parent (JObj info) (mkMod "" ["getConsumablesInfo"] 0 [] false None) "getConsumablesInfo" (JObj d)); auto.
  split; [reflexivity|]. intros k. unfold fld. rewrite V. cbn [follow]. unfold dmem. destruct (dget k d); intuition congruence.
Qed.

Lemma meanings_agree worn n id o g : In (n, id, o) (meanings f w) -> In (id, g) (feats f smooth own parent info worn n) ->
  complete f w own parent n ->
  exists x, value_of_feature f own parent info g = Some x /\ forall v, x = Ok v <-> o = Some v.
Proof.
  intros M G C. apply getter_ok in G.
  assert (R : forall r c, g = Reads r -> module_of r = c -> In (n, c) class_of -> r <> FrostMinimum -> r <> LedNight -> o = means f w r ->
              exists x, value_of_feature f own parent info g = Some x /\ forall v, x = Ok v <-> o = Some v).
  { intros r c -> <- I N1 N2 ->. destruct (C _ I) as (U & A). exists (read f own parent info r). split; [reflexivity|].
    apply readings_show_partial; auto. }
  unfold meanings in M. cbv zeta in M. cbn [In] in M.
  repeat (destruct M as [M|M];
    [injection M as M1 M2 M3; subst n id; vm_compute in G;
     match type of G with
     | Some (Reads ?r) = Some _ =>
         apply (R r _ ltac:(congruence) eq_refl); [unfold class_of; cbn [In]; tauto|discriminate|discriminate|rewrite <- M3; reflexivity]
     | _ => idtac
     end|]); [|destruct M].
  injection G as <-. destruct (C MAlarm) as (U & A); [unfold class_of; cbn [In]; tauto|].
  destruct (at_many f w own parent info P MAlarm "get_alarm_configure" "get_support_alarm_type_list" "get_alarm_configure") as (d & W & E);
    auto; try (cbn [query In]; tauto); try discriminate; try (intros []).
  eexists. split; [reflexivity|]. cbn [value_of_feature]. rewrite E. cbn [bind]. apply agree_iff. rewrite <- M3. unfold fld. rewrite W. apply agree_plain.
Qed.
Lemma own_agree unpair id o g : In (id, o) (own_meanings w) -> In (id, g) (own_features info unpair) ->
  exists x, value_of_feature f own parent info g = Some x /\ forall v, x = Ok v <-> o = Some v.
Proof.
  intros M G.
  assert (X : g = match id with
                  | _ => if String.eqb id "state" then Truth "device_on" else if String.eqb id "signal_level" then Info "signal_level" else if String.eqb id "rssi" then Info "rssi" else Other
                  end
              /\ (id = "state" -> dmem "device_on" info = true)).
  { unfold own_features in G. rewrite !in_app_iff in G. unfold has in G.
    destruct (dmem "device_on" info), (dmem "signal_level" info), (dmem "rssi" info), (dmem "ssid" info), (dmem "on_time" info), unpair;
      cbn [In] in G;
      repeat (destruct G as [G|G]); try contradiction; injection G as <- <-; (split; [reflexivity|discriminate || (intros _; reflexivity)]). }
  destruct X as (-> & D). unfold own_meanings in M. cbn [In] in M. unfold fld in M. rewrite Hi in M. rewrite !follow1 in M.
  destruct M as [M|[M|[M|[]]]]; injection M as <- <-; cbn [String.eqb Ascii.eqb Bool.eqb]; eexists; (split; [reflexivity|]).
  - specialize (D eq_refl). unfold dmem in D. destruct (dget "device_on" info) as [x|]; [|discriminate D]. cbn [yes_if]. intros v. split; congruence.
  - apply agree_iff. rewrite <- follow1. apply agree_plain.
  - apply agree_iff. rewrite <- follow1. apply agree_plain.
Qed.
End Shown.

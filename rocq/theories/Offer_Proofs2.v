(** Lemmas for Offer_Props: cameras. *)
From Verif Require Import Base Py Base_Lemmas Smod_Model Feats_Model Feats_Spec Feats_Props Gadget_Model CamMod_Model WholeCam_Spec Read_Model Read_Spec Read_Proofs Read_Props
  CamRead_Model CamRead_Spec CamRead_Proofs CamRead_Props Offer_Model Offer_Spec Offer_Proofs.
Open Scope string_scope.
Open Scope list_scope.
Open Scope Z_scope.

(** ** Cameras *)
Section Cameras.
Variables (hub : bool) (own : dict reply) (info : dict json) (ms : list string).
Definition cam_pair (r : string * (string * cgetter)) : string * string := (fst r, fst (snd r)).
Lemma cam_table : forallb (fun a => forallb (fun b => negb (String.eqb (snd a) (snd b)) || String.eqb (fst a) (fst b)) (map cam_pair (cam_rows ms)))
                          (map cam_pair (cam_rows ms)) = true.
Proof. unfold cam_rows. destruct (smem "LensMask" ms); vm_compute; reflexivity. Qed.
Lemma cam_nodup : NoDup (map cam_pair (cam_rows ms)).
Proof. apply nodup_b_ok. unfold cam_rows. destruct (smem "LensMask" ms); vm_compute; reflexivity. Qed.
Definition signal_id (id : string) : bool := String.eqb id "rssi" || String.eqb id "signal_level".
Lemma in_cam s n id g : In (id, g) (cam_feats ms s n) <-> In (n, (id, g)) (cam_rows ms) /\ (s = true \/ signal_id id = false).
Proof.
  unfold cam_feats. rewrite in_map_iff. split.
  - intros ((m & x) & E & I). cbn [snd] in E. subst x. apply filter_In in I. destruct I as (I & C). apply Bool.andb_true_iff in C. destruct C as (C & X).
    apply String.eqb_eq in C. cbn [fst snd] in *. subst m. split; [exact I|]. apply Bool.orb_true_iff in X. rewrite Bool.negb_true_iff in X. exact X.
  - intros (I & X). exists (n, (id, g)). split; [reflexivity|]. apply filter_In. split; [exact I|]. cbn [fst snd]. rewrite String.eqb_refl. cbn [andb].
    apply Bool.orb_true_iff. rewrite Bool.negb_true_iff. exact X.
Qed.
Lemma cam_ids_nodup s n : NoDup (map fst (cam_feats ms s n)).
Proof.
  unfold cam_feats. rewrite map_map. generalize cam_nodup. generalize (cam_rows ms) as l.
  induction l as [|r l IH]; cbn [map filter]; intros D; [constructor|]. inversion D as [|? ? N D']; subst.
  destruct (String.eqb (fst r) n && (s || negb (String.eqb (fst (snd r)) "rssi" || String.eqb (fst (snd r)) "signal_level"))) eqn:C; [|auto].
  cbn [map]. constructor; [|auto]. intros I. apply in_map_iff in I. destruct I as (r' & E & I). apply filter_In in I. destruct I as (I & C').
  apply Bool.andb_true_iff in C, C'. destruct C as (C & _). destruct C' as (C' & _). apply String.eqb_eq in C, C'.
  apply N. apply in_map_iff. exists r'. split; [unfold cam_pair; congruence|exact I].
Qed.
Lemma cam_ids_once s s' n n' id : In id (map fst (cam_feats ms s n)) -> In id (map fst (cam_feats ms s' n')) -> n = n'.
Proof.
  intros I J. apply in_map_iff in I, J. destruct I as ((i & g) & Ei & I). destruct J as ((j & h) & Ej & J). cbn [fst] in *. subst i j.
  apply in_cam in I, J. destruct I as (I & _). destruct J as (J & _).
  apply (in_map cam_pair) in I, J. pose proof cam_table as T. rewrite forallb_forall in T. specialize (T _ I). rewrite forallb_forall in T. specialize (T _ J).
  unfold cam_pair in T. cbn [fst snd] in T. rewrite String.eqb_refl in T. apply String.eqb_eq. exact T.
Qed.
(** Whether the camera tells its signal, module by module *)
Definition sig (s : bool) (n : string) : bool := if String.eqb n "devicemodule" then s else true.
Definition is_signal (r : res value) (s : bool) : Prop := exists v, r = Ok v /\ s = match v with Plain JNull => false | _ => true end.
Lemma cam_features_ok s n : is_signal (cread hub own info Rssi) s ->
  cam_module_features hub own info ms n = Ok (cam_feats ms (sig s n) n).
Proof.
  intros (v & E & ->). unfold cam_module_features, sig. destruct (String.eqb n "devicemodule"); [rewrite E|]; reflexivity.
Qed.
Lemma cam_gathered_ok s l : is_signal (cread hub own info Rssi) s ->
  cam_gathered hub own info ms l = Ok (concat (map (fun n => cam_feats ms (sig s n) n) l)).
Proof.
  intros H. induction l as [|n l IH]; [reflexivity|]. cbn [cam_gathered map concat]. rewrite (cam_features_ok s n H). cbn [bind]. rewrite IH. reflexivity.
Qed.
Lemma cam_mods_ok s l : is_signal (cread hub own info Rssi) s ->
  map (fun n => let! x := cam_module_features hub own info ms n in Ok (map fst x)) l = map Ok (map (fun n => map fst (cam_feats ms (sig s n) n)) l).
Proof.
  intros H. induction l as [|n l IH]; [reflexivity|]. cbn [map]. rewrite (cam_features_ok s n H). cbn [bind]. rewrite IH. reflexivity.
Qed.
Lemma cam_first_ok s : is_signal (cread hub own info Rssi) s -> NoDup ms ->
  cam_first_features hub own info ms = Ok (concat (map (fun n => cam_feats ms (sig s n) n) ms))
  /\ NoDup (map fst (concat (map (fun n => cam_feats ms (sig s n) n) ms))).
Proof.
  intros H D.
  assert (X : NoDup (map fst (concat (map (fun n => cam_feats ms (sig s n) n) ms)))).
  { rewrite concat_fst. apply NoDup_concat; [exact D|intros n _; apply cam_ids_nodup|]. intros n n' x _ _ I J. exact (cam_ids_once _ _ n n' x I J). }
  split; [|exact X]. unfold cam_first_features. rewrite (cam_mods_ok s ms H).
  assert (U : update_features [] (map Ok (map (fun n => map fst (cam_feats ms (sig s n) n)) ms)) []
              = (map fst (concat (map (fun n => cam_feats ms (sig s n) n) ms)), Ok tt)).
  { apply features_first. split; [|exact X]. apply all_features_concat. eexists. split; [reflexivity|]. rewrite concat_fst. reflexivity. }
  rewrite U. cbn [snd bind]. apply cam_gathered_ok. exact H.
Qed.
Lemma cam_ids_gives components (signal : Prop) s n id : (In "LensMask" ms <-> In "lensMask" components) -> (s = true <-> signal) ->
  In id (map fst (cam_feats ms (sig s n) n)) <-> cam_gives components signal n id.
Proof.
  intros L S. split.
  - intros I. apply in_map_iff in I. destruct I as ((i & g) & Ei & I). cbn [fst] in Ei. subst i. apply in_cam in I. destruct I as (I & C).
    unfold cam_rows in I. apply in_app_or in I. destruct I as [I|I]; [|apply in_app_or in I; destruct I as [I|I]].
    + cbn [In] in I. repeat (destruct I as [E|I]; [injection E as <- <- <-; left; apply in_table_ok; reflexivity|]). destruct I.
    + destruct (smem "LensMask" ms) eqn:M; [|destruct I]. destruct I as [E|[]]. injection E as <- <- <-. right. right. apply smem_In in M. tauto.
    + cbn [In] in I.
      repeat (destruct I as [E|I]; [injection E as <- <- <-; try (left; apply in_table_ok; reflexivity)|]); [| |destruct I].
      * right. left. destruct C as [C|C]; [|discriminate C]. unfold sig in C. cbn in C. cbn [In]. tauto.
      * right. left. destruct C as [C|C]; [|discriminate C]. unfold sig in C. cbn in C. cbn [In]. tauto.
  - intros G. assert (X : exists g, In (n, (id, g)) (cam_rows ms) /\ (sig s n = true \/ signal_id id = false)).
    { destruct G as [(l & I & J)|[(-> & G & I)|(-> & G & ->)]].
      - assert (Y : existsb (fun r => pair_eqb (cam_pair r) (n, id)) (cam_rows ms) = true /\ signal_id id = false).
        { unfold cam_always in I. cbn [In] in I. unfold cam_rows.
          destruct (smem "LensMask" ms);
          repeat (destruct I as [E|I]; [injection E as <- <-; cbn [In] in J; repeat (destruct J as [<-|J]; [split; reflexivity|]); destruct J|]); destruct I. }
        destruct Y as (Y & N). apply existsb_exists in Y. destruct Y as ((m & i & g) & R & E). apply pair_eqb_eq in E. unfold cam_pair in E. cbn [fst snd] in E.
        injection E as -> ->. exists g. split; [exact R|right; exact N].
      - apply S in G. subst s. assert (Y : forall r, In r [("devicemodule", ("rssi", CReads Rssi)); ("devicemodule", ("signal_level", CReads SignalLevel))] -> In r (cam_rows ms)).
        { intros r R. unfold cam_rows. apply in_or_app. right. apply in_or_app. right. cbn [In] in R |- *. tauto. }
        destruct I as [<-|[<-|[]]]; eexists; (split; [apply Y; cbn [In]; eauto|left; reflexivity]).
      - apply L, smem_In in G. exists NotMasked. split; [|left; reflexivity]. unfold cam_rows. rewrite G. apply in_or_app. right. apply in_or_app. left. left. reflexivity. }
    destruct X as (g & R & C). apply in_map_iff. exists (id, g). split; [reflexivity|]. apply in_cam. split; assumption.
Qed.
Lemma cam_offers_mask components hubdev : ms = cam_modules components hubdev -> (In "LensMask" ms <-> In "lensMask" components).
Proof.
  intros ->. rewrite (proj2 (cam_modules_exact components hubdev) "LensMask"). unfold cam_offers. split.
  - intros [X|[X|(c & I & J & _)]]; try discriminate X. unfold cam_component_for in I. cbn [In] in I.
    repeat (destruct I as [I|I]; [try discriminate I; injection I as <-; exact J|]). destruct I.
  - intros I. do 2 right. exists "lensMask". split; [unfold cam_component_for; cbn [In]; tauto|]. split; [exact I|discriminate].
Qed.

Variables (w : answers) (b : dict json).
Hypothesis (P : cproper w b) (S : same_info b (JObj info)).
Lemma signal_told : cam_complete hub w own "devicemodule" ->
  exists s, is_signal (cread hub own info Rssi) s
    /\ (s = true <-> hub = false /\ exists v, fld w "getConnectionType" ["rssiValue"] = Some v /\ v <> JNull).
Proof.
  intros C. destruct (C GDevice) as ((W & H) & A); [unfold cam_class_of; cbn [In]; tauto|]. destruct hub.
  - exists false. split; [|split; [discriminate|intros (X & _); discriminate X]]. exists (Plain JNull). split; [|reflexivity].
    cbn [cread]. unfold connection, cdt. cbn [cquery cam_data bind Read_Model.whole sub].
    rewrite (info_get b info "getConnectionType" S) by (cbn; intuition discriminate). rewrite (cp_basic _ _ P). reflexivity.
  - pose proof (camera_readings_show_partial false w own b info Rssi P S) as X.
    assert (Y : cread false own info Rssi = Ok (Plain (match fld w "getConnectionType" ["rssiValue"] with Some v => v | None => JNull end))).
    { apply X; try discriminate; auto; try reflexivity; split; assumption. }
    eexists. split; [eexists; split; [exact Y|reflexivity]|].
    destruct (fld w "getConnectionType" ["rssiValue"]) as [v|].
    + destruct v as [| | | | | |]; split; intros Z; try discriminate Z; try reflexivity; try (split; [reflexivity|]; eexists; split; [reflexivity|discriminate]).
      destruct Z as (_ & v & E & N). congruence.
    + split; [discriminate|]. intros (_ & v & E & _). discriminate E.
Qed.
Lemma cam_getter n id g : In (n, (id, g)) (cam_rows ms) ->
  option_map (fun r => snd (snd r)) (find (fun r => pair_eqb (cam_pair r) (n, id)) (cam_rows ms)) = Some g.
Proof.
  intros I. generalize cam_nodup as D. revert I. generalize (cam_rows ms) as l. induction l as [|x l IH]; intros I D; [destruct I|].
  cbn [map] in D. inversion D as [|? ? N D']; subst. cbn [find]. destruct (pair_eqb (cam_pair x) (n, id)) eqn:E.
  - cbn [option_map]. destruct I as [->|I]; [reflexivity|]. exfalso. apply N. apply pair_eqb_eq in E. rewrite E. apply in_map_iff. exists (n, (id, g)). split; [reflexivity|exact I].
  - destruct I as [->|I]; [|auto]. exfalso. unfold cam_pair in E. cbn [fst snd] in E.
    assert (T : pair_eqb (n, id) (n, id) = true) by (apply pair_eqb_eq; reflexivity). congruence.
Qed.
Lemma cam_meanings_agree s n id o g : In (n, id, o) (cam_meanings w b) -> In (id, g) (cam_feats ms (sig s n) n) ->
  (s = true -> hub = false) -> cam_complete hub w own n ->
  exists x, cam_value hub own info g = Some x /\ forall v, x = Ok v <-> o = Some v.
Proof.
  intros M G HS C. apply in_cam in G. destruct G as (G & V).
  assert (G' := cam_getter n id g G).
  assert (R : forall r, g = CReads r -> In (n, cmodule_of r) cam_class_of -> (forall s, r = SwitchOn s -> In s switches) -> r <> Charging ->
              (r = Rssi -> hub = false) -> o = cmeans hub w b r ->
              exists x, cam_value hub own info g = Some x /\ forall v, x = Ok v <-> o = Some v).
  { intros r -> I HW N1 N2 ->. destruct (C _ I) as (U & A). exists (cread hub own info r). split; [reflexivity|].
    apply camera_readings_show_partial; auto. }
  assert (HB : In id ["rssi"; "signal_level"] -> n = "devicemodule" -> hub = false).
  { intros I ->. destruct V as [V|V]; [|cbn [In] in I; destruct I as [<-|[<-|[]]]; discriminate V]. apply HS. exact V. }
  unfold cam_rows in G'. unfold cam_meanings in M. cbn [In] in M. clear V.
  repeat (destruct M as [M|M];
    [injection M as M1 M2 M3; subst n id; destruct (smem "LensMask" ms) eqn:L; vm_compute in G';
     match type of G' with
     | Some (CReads (SwitchOn ?s)) = Some _ =>
         apply (R (SwitchOn s)); [congruence|unfold cam_class_of; cbn [In cmodule_of]; repeat ((left; reflexivity) || right)
           |intros s0 E0; injection E0 as <-; unfold switches; cbn [In]; repeat ((left; reflexivity) || right)|discriminate|discriminate|rewrite <- M3; reflexivity]
     | Some (CReads ?r) = Some _ =>
         apply (R r); [congruence|unfold cam_class_of; cbn [In cmodule_of]; tauto|discriminate|discriminate
           |try discriminate; intros _; apply HB; cbn [In]; tauto|rewrite <- M3; try reflexivity]
     | None = Some _ => discriminate G'
     | _ => idtac
     end|]); try (destruct M; fail).
  - injection G' as <-. destruct (C (GSwitch lensmask)) as (U & A); [unfold cam_class_of; cbn [In]; tauto|].
    eexists. split; [reflexivity|]. intros v.
    assert (X := camera_readings_show_partial hub w own b info (SwitchOn lensmask) P S).
    assert (X' : forall v, cread hub own info (SwitchOn lensmask) = Ok v <-> cmeans hub w b (SwitchOn lensmask) = Some v).
    { apply X; auto; try discriminate. intros s0 E0. injection E0 as <-. unfold switches. cbn [In]. tauto. }
    rewrite <- M3. clear X. cbn [cmeans] in X'. unfold yes_if in *.
    change (kept lensmask) with (Some ("getLensMaskConfig", "lens_mask", "lens_mask_info")) in X'. cbv iota beta in X'.
    destruct (within w "getLensMaskConfig" "lens_mask" ["lens_mask_info"; "enabled"]) as [e|].
    + rewrite (proj2 (X' _) eq_refl). cbn [bind truthy]. split; intros E; congruence.
    + destruct (cread hub own info (SwitchOn lensmask)) as [y|e]; [|split; discriminate]. exfalso. pose proof (proj1 (X' y) eq_refl). discriminate.
  - cbn [cmeans]. rewrite HB by (cbn [In]; tauto). reflexivity.
  - cbn [cmeans]. rewrite HB by (cbn [In]; tauto). reflexivity.
  - cbn [cmeans]. rewrite HB by (cbn [In]; tauto). reflexivity.
  - cbn [cmeans]. rewrite HB by (cbn [In]; tauto). reflexivity.
Qed.
End Cameras.

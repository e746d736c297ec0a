(** Lemmas for OfferIot_Props. *)
From Coq Require Import QArith.
From Verif Require Import Base Py Base_Lemmas Factory_Model Emeter_Model Emeter_Spec Feats_Model Feats_Spec Feats_Props Read_Model Read_Spec Read_Proofs
  Iot_Spec IotUpd_Model WholeIot_Model WholeIot_Spec IotRead_Model IotRead_Spec IotRead_Props Offer_Proofs DevType_Model DevType_Props OfferIot_Model OfferIot_Spec.
Open Scope string_scope.
Open Scope list_scope.
Open Scope Z_scope.

(** ** Words *)
Lemma split_some c s : exists x l, split c s = x :: l.
Proof.
  destruct s as [|d s]; cbn [split]; [eauto|]. destruct (Ascii.eqb c d); [eauto|]. destruct (split c s); eauto.
Qed.
Lemma split_without c s : Forall (without c) (split c s).
Proof.
  induction s as [|d s IH]; cbn [split]; [repeat constructor|]. destruct (Ascii.eqb_spec c d) as [->|N].
  - constructor; [exact I|exact IH].
  - destruct (split c s) as [|x l]; [repeat constructor; auto|]. inversion IH as [|? ? A B]; subst. constructor; [split; assumption|exact B].
Qed.
Lemma joined_split c s : joined c (split c s) = s.
Proof.
  induction s as [|d s IH]; [reflexivity|]. cbn [split]. destruct (Ascii.eqb_spec c d) as [->|N].
  - destruct (split_some d s) as (x & l & E). rewrite E in *. cbn [joined]. cbn [String.append]. f_equal. exact IH.
  - destruct (split_some c s) as (x & l & E). rewrite E in *. destruct l as [|y l]; cbn [joined String.append] in *; f_equal; exact IH.
Qed.
Lemma split_app c x s : without c x -> split c (x ++ String c s)%string = x :: split c s.
Proof.
  induction x as [|d x IH]; intros W; cbn [String.append split].
  - rewrite Ascii.eqb_refl. reflexivity.
  - destruct W as (N & W). rewrite (proj2 (Ascii.eqb_neq c d) N), (IH W). reflexivity.
Qed.
Lemma split_word c x : without c x -> split c x = [x].
Proof.
  induction x as [|d x IH]; intros W; cbn [split]; [reflexivity|]. destruct W as (N & W). rewrite (proj2 (Ascii.eqb_neq c d) N), (IH W). reflexivity.
Qed.
Lemma split_joined c l : l <> [] -> Forall (without c) l -> split c (joined c l) = l.
Proof.
  induction l as [|x l IH]; intros N F; [contradiction|]. inversion F as [|? ? W F']; subst. destruct l as [|y l].
  - apply split_word. exact W.
  - change (joined c (x :: y :: l)) with (x ++ String c (joined c (y :: l)))%string. rewrite split_app by exact W. f_equal. apply IH; [discriminate|exact F'].
Qed.
Lemma has_meter_names sys : (forall v, dget "feature" sys = Some v -> exists s, v = JStr s) -> has_meter sys = true <-> names sys "ENE".
Proof.
  intros T. unfold has_meter, names. split.
  - destruct (dget "feature" sys) as [v|] eqn:E; [|discriminate]. destruct (T v eq_refl) as (s & ->). intros M. apply smem_In in M.
    exists (split ":" s). split; [rewrite joined_split; reflexivity|]. split; [apply split_without|exact M].
  - intros (l & E & F & I). rewrite E. rewrite split_joined; [apply smem_In; exact I| |exact F]. intros ->. destruct I.
Qed.

(** ** The modules *)
Definition mods_of (k : lkind) (m pir : bool) : list lmod :=
  let sys := if m then [("feature", JStr "ENE")] else [] in
  match k with
  | WallK => match legacy_mods k (("dev_name", JStr (if pir then "PIR" else "")) :: sys) with Ok l => l | Err _ => [] end
  | _ => match legacy_mods k sys with Ok l => l | Err _ => [] end
  end.
Lemma legacy_mods_of k sys (T : k = WallK -> exists s, dget "dev_name" sys = Some (JStr s)) :
  exists pir, legacy_mods k sys = Ok (mods_of k (has_meter sys) pir)
    /\ (k = WallK -> (pir = true <-> exists s, dget "dev_name" sys = Some (JStr s) /\ part_of "PIR" s)).
Proof.
  destruct k.
  2: {
    destruct (T eq_refl) as (s & E).
    exists (sin "PIR" s). split.
    - unfold legacy_mods, adds, dindex. rewrite E. cbn [bind truthy].
      replace (if negb (String.eqb s "") then jcontains "PIR" (JStr s) else Ok false) with (@Ok bool (sin "PIR" s)).
      2: { destruct (String.eqb_spec s "") as [->|N]; reflexivity. }
      cbn [bind]. unfold plug_mods, base_mods. destruct (has_meter sys), (sin "PIR" s); reflexivity.
    - intros _. rewrite (sin_has "PIR" s). split; [intros H; exists s; split; [exact E|exact H]|]. intros (s' & E' & H). rewrite E in E'. injection E' as <-. exact H. }
  all: exists true; split; [|discriminate]; unfold legacy_mods, adds, plug_mods, bulb_mods, base_mods; destruct (has_meter sys); reflexivity.
Qed.
Lemma mods_names k m pir n : In n (map lm_name (mods_of k m pir)) <->
  In n (of_kind k) \/ (n = "Energy" /\ m = true) \/ (k = WallK /\ In n ["motion"; "ambient"] /\ pir = true).
Proof.
  assert (T : forall l l', forallb (fun x => smem x l') l = true -> forallb (fun x => smem x l) l' = true -> In n l <-> In n l').
  { intros l l' A B. rewrite forallb_forall in A, B. split; intros I; [apply A in I|apply B in I]; apply smem_In; exact I. }
  assert (U : In n (map lm_name (mods_of k m pir)) <->
              In n (of_kind k ++ (if m then ["Energy"] else []) ++ (match k with WallK => if pir then ["motion"; "ambient"] else [] | _ => [] end))).
  { apply T; destruct k, m, pir; vm_compute; reflexivity. }
  rewrite U, !in_app_iff. clear.
  assert (A : In n (if m then ["Energy"] else []) <-> n = "Energy" /\ m = true) by (destruct m; cbn; intuition congruence).
  assert (B : In n (match k with WallK => if pir then ["motion"; "ambient"] else [] | _ => [] end) <-> k = WallK /\ In n ["motion"; "ambient"] /\ pir = true)
    by (destruct k, pir; cbn; intuition congruence).
  rewrite A, B. reflexivity.
Qed.
Fixpoint nodup_s (l : list string) : bool := match l with [] => true | a :: l => negb (smem a l) && nodup_s l end.
Lemma nodup_s_ok l : nodup_s l = true -> NoDup l.
Proof.
  induction l as [|a l IH]; cbn [nodup_s]; [constructor|]. intros H. apply Bool.andb_true_iff in H. destruct H as (H & H').
  constructor; [|auto]. apply Bool.negb_true_iff in H. apply smem_false. exact H.
Qed.
Lemma mods_nodup k m pir : NoDup (map lm_name (mods_of k m pir)).
Proof. apply nodup_s_ok. destruct k, m, pir; vm_compute; reflexivity. Qed.
Definition keyed (k : lkind) (m : lmod) : bool :=
  if lm_asks m then existsb (pair_eqb (lm_name m, lm_key m)) (service k) && negb (String.eqb (lm_name m) "Led")
  else String.eqb (lm_name m) "Led" || smem (lm_key m) (unasked k) && negb (smem (lm_name m) (map fst (service k))).
Lemma mods_keyed k m pir : forallb (keyed k) (mods_of k m pir) = true.
Proof. destruct k, m, pir; vm_compute; reflexivity. Qed.
Lemma service_once k : NoDup (map fst (service k)).
Proof. apply nodup_s_ok. destruct k; vm_compute; reflexivity. Qed.
Lemma meter_service k s : In ("Energy", s) (service k) -> s = meter_key k /\ is_strip k = false.
Proof.
  intros I. destruct k; vm_compute in I; repeat (destruct I as [I|I]; [first [discriminate I|injection I as <-; split; reflexivity]|]); destruct I.
Qed.
Lemma meter_service' k : is_strip k = false -> In ("Energy", meter_key k) (service k).
Proof. destruct k; try discriminate; intros _; vm_compute; auto. Qed.

(** ** The table *)
Definition table (c : conds) : list (string * string) := map (fun r => (lr_module r, lr_id r)) (lrows c).
Lemma table_nodup c : NoDup (map lr_id (lrows c)).
Proof. apply nodup_s_ok. vm_compute. reflexivity. Qed.
Definition no_conds := mkC false false false false false false.
Lemma table_same c : table c = table no_conds.
Proof. reflexivity. Qed.
Lemma in_lfeats c n id g : In (id, g) (lfeats c n) <->
  exists r, In r (lrows c) /\ lr_module r = n /\ lr_when r = true /\ lr_id r = id /\ lr_getter r = g.
Proof.
  unfold lfeats. rewrite in_map_iff. split.
  - intros (r & E & I). apply filter_In in I. destruct I as (I & C). apply Bool.andb_true_iff in C. destruct C as (C & W).
    apply String.eqb_eq in C. injection E as E1 E2. eauto 6.
  - intros (r & I & M & W & E1 & E2). exists r. split; [congruence|]. apply filter_In. split; [exact I|].
    rewrite W, Bool.andb_true_r. apply String.eqb_eq. exact M.
Qed.
Lemma lids_nodup c n : NoDup (map fst (lfeats c n)).
Proof.
  unfold lfeats. rewrite map_map. cbn [fst]. generalize (table_nodup c). generalize (lrows c) as l.
  induction l as [|r l IH]; cbn [map filter]; intros D; [constructor|]. inversion D as [|? ? N D']; subst.
  destruct (String.eqb (lr_module r) n && lr_when r) eqn:C; [|auto]. cbn [map]. constructor; [|auto].
  intros I. apply in_map_iff in I. destruct I as (r' & E & I). apply filter_In in I. destruct I as (I & _).
  apply N. apply in_map_iff. exists r'. split; [congruence|exact I].
Qed.
Lemma lids_table c n id : In id (map fst (lfeats c n)) -> In (n, id) (table no_conds).
Proof.
  intros I. apply in_map_iff in I. destruct I as ((i & g) & <- & I). apply in_lfeats in I.
  destruct I as (r & I & M & _ & E & _). rewrite <- (table_same c). apply in_map_iff. exists r. split; [cbn [fst]; congruence|exact I].
Qed.
Lemma table_module n n' id : In (n, id) (table no_conds) -> In (n', id) (table no_conds) -> n = n'.
Proof.
  intros I J. unfold table in *. apply in_map_iff in I, J. destruct I as (r & E & I), J as (r' & E' & J).
  injection E as <- <-. injection E' as <- E'. assert (X : r = r'); [|rewrite X; reflexivity].
  generalize (table_nodup no_conds). revert I J E'. generalize (lrows no_conds) as l.
  induction l as [|a l IH]; intros I J E D; [destruct I|]. cbn [map] in D. inversion D as [|? ? N D']; subst.
  destruct I as [->|I], J as [->|J]; auto.
  - exfalso. apply N. apply in_map_iff. exists r'. split; [exact E|exact J].
  - exfalso. apply N. apply in_map_iff. exists r. split; [symmetry; exact E|exact I].
Qed.
Lemma table_own n id : In (n, id) (table no_conds) -> ~ In id ["state"; "rssi"; "on_since"; "reboot"].
Proof.
  intros I. assert (T : forallb (fun a => negb (smem (snd a) ["state"; "rssi"; "on_since"; "reboot"])) (table no_conds) = true) by (vm_compute; reflexivity).
  rewrite forallb_forall in T. specialize (T _ I). cbn [snd] in T. apply Bool.negb_true_iff in T. apply smem_false. exact T.
Qed.
(** Which features stand under which condition *)
Definition by_cond (c : conds) (n id : string) : Prop :=
  (exists l, In (n, l) lalways /\ In id l)
  \/ (n = "Energy" /\ (id = "consumption_total" /\ c_total c = true \/ In id ["voltage"; "current"] /\ c_volt c = true))
  \/ (n = "motion" /\ In id pir_ids /\ c_pir c = true)
  \/ (n = "Light" /\ (id = "brightness" /\ c_dim c = true \/ id = "color_temperature" /\ c_temp c = true \/ id = "hsv" /\ c_color c = true)).
Definition always_b (n id : string) : bool := existsb (fun p => String.eqb (fst p) n && smem id (snd p)) lalways.
Lemma always_b_ok n id : always_b n id = true <-> exists l, In (n, l) lalways /\ In id l.
Proof.
  unfold always_b. rewrite existsb_exists. split.
  - intros ((m & l) & I & C). apply Bool.andb_true_iff in C. cbn [fst snd] in C. destruct C as (C & D). apply String.eqb_eq in C. apply smem_In in D. subst m. eauto.
  - intros (l & I & J). exists (n, l). split; [exact I|]. cbn [fst snd]. rewrite String.eqb_refl. apply smem_In in J. rewrite J. reflexivity.
Qed.
Lemma lids_cond c n id : In id (map fst (lfeats c n)) <-> by_cond c n id.
Proof.
  assert (X : In id (map fst (lfeats c n)) <-> exists r, In r (lrows c) /\ lr_module r = n /\ lr_when r = true /\ lr_id r = id).
  { rewrite in_map_iff. split.
    - intros ((i & g) & <- & I). apply in_lfeats in I. destruct I as (r & A & B & C & D & _). eauto.
    - intros (r & A & B & C & D). exists (id, lr_getter r). split; [reflexivity|]. apply in_lfeats. eauto 7. }
  rewrite X. clear X. unfold by_cond. rewrite <- always_b_ok. split.
  - intros (r & I & M & W & E). unfold lrows in I. cbn [In] in I.
    repeat (destruct I as [I|I]; [subst r; cbn [lr_module lr_when lr_id] in M, W, E; subst n id;
      first [left; reflexivity | right; left; cbn [In]; tauto | right; right; left; unfold pir_ids; cbn [In]; tauto | right; right; right; tauto]|]).
    destruct I.
  - assert (K : existsb (fun r => String.eqb (lr_module r) n && (String.eqb (lr_id r) id && lr_when r)) (lrows c) = true ->
              exists r, In r (lrows c) /\ lr_module r = n /\ lr_when r = true /\ lr_id r = id).
    { intros E. apply existsb_exists in E. destruct E as (r & I & E). apply Bool.andb_true_iff in E. destruct E as (M & E).
      apply Bool.andb_true_iff in E. destruct E as (E & W). apply String.eqb_eq in M, E. eauto. }
    intros H. apply K. clear K. destruct c as [c1 c2 c3 c4 c5 c6]. cbn [c_volt c_total c_pir c_dim c_temp c_color] in H.
    destruct H as [A|[(-> & H)|[(-> & H & C)|(-> & H)]]].
    + apply always_b_ok in A. destruct A as (l & I & J). unfold lalways in I. cbn [In] in I.
      repeat (destruct I as [I|I]; [injection I as <- <-; cbn [In] in J;
        repeat (destruct J as [J|J]; [subst id; vm_compute; reflexivity|]); destruct J|]).
      destruct I.
    + destruct H as [(-> & ->)|(I & ->)]; [|cbn [In] in I; destruct I as [<-|[<-|[]]]]; vm_compute; reflexivity.
    + subst c3. unfold pir_ids in H. cbn [In] in H. repeat (destruct H as [<-|H]; [vm_compute; reflexivity|]). destruct H.
    + destruct H as [(-> & ->)|[(-> & ->)|(-> & ->)]]; vm_compute; reflexivity.
Qed.
Definition lreading_eq_dec (a b : lreading) : {a = b} + {a <> b}.
Proof. decide equality. Defined.

From Verif Require Import Base Base_Lemmas Py Smod_Model Family_Model Family_Spec.
Open Scope string_scope.
Open Scope list_scope.

Lemma id_of_obj : forall i x, id_of i = Some x -> exists d, i = JObj d /\ dget "device_id" d = Some (JStr x).
Proof.
  intros [ | | | | | |d] x H; try discriminate. exists d. split; [reflexivity|]. cbn [id_of] in H.
  destruct (dget "device_id" d) as [[ | | | |y| | ]|]; try discriminate. congruence.
Qed.

Lemma comp_dict_spec : forall l acc c, comp_dict l acc = Ok c -> forall x, In x (dkeys c) <-> In x (dkeys acc) \/ has l x.
Proof.
  induction l as [|i l IH]; intros acc c H x; cbn [comp_dict] in H.
  - injection H as <-. split; [tauto|]. intros [G|(i & [] & _)]; exact G.
  - destruct (jitem "device_id" i) as [v|e] eqn:E; [|discriminate]. cbn [bind] in H.
    rewrite (IH _ _ H x).
    assert (V : forall y, id_of i = Some y <-> v = JStr y).
    { intro y. unfold jitem in E. destruct i as [ | | | | | |d]; try discriminate. unfold dindex in E. cbn [id_of].
      destruct (dget "device_id" d) as [w|]; [|discriminate]. injection E as ->. destruct v; split; congruence. }
    assert (Hh : has (i :: l) x <-> id_of i = Some x \/ has l x).
    { split; [intros (j & [<-|J] & I); [auto|right; exists j; auto]|intros [I|(j & J & I)]; [exists i; split; [left; reflexivity|exact I]|exists j; split; [right; exact J|exact I]]]. }
    rewrite Hh, V. destruct v as [ | | | |y| | ]; try (split; intros [G|G]; [auto|auto|auto|destruct G as [G|G]; [discriminate|auto]]).
    rewrite In_dkeys_dset. split.
    + intros [[->|G]|G]; auto.
    + intros [G|[G|G]]; [auto|injection G as ->; auto|auto].
Qed.
Lemma comp_dict_ok : forall l acc, with_ids l -> exists c, comp_dict l acc = Ok c.
Proof.
  induction l as [|i l IH]; intros acc W; cbn [comp_dict]; [eauto|].
  destruct (W i (or_introl eq_refl)) as (d & v & -> & E). unfold jitem, dindex. rewrite E. cbn [bind]. apply IH.
  intros j J. apply W. right. exact J.
Qed.

Section P.
Variable make : string -> json -> json -> res dev.
Notation visit := (visit make). Notation visit_all := (visit_all make).

Definition usable (comps : dict json) (i : json) (x : string) : Prop := id_of i = Some x /\ x <> "" /\ In x (dkeys comps).
Definition uses (comps : dict json) (l : list json) (x : string) : Prop := exists i, In i l /\ usable comps i x.
Lemma uses_cons : forall comps i l x, uses comps (i :: l) x <-> usable comps i x \/ uses comps l x.
Proof.
  intros. split; [intros (j & [<-|J] & U); [auto|right; exists j; auto]|intros [U|(j & J & U)]; [exists i; cbn; auto|exists j; cbn; auto]].
Qed.
(** One entry. *)
Lemma visit_spec : forall comps existing i a a', visit comps existing i a = (a', Ok tt) ->
  (exists d, i = JObj d) /\
  (forall x, In x (a_seen a') <-> In x (a_seen a) \/ usable comps i x) /\
  (forall x, In x existing -> dget x (a_kids a') = dget x (a_kids a)) /\
  (forall x, ~ In x existing -> (In x (dkeys (a_kids a')) <-> In x (dkeys (a_kids a)) \/ usable comps i x)) /\
  (a_changed a' = true <-> a_changed a = true \/ exists x, usable comps i x /\ ~ In x existing).
Proof.
  intros comps existing i a a' H. unfold Family_Model.visit, jget in H.
  destruct i as [ | | | | | |d]; try discriminate. split; [exists d; reflexivity|].
  assert (Skip : (forall x, ~ usable comps (JObj d) x) -> a_seen a' = a_seen a -> a_kids a' = a_kids a -> a_changed a' = a_changed a ->
    (forall x, In x (a_seen a') <-> In x (a_seen a) \/ usable comps (JObj d) x) /\
    (forall x, In x existing -> dget x (a_kids a') = dget x (a_kids a)) /\
    (forall x, ~ In x existing -> (In x (dkeys (a_kids a')) <-> In x (dkeys (a_kids a)) \/ usable comps (JObj d) x)) /\
    (a_changed a' = true <-> a_changed a = true \/ exists x, usable comps (JObj d) x /\ ~ In x existing)).
  { intros N -> -> ->. split; [|split; [|split]].
    - intro x. split; [auto|intros [G|G]; [exact G|destruct (N _ G)]].
    - reflexivity.
    - intros x _. split; [auto|intros [G|G]; [exact G|destruct (N _ G)]].
    - split; [auto|intros [G|(x & G & _)]; [exact G|destruct (N _ G)]]. }
  destruct (dget "device_id" d) as [v|] eqn:Ed.
  2:{ injection H as <-. apply Skip; try reflexivity. intros x (U & _). cbn [id_of] in U. rewrite Ed in U. discriminate. }
  destruct v as [ | | | |y| | ]; try (injection H as <-; apply Skip; try reflexivity; intros x (U & _); cbn [id_of] in U; rewrite Ed in U; discriminate).
  assert (U1 : forall x, usable comps (JObj d) x <-> x = y /\ y <> "" /\ In y (dkeys comps)).
  { intro x. unfold usable. cbn [id_of]. rewrite Ed. split; [intros ([= ->] & A & B); auto|intros (-> & A & B); auto]. }
  destruct (String.eqb_spec y "") as [->|Ny].
  { injection H as <-. apply Skip; try reflexivity. intros x U. apply U1 in U as (_ & U & _). apply U. reflexivity. }
  destruct (dget y comps) as [c|] eqn:Ec.
  2:{ injection H as <-. apply Skip; try reflexivity. intros x U. apply U1 in U as (_ & _ & U). apply dget_None in Ec. contradiction. }
  pose proof (dget_Some_key _ _ _ Ec) as Ky.
  assert (U2 : forall x, usable comps (JObj d) x <-> x = y) by (intro x; rewrite U1; tauto).
  destruct (smem y existing) eqn:Es.
  - apply smem_In in Es. injection H as <-. cbn [a_seen a_kids a_changed]. split; [|split; [|split]].
    + intro x. rewrite in_app_iff, U2. cbn [In]. split; [intros [G|[G|[]]]; auto|intros [G|G]; auto].
    + reflexivity.
    + intros x Nx. split; [auto|intros [G|G]; [exact G|]]. apply U2 in G. subst. contradiction.
    + split; [auto|intros [G|(x & G & Nx)]; [exact G|]]. apply U2 in G. subst. contradiction.
  - apply smem_false in Es. destruct (make y (JObj d) c) as [k|e]; [|discriminate]. injection H as <-. cbn [a_seen a_kids a_changed]. split; [|split; [|split]].
    + intro x. rewrite in_app_iff, U2. cbn [In]. split; [intros [G|[G|[]]]; auto|intros [G|G]; auto].
    + intros x Ix. apply dget_dset_other. intros ->. contradiction.
    + intros x Nx. rewrite In_dkeys_dset, U2. tauto.
    + split; [intros _; right; exists y; split; [apply U2; reflexivity|exact Es]|reflexivity].
Qed.
Lemma visit_all_spec : forall comps existing l a a', visit_all comps existing l a = (a', Ok tt) ->
  objects l /\
  (forall x, In x (a_seen a') <-> In x (a_seen a) \/ uses comps l x) /\
  (forall x, In x existing -> dget x (a_kids a') = dget x (a_kids a)) /\
  (forall x, ~ In x existing -> (In x (dkeys (a_kids a')) <-> In x (dkeys (a_kids a)) \/ uses comps l x)) /\
  (a_changed a' = true <-> a_changed a = true \/ exists x, uses comps l x /\ ~ In x existing).
Proof.
  induction l as [|i l IH]; intros a a' H; cbn [Family_Model.visit_all] in H.
  - injection H as <-. split; [intros i []|]. assert (N : forall x, ~ uses comps [] x) by (intros x (i & [] & _)).
    split; [|split; [|split]].
    + intro x. split; [auto|intros [G|G]; [exact G|destruct (N _ G)]].
    + reflexivity.
    + intros x _. split; [auto|intros [G|G]; [exact G|destruct (N _ G)]].
    + split; [auto|intros [G|(x & G & _)]; [exact G|destruct (N _ G)]].
  - unfold mbind in H. destruct (visit comps existing i a) as [a1 [[]|e]] eqn:E; [|discriminate].
    destruct (visit_spec _ _ _ _ _ E) as (V0 & V1 & V2 & V3 & V4). destruct (IH _ _ H) as (I0 & I1 & I2 & I3 & I4).
    split; [intros j [<-|J]; [exact V0|exact (I0 j J)]|]. split; [|split; [|split]].
    + intro x. rewrite I1, V1, uses_cons. tauto.
    + intros x Ix. rewrite I2, V2 by exact Ix. reflexivity.
    + intros x Nx. rewrite I3, V3, uses_cons by exact Nx. tauto.
    + rewrite I4, V4. split.
      * intros [[G|(x & U & N)]|(x & U & N)]; [auto|right; exists x; rewrite uses_cons; auto|right; exists x; rewrite uses_cons; auto].
      * intros [G|(x & U & N)]; [auto|]. apply uses_cons in U as [U|U]; [left; right|right]; exists x; auto.
Qed.
Lemma visit_all_ok : (forall x i c, exists k, make x i c = Ok k) -> forall comps existing l a, objects l ->
  exists a', visit_all comps existing l a = (a', Ok tt).
Proof.
  intro Mk. induction l as [|i l IH]; intros a O; cbn [Family_Model.visit_all]; [eexists; reflexivity|].
  unfold mbind. assert (V : exists a1, visit comps existing i a = (a1, Ok tt)).
  { destruct (O i (or_introl eq_refl)) as (d & ->). unfold Family_Model.visit, jget.
    destruct (dget "device_id" d) as [v|]; [|eexists; reflexivity]. destruct v as [ | | | |y| | ]; try (eexists; reflexivity).
    destruct (String.eqb y ""); [eexists; reflexivity|]. destruct (dget y comps) as [c|]; [|eexists; reflexivity].
    destruct (smem y existing); [eexists; reflexivity|]. destruct (Mk y (JObj d) c) as (k & ->). eexists; reflexivity. }
  destruct V as (a1 & ->). apply IH. intros j J. apply O. right. exact J.
Qed.

Lemma ddel_list_get {A} l : forall (d : dict A) k, dget k (fold_left (fun d x => ddel x d) l d) = if smem k l then None else dget k d.
Proof.
  induction l as [|x l IH]; intros d k; cbn; [reflexivity|]. rewrite IH, dget_ddel. unfold smem. cbn [existsb].
  destruct (String.eqb k x); cbn; [|reflexivity]. destruct (existsb (String.eqb k) l); reflexivity.
Qed.

(** The infos *)
Lemma push_get : forall kids i x, dget x (push kids i) =
  match dget x kids with Some k => Some (match id_of i with Some y => if String.eqb x y then set_info k i else k | None => k end) | None => None end.
Proof.
  intros kids i x. unfold push. destruct i as [ | | | | | |d]; cbn [id_of]; try (destruct (dget x kids); reflexivity).
  destruct (dget "device_id" d) as [v|]; [|destruct (dget x kids); reflexivity].
  destruct v as [ | | | |y| | ]; try (destruct (dget x kids); reflexivity).
  destruct (dget y kids) as [k|] eqn:E.
  - rewrite dget_dset. destruct (String.eqb_spec x y) as [->|N]; [now rewrite E|]. destruct (dget x kids); reflexivity.
  - destruct (String.eqb_spec x y) as [->|N]; [now rewrite E|]. destruct (dget x kids); reflexivity.
Qed.
Lemma push_all_get : forall l kids x, (dget x (fold_left push l kids) = None <-> dget x kids = None) /\
  forall k, dget x kids = Some k ->
    (~ has l x /\ dget x (fold_left push l kids) = Some k) \/
    exists i, last_entry l x i /\ dget x (fold_left push l kids) = Some (set_info k i).
Proof.
  induction l as [|i l IH]; intros kids x; cbn [fold_left].
  - split; [tauto|]. intros k H. left. split; [intros (i & [] & _)|exact H].
  - destruct (IH (push kids i) x) as (I1 & I2). rewrite push_get in I1, I2. split.
    + rewrite I1. destruct (dget x kids); split; congruence.
    + intros k H. rewrite H in I2.
      destruct (I2 _ eq_refl) as [(N & E)|(j & L & E)].
      * destruct (id_of i) as [y|] eqn:Ei; [destruct (String.eqb_spec x y) as [->|Nx]|].
        -- right. exists i. split; [exists [], l; auto|exact E].
        -- left. split; [|exact E]. intros (j & [<-|J] & Ij); [congruence|]. apply N. exists j. auto.
        -- left. split; [|exact E]. intros (j & [<-|J] & Ij); [congruence|]. apply N. exists j. auto.
      * right. exists j. split.
        -- destruct L as (b & a & -> & Lj & La). exists (i :: b), a. auto.
        -- rewrite E. destruct (id_of i); [destruct (String.eqb x s)|]; reflexivity.
Qed.
Lemma has_last : forall l x, has l x -> exists i, last_entry l x i.
Proof.
  intros l x. induction l as [|i l IH] using rev_ind; intros (j & J & Ij); [destruct J|].
  destruct (id_of i) as [y|] eqn:Ei; [destruct (String.eqb_spec y x) as [->|N]|].
  - exists i. exists l, []. split; [reflexivity|]. split; [exact Ei|intros (z & [] & _)].
  - apply in_app_or in J as [J|[<-|[]]]; [|congruence]. destruct IH as (z & b & a & -> & Z1 & Z2); [exists j; auto|].
    exists z, b, (a ++ [i]). split; [now rewrite <- app_assoc|]. split; [exact Z1|].
    intros (w & W & Iw). apply in_app_or in W as [W|[<-|[]]]; [apply Z2; exists w; auto|congruence].
  - apply in_app_or in J as [J|[<-|[]]]; [|congruence]. destruct IH as (z & b & a & -> & Z1 & Z2); [exists j; auto|].
    exists z, b, (a ++ [i]). split; [now rewrite <- app_assoc|]. split; [exact Z1|].
    intros (w & W & Iw). apply in_app_or in W as [W|[<-|[]]]; [apply Z2; exists w; auto|congruence].
Qed.

(** _update_children_info on well-formed replies *)
Definition listed (l cs : list json) (x : string) : Prop := x <> "" /\ has l x /\ has cs x.
Lemma children_info_spec : forall f f' l cs b, reports (lu (f_dev f)) l cs ->
  children_info make f = (f', Ok b) ->
  f_dev f' = f_dev f /\
  (forall x, In x (dkeys (f_kids f')) <-> listed l cs x) /\
  (forall x k, dget x (f_kids f') = Some k -> exists i, last_entry l x i /\ info k = i) /\
  (forall x k, dget x (f_kids f) = Some k -> listed l cs x -> exists i, dget x (f_kids f') = Some (set_info k i)) /\
  (b = true <-> exists x, (In x (dkeys (f_kids f)) /\ ~ listed l cs x) \/ (~ In x (dkeys (f_kids f)) /\ listed l cs x)).
Proof.
  intros f f' l cs b ((o & L1 & L2) & (oc & C1 & C2)) H. unfold children_info in H. fold LIST in L1. fold COMPONENTS in C1.
  rewrite L1, C1 in H. assert (T : truthy (JObj o) = true) by (destruct o; [discriminate|reflexivity]). rewrite T in H.
  unfold create_delete, jitem, dindex in H. rewrite C2 in H. cbn [bind jiter] in H. rewrite L2 in H. cbn [bind jiter] in H.
  destruct (comp_dict cs []) as [comps|e] eqn:Ec; [|discriminate].
  destruct (visit_all comps (dkeys (f_kids f)) l (mkAcc (f_kids f) (f_logged f) [] false)) as [a [[]|e]] eqn:Ev; [|discriminate].
  destruct (visit_all_spec _ _ _ _ _ Ev) as (O & V1 & V2 & V3 & V4). cbn [a_seen a_kids a_changed] in *.
  set (existing := dkeys (f_kids f)) in *. set (removed := filter (fun x => negb (smem x (a_seen a))) existing) in *.
  injection H as <- <-. cbn [f_dev f_kids]. split; [reflexivity|].
  assert (U : forall x, uses comps l x <-> listed l cs x).
  { intro x. unfold uses, usable, listed, has. pose proof (comp_dict_spec _ _ _ Ec x) as K. cbn [dkeys map In] in K.
    split.
    - intros (i & I & A & B & C). apply K in C as [[]|C]. split; [exact B|]. split; [exists i; auto|exact C].
    - intros (B & (i & I & A) & C). exists i. split; [exact I|]. split; [exact A|]. split; [exact B|]. apply K. right. exact C. }
  assert (R : forall x, In x removed <-> In x existing /\ ~ listed l cs x).
  { intro x. unfold removed. rewrite filter_In, negb_true_iff, smem_false, V1, U. cbn [In]. tauto. }
  set (kids := fold_left (fun d x => ddel x d) removed (a_kids a)).
  assert (G : forall x, dget x kids = if smem x removed then None else dget x (a_kids a)) by (intro; apply ddel_list_get).
  assert (Keys : forall x, In x (dkeys kids) <-> listed l cs x).
  { intro x. rewrite <- dmem_In. unfold dmem. rewrite G. destruct (smem x removed) eqn:Er.
    - apply smem_In, R in Er. split; [discriminate|intro C; destruct Er; contradiction].
    - apply smem_false in Er. rewrite R in Er. fold (dmem x (a_kids a)). rewrite dmem_In.
      destruct (in_dec string_dec x existing) as [Ix|Nx].
      + assert (Lx : listed l cs x).
        { destruct (in_dec string_dec x (a_seen a)) as [S|S]; [apply V1 in S as [[]|S]; apply U, S|].
          exfalso. apply Er. split; [exact Ix|]. rewrite <- U. intro C. apply S, V1. auto. }
        split; [intros _; exact Lx|intros _]. destruct (dget_key_Some _ _ Ix) as (k & Ek). apply (dget_Some_key _ k). now rewrite V2.
      + rewrite (V3 x Nx), U. split; [intros [C|C]; [contradiction|exact C]|auto]. }
  split; [|split; [|split]].
  - intro x. rewrite <- Keys. destruct (push_all_get l kids x) as (P1 & _).
    rewrite <- !dmem_In. unfold dmem. destruct (dget x (fold_left push l kids)) eqn:E1, (dget x kids) eqn:E2; try tauto;
      [destruct P1 as [_ P1]; discriminate (P1 eq_refl)|destruct P1 as [P1 _]; discriminate (P1 eq_refl)].
  - intros x k E. destruct (push_all_get l kids x) as (P1 & P2). destruct (dget x kids) as [k0|] eqn:E2; [|destruct P1 as [_ P1]; rewrite P1 in E by reflexivity; discriminate].
    destruct (P2 k0 eq_refl) as [(N & _)|(i & Li & Ei)].
    + exfalso. apply dget_Some_key, Keys in E2 as (_ & Hl & _). contradiction.
    + rewrite Ei in E. injection E as <-. exists i. split; [exact Li|reflexivity].
  - intros x k E Lx. assert (Ek : dget x kids = Some k).
    { rewrite G. assert (Er : smem x removed = false) by (apply smem_false; intro C; apply R in C as (_ & C); contradiction). rewrite Er.
      rewrite V2; [exact E|]. apply dget_Some_key in E. exact E. }
    destruct (push_all_get l kids x) as (_ & P2). destruct (P2 k Ek) as [(N & _)|(i & Li & Ei)]; [|exists i; exact Ei].
    exfalso. destruct Lx as (_ & Lx & _). contradiction.
  - rewrite orb_true_iff, V4. split.
    + intros [[C|(x & C & N)]|C]; [discriminate|exists x; right; split; [exact N|apply U, C]|].
      destruct removed as [|x r] eqn:Er; [discriminate|]. exists x. left. apply R. left. reflexivity.
    + intros (x & [(I & N)|(I & N)]).
      * right. assert (C : In x removed) by (apply R; auto). destruct removed; [destruct C|reflexivity].
      * left. right. exists x. split; [apply U, N|exact I].
Qed.

(** The children's own updates *)
Lemma update_kids_keys : forall kn p now kids kids' rs o, update_kids kn p now kids = (kids', rs, o) -> dkeys kids' = dkeys kids.
Proof.
  induction kids as [|(x, k) kids IH]; intros kids' rs o H; cbn [update_kids] in H.
  - injection H as <- <- <-. reflexivity.
  - destruct (child_update (kn x) (Some p) now k) as [[k1 r] [[]|e]].
    + destruct (update_kids kn p now kids) as [[kids1 rs1] o1]. injection H as <- <- <-. cbn [dkeys map fst]. f_equal. exact (IH _ _ _ eq_refl).
    + injection H as <- <- <-. reflexivity.
Qed.
Lemma update_kids_get : forall kn p now kids kids' rs, update_kids kn p now kids = (kids', rs, Ok tt) ->
  map fst rs = dkeys kids /\
  (forall x r, In (x, r) rs -> exists k, In (x, k) kids /\ snd (fst (child_update (kn x) (Some p) now k)) = r) /\
  (forall x k', In (x, k') kids' -> exists k, In (x, k) kids /\ k' = fst (fst (child_update (kn x) (Some p) now k))) /\
  (forall x, dget x kids' = match dget x kids with Some k => Some (fst (fst (child_update (kn x) (Some p) now k))) | None => None end).
Proof.
  induction kids as [|(x, k) kids IH]; intros kids' rs H; cbn [update_kids] in H.
  - injection H as <- <-. split; [reflexivity|]. split; [intros x r []|]. split; [intros x r []|reflexivity].
  - destruct (child_update (kn x) (Some p) now k) as [[k1 r1] [[]|e]] eqn:E; [|discriminate].
    destruct (update_kids kn p now kids) as [[kids1 rs1] o1] eqn:Eu. injection H as <- <- Eo. subst o1.
    destruct (IH _ _ eq_refl) as (I1 & I2 & I3 & I4). split; [cbn [map fst dkeys]; f_equal; exact I1|]. split; [|split].
    + intros y r [[= <- <-]|I]; [exists k; split; [left; reflexivity|now rewrite E]|]. destruct (I2 _ _ I) as (k2 & A & B). exists k2. split; [right; exact A|exact B].
    + intros y k' [[= <- <-]|I]; [exists k; split; [left; reflexivity|now rewrite E]|]. destruct (I3 _ _ I) as (k2 & A & B). exists k2. split; [right; exact A|exact B].
    + intro y. cbn [dget]. destruct (String.eqb_spec y x) as [->|N]; [now rewrite E|apply I4].
Qed.
Lemma child_update_info : forall n p now k, info (fst (fst (child_update n p now k))) = info k /\
  map fst (mods (fst (fst (child_update n p now k)))) = map fst (mods k).
Proof.
  intros n p now k.
  assert (Q : forall own i l, map fst (post_all now own p i (planned (hub_child k) false now l)) = map fst l).
  { intros own i l. unfold post_all, planned. rewrite !map_map. reflexivity. }
  unfold child_update. destruct (request _) as [|a q]; [split; [reflexivity|cbn; apply Q]|].
  destruct (ask n (a :: q)) as [resp|e]; cbn [fst]; (split; [reflexivity|]).
  - cbn. apply Q.
  - cbn. unfold planned. rewrite !map_map. reflexivity.
Qed.
Definition answers_or_fails (n : net) : Prop := forall i q e, n i q = Err e -> is_exception e = true.
Lemma one_by_one_ok : forall n, answers_or_fails n -> forall req i, exists r, one_by_one n i req = Ok r.
Proof.
  intros n A. induction req as [|k req IH]; intro i; cbn [one_by_one]; [eexists; reflexivity|].
  destruct (IH (S i)) as (r & Er). destruct (n i [k]) as [d|e] eqn:E; cbn [bind].
  - rewrite Er. eexists; reflexivity.
  - rewrite (A _ _ _ E). cbn [bind]. rewrite Er. eexists; reflexivity.
Qed.
Lemma child_update_ok : forall n p now k, answers_or_fails n -> snd (child_update n p now k) = Ok tt.
Proof.
  intros n p now k A. unfold child_update. destruct (request _) as [|a q]; [reflexivity|].
  unfold ask. destruct (n 1%nat (a :: q)) as [r|e] eqn:E; [reflexivity|]. rewrite (A _ _ _ E).
  destruct (one_by_one_ok n A (a :: q) 2) as (r & ->). reflexivity.
Qed.
Lemma update_kids_ok : forall kn p now kids, (forall x, answers_or_fails (kn x)) -> snd (update_kids kn p now kids) = Ok tt.
Proof.
  intros kn p now kids A. induction kids as [|(x, k) kids IH]; cbn [update_kids]; [reflexivity|].
  pose proof (child_update_ok (kn x) (Some p) now k (A x)) as C.
  destruct (child_update (kn x) (Some p) now k) as [[k1 r1] o]. cbn [snd] in C. subst o.
  destruct (update_kids kn p now kids) as [[kids1 rs1] o1]. exact IH.
Qed.
End P.

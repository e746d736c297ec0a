(** C135: updating a SMART hub or strip brings its children up to date. *)
From Verif Require Import Base Base_Lemmas Py Smod_Model Family_Model Family_Spec Family_Proofs.
Open Scope string_scope.
Open Scope list_scope.
Open Scope Z_scope.

Section Steps.
Variable make : string -> json -> json -> res dev.

(** The parts of a successful update. *)
Lemma family_parts : forall is_hub uc w now f f' rs, family_update make is_hub uc w now f = (f', rs, Ok tt) ->
  exists d r f1 b, own_update w now f = (d, r, Ok tt) /\ children_info make (mkFam d (f_kids f) (f_logged f)) = (f1, Ok b) /\
    ((b || uc || negb is_hub = false /\ f' = f1 /\ rs = []) \/
     (b || uc || negb is_hub = true /\ exists kids, update_kids (w_kids w) (lu (f_dev f1)) now (f_kids f1) = (kids, rs, Ok tt) /\
        f' = mkFam (f_dev f1) kids (f_logged f1))).
Proof.
  intros is_hub uc w now f f' rs H. unfold family_update in H. destruct (own_update w now f) as [[d r] [[]|e]]; [|discriminate].
  destruct (children_info make (mkFam d (f_kids f) (f_logged f))) as [f1 [b|e]] eqn:E; [|discriminate].
  exists d, r, f1, b. split; [reflexivity|]. split; [exact E|]. destruct (b || uc || negb is_hub).
  - right. split; [reflexivity|]. destruct (update_kids (w_kids w) (lu (f_dev f1)) now (f_kids f1)) as [[kids rs1] o]. injection H as <- <- ->. eauto.
  - left. injection H as <- <-. auto.
Qed.
Lemma children_info_dev : forall f f' b, children_info make f = (f', b) -> f_dev f' = f_dev f.
Proof.
  intros f f' b H. unfold children_info in H. destruct (dget LIST (lu (f_dev f))) as [[v|]|]; try (injection H as <- <-; reflexivity).
  destruct (truthy v); [|injection H as <- <-; reflexivity]. destruct (dget COMPONENTS (lu (f_dev f))) as [c|]; [|injection H as <- <-; reflexivity].
  unfold create_delete in H. destruct (match c with RVal _ => _ | RErr _ => _ end) as [comps|e]; [|injection H as <- <-; reflexivity].
  destruct (let! l := jitem "child_device_list" v in jiter l) as [l|e]; [|injection H as <- <-; reflexivity].
  destruct (visit_all make comps _ l _) as [a [[]|e]]; injection H as <- <-; reflexivity.
Qed.

(** After an update that succeeds the children are exactly the listed ones that have components, and
    each shows what the hub said of it last. *)
Theorem family_children : forall is_hub uc w now f f' rs l cs,
  family_update make is_hub uc w now f = (f', rs, Ok tt) -> reports (lu (f_dev f')) l cs ->
  (forall x, In x (dkeys (f_kids f')) <-> x <> "" /\ has l x /\ has cs x) /\
  (forall x k, dget x (f_kids f') = Some k -> exists i, last_entry l x i /\ info k = i).
Proof.
  intros is_hub uc w now f f' rs l cs H R. destruct (family_parts _ _ _ _ _ _ _ H) as (d & r & f1 & b & _ & C & U).
  assert (Fd : f_dev f1 = d) by exact (children_info_dev _ _ _ C).
  destruct U as [(_ & -> & _)|(_ & kids & K & ->)].
  - rewrite Fd in R. destruct (children_info_spec make (mkFam d (f_kids f) (f_logged f)) f1 l cs b R C) as (_ & S1 & S2 & _). split; [exact S1|exact S2].
  - cbn [f_dev f_kids] in *. rewrite Fd in R. destruct (children_info_spec make (mkFam d (f_kids f) (f_logged f)) f1 l cs b R C) as (_ & S1 & S2 & _). split.
    + intro x. rewrite (update_kids_keys _ _ _ _ _ _ _ K). apply S1.
    + intros x k E. destruct (update_kids_get _ _ _ _ _ _ K) as (_ & _ & _ & G). rewrite G in E.
      destruct (dget x (f_kids f1)) as [k1|] eqn:E1; [|discriminate]. injection E as <-.
      destruct (S2 x k1 E1) as (i & Li & Ii). exists i. split; [exact Li|]. rewrite (proj1 (child_update_info _ _ _ _)). exact Ii.
Qed.

(** A child that stays is not made anew: it goes on from where it was, with the new info. *)
Theorem family_children_kept : forall is_hub uc w now f f' rs l cs x k,
  family_update make is_hub uc w now f = (f', rs, Ok tt) -> reports (lu (f_dev f')) l cs ->
  dget x (f_kids f) = Some k -> In x (dkeys (f_kids f')) ->
  exists i k', last_entry l x i /\ dget x (f_kids f') = Some k' /\ map fst (mods k') = map fst (mods k) /\
    (k' = set_info k i /\ ~ In x (map fst rs) \/
     k' = fst (fst (child_update (w_kids w x) (Some (lu (f_dev f'))) now (set_info k i))) /\ In x (map fst rs)).
Proof.
  intros is_hub uc w now f f' rs l cs x k H R E I. destruct (family_parts _ _ _ _ _ _ _ H) as (d & r & f1 & b & _ & C & U).
  assert (Fd : f_dev f1 = d) by exact (children_info_dev _ _ _ C).
  assert (Rd : reports (lu d) l cs) by (destruct U as [(_ & -> & _)|(_ & kids & _ & ->)]; cbn [f_dev] in R; now rewrite Fd in R).
  destruct (children_info_spec make (mkFam d (f_kids f) (f_logged f)) f1 l cs b Rd C) as (_ & S1 & S2 & S3 & _). cbn [f_kids] in *.
  destruct U as [(_ & -> & ->)|(_ & kids & K & ->)].
  - apply S1 in I. destruct (S3 x k E I) as (i & Ei). destruct (S2 _ _ Ei) as (i' & Li & Ii). cbn in Ii. subst i'.
    exists i, (set_info k i). split; [exact Li|]. split; [exact Ei|]. split; [reflexivity|]. left. split; [reflexivity|intros []].
  - cbn [f_dev f_kids] in *. rewrite (update_kids_keys _ _ _ _ _ _ _ K) in I.
    assert (In0 := I). apply S1 in I. destruct (S3 x k E I) as (i & Ei). destruct (S2 _ _ Ei) as (i' & Li & Ii). cbn in Ii. subst i'.
    destruct (update_kids_get _ _ _ _ _ _ K) as (M & _ & _ & G). specialize (G x). rewrite Ei in G.
    exists i, (fst (fst (child_update (w_kids w x) (Some (lu (f_dev f1))) now (set_info k i)))).
    split; [exact Li|]. split; [exact G|]. split; [exact (proj2 (child_update_info _ _ _ (set_info k i)))|]. right. split; [reflexivity|now rewrite M].
Qed.

(** All children run their own update, in order and once, unless the device is a hub, the caller asked
    to leave them out and no child came or went. *)
Theorem family_children_asked : forall is_hub uc w now f f' rs l cs,
  family_update make is_hub uc w now f = (f', rs, Ok tt) -> reports (lu (f_dev f')) l cs ->
  (is_hub = true /\ uc = false /\ (forall x, In x (dkeys (f_kids f)) <-> In x (dkeys (f_kids f'))) /\ rs = []) \/
  (~ (is_hub = true /\ uc = false /\ (forall x, In x (dkeys (f_kids f)) <-> In x (dkeys (f_kids f')))) /\ map fst rs = dkeys (f_kids f')).
Proof.
  intros is_hub uc w now f f' rs l cs H R. destruct (family_children is_hub uc w now f f' rs l cs H R) as (Mem & _).
  destruct (family_parts _ _ _ _ _ _ _ H) as (d & r & f1 & b & _ & C & U).
  assert (Fd : f_dev f1 = d) by exact (children_info_dev _ _ _ C).
  assert (Rd : reports (lu d) l cs) by (destruct U as [(_ & -> & _)|(_ & kids & _ & ->)]; cbn [f_dev] in R; now rewrite Fd in R).
  destruct (children_info_spec make (mkFam d (f_kids f) (f_logged f)) f1 l cs b Rd C) as (_ & _ & _ & _ & Ch). cbn [f_kids] in Ch.
  assert (Same : b = false <-> forall x, In x (dkeys (f_kids f)) <-> In x (dkeys (f_kids f'))).
  { split.
    - intros -> x. rewrite Mem. fold (listed l cs x).
      assert (D : listed l cs x \/ ~ listed l cs x).
      { unfold listed. destruct (string_dec x ""); [tauto|].
        assert (Dh : forall q, has q x \/ ~ has q x).
        { induction q as [|j q IH]; [right; intros (j & [] & _)|]. destruct IH as [IH|IH]; [left; destruct IH as (z & Z & Iz); exists z; cbn; auto|].
          destruct (id_of j) as [y|] eqn:Ej; [destruct (string_dec y x) as [->|N]|].
          - left. exists j. cbn. auto.
          - right. intros (z & [<-|Z] & Iz); [congruence|apply IH; exists z; auto].
          - right. intros (z & [<-|Z] & Iz); [congruence|apply IH; exists z; auto]. }
        destruct (Dh l), (Dh cs); tauto. }
      destruct (in_dec string_dec x (dkeys (f_kids f))) as [I|I], D as [D|D]; try tauto; exfalso.
      + assert (X : false = true) by (apply Ch; exists x; auto). discriminate.
      + assert (X : false = true) by (apply Ch; exists x; auto). discriminate.
    - intro A. destruct b; [|reflexivity]. destruct (proj1 Ch eq_refl) as (x & [(I & N)|(I & N)]); exfalso.
      + apply N. apply A in I. apply Mem in I. exact I.
      + apply I, A, Mem. exact N. }
  destruct U as [(B & -> & ->)|(B & kids & K & ->)].
  - left. destruct b, uc, is_hub; try discriminate. split; [reflexivity|]. split; [reflexivity|]. split; [apply Same; reflexivity|reflexivity].
  - right. split.
    + intros (-> & -> & A). apply Same in A. subst b. discriminate.
    + cbn [f_kids]. rewrite (update_kids_keys _ _ _ _ _ _ _ K). exact (proj1 (update_kids_get _ _ _ _ _ _ K)).
Qed.

(** When the hub does not give its list, the children stay as they are, and so does what they show. *)
Theorem family_no_list : forall is_hub uc w now f f' rs,
  family_update make is_hub uc w now f = (f', rs, Ok tt) ->
  (forall v, dget "get_child_device_list" (lu (f_dev f')) <> Some (RVal v)) ->
  dkeys (f_kids f') = dkeys (f_kids f) /\ forall x k k', dget x (f_kids f) = Some k -> dget x (f_kids f') = Some k' -> info k' = info k.
Proof.
  intros is_hub uc w now f f' rs H N. destruct (family_parts _ _ _ _ _ _ _ H) as (d & r & f1 & b & _ & C & U).
  assert (Fd : f_dev f1 = d) by exact (children_info_dev _ _ _ C).
  assert (Nd : forall v, dget "get_child_device_list" (lu d) <> Some (RVal v)) by (destruct U as [(_ & -> & _)|(_ & kids & _ & ->)]; cbn [f_dev] in N; now rewrite Fd in N).
  unfold children_info in C. cbn [f_dev f_kids f_logged] in C. unfold LIST in C.
  assert (E1 : f1 = mkFam d (f_kids f) (f_logged f)).
  { destruct (dget "get_child_device_list" (lu d)) as [[v|]|]; [destruct (Nd v eq_refl)| |]; injection C as <- <-; reflexivity. }
  subst f1. destruct U as [(_ & -> & _)|(_ & kids & K & ->)]; cbn [f_kids] in *.
  - split; [reflexivity|]. congruence.
  - split; [exact (update_kids_keys _ _ _ _ _ _ _ K)|]. intros x k k' E E'. destruct (update_kids_get _ _ _ _ _ _ K) as (_ & _ & _ & G).
    rewrite G, E in E'. injection E' as <-. exact (proj1 (child_update_info _ _ _ _)).
Qed.

(** What children answer, or whether they answer at all, makes no difference to the hub. *)
Theorem family_children_harmless : forall is_hub uc n comps lists init kn kn' now f,
  (forall x, answers_or_fails (kn x)) -> (forall x, answers_or_fails (kn' x)) ->
  let a := family_update make is_hub uc (mkWorld n comps lists init kn) now f in
  let b := family_update make is_hub uc (mkWorld n comps lists init kn') now f in
  snd a = snd b /\ f_dev (fst (fst a)) = f_dev (fst (fst b)) /\ dkeys (f_kids (fst (fst a))) = dkeys (f_kids (fst (fst b))).
Proof.
  intros is_hub uc n comps lists init kn kn' now f A A'. cbv zeta. unfold family_update, own_update. cbn [w_net w_comps w_lists w_init w_kids].
  destruct (if started (f_dev f) then _ else _) as [[d r] [[]|e]]; [|auto].
  destruct (children_info make (mkFam d (f_kids f) (f_logged f))) as [f1 [b|e]]; [|auto].
  destruct (b || uc || negb is_hub); [|auto].
  pose proof (update_kids_ok kn (lu (f_dev f1)) now (f_kids f1) A) as O. pose proof (update_kids_ok kn' (lu (f_dev f1)) now (f_kids f1) A') as O'.
  destruct (update_kids kn (lu (f_dev f1)) now (f_kids f1)) as [[k1 r1] o1] eqn:E1.
  destruct (update_kids kn' (lu (f_dev f1)) now (f_kids f1)) as [[k2 r2] o2] eqn:E2. cbn [fst snd f_dev f_kids] in *. subst o1 o2.
  split; [reflexivity|]. split; [reflexivity|].
  rewrite (update_kids_keys _ _ _ _ _ _ _ E1), (update_kids_keys _ _ _ _ _ _ _ E2). reflexivity.
Qed.

(** The update succeeds when the hub's own queries do and the two lists are well formed. *)
Theorem family_succeeds_partial : forall is_hub uc w now f d r l cs,
  own_update w now f = (d, r, Ok tt) -> reports (lu d) l cs -> objects l -> with_ids cs ->
  (forall x i c, exists k, make x i c = Ok k) -> (forall x, answers_or_fails (w_kids w x)) ->
  snd (family_update make is_hub uc w now f) = Ok tt.
Proof.
  intros is_hub uc w now f d r l cs O R Ol Oc Mk A. unfold family_update. rewrite O.
  destruct R as ((o & L1 & L2) & (oc & C1 & C2)). unfold children_info. cbn [f_dev f_kids f_logged]. unfold LIST, COMPONENTS. rewrite L1, C1.
  assert (T : truthy (JObj o) = true) by (destruct o; [discriminate|reflexivity]). rewrite T.
  unfold create_delete, jitem, dindex. rewrite C2. cbn [bind jiter]. rewrite L2. cbn [bind jiter].
  destruct (comp_dict_ok cs [] Oc) as (comps & ->). cbn [f_kids f_logged f_dev].
  destruct (visit_all_ok make Mk comps (dkeys (f_kids f)) l (mkAcc (f_kids f) (f_logged f) [] false) Ol) as (a & ->).
  cbn [f_kids f_logged f_dev]. destruct (_ || uc || negb is_hub); [|reflexivity].
  match goal with |- context[update_kids ?x ?y ?z ?u] => pose proof (update_kids_ok x y z u A) as K; destruct (update_kids x y z u) as [[k1 r1] o1] end.
  exact K.
Qed.
End Steps.
Print Assumptions family_children.
Print Assumptions family_children_kept.
Print Assumptions family_children_asked.
Print Assumptions family_no_list.
Print Assumptions family_children_harmless.
Print Assumptions family_succeeds_partial.

(** The list used is that of this very update: a healthy module for the children asks for it, and the
    answer is what internal_state then holds. *)
Theorem family_list_fresh : forall w now f m st,
  started (f_dev f) = true -> hub_child (f_dev f) = false -> In (m, st) (mods (f_dev f)) ->
  m_min m = 0 -> t_err st = false -> disabled st = false ->
  exists req, requested (snd (fst (own_update w now f))) = Some req /\ (forall k, In k (m_query m) -> In k req) /\
    forall resp d r, dwf resp -> w_net w 1%nat req = Ok resp -> own_update w now f = (d, r, Ok tt) ->
      forall k v, dget k resp = Some v -> dget k (lu d) = Some v.
Proof.
  intros w now f m st S Hc Im Mm Te Di. unfold own_update. rewrite S. unfold modular_update. rewrite Hc.
  set (l := planned false false now (mods (f_dev f))). set (req := request (map (fun x => (fst (fst x), snd x)) l)).
  exists req. split; [|split].
  - destruct (ask (w_net w) req) as [resp|e]; [|reflexivity].
    match goal with |- context[try_get ?a ?b] => destruct (try_get a b) end; reflexivity.
  - intros k Ik.
    assert (G : forall (q : list (smod * bool)) acc,
      (In k acc -> In k (fold_left (fun req (mb : smod * bool) => if snd mb then add_keys req (m_query (fst mb)) else req) q acc)) /\
      ((exists mb, In mb q /\ snd mb = true /\ In k (m_query (fst mb))) -> In k (fold_left (fun req (mb : smod * bool) => if snd mb then add_keys req (m_query (fst mb)) else req) q acc))).
    { assert (Ak : forall qs acc, (In k acc -> In k (add_keys acc qs)) /\ (In k qs -> In k (add_keys acc qs))).
      { unfold add_keys. induction qs as [|z qs IH]; intro acc; cbn [fold_left]; [split; [auto|intros []]|]. split.
        - intro I. apply (proj1 (IH _)). destruct (smem z acc); [exact I|apply in_or_app; auto].
        - intros [->|I]; [|apply (proj2 (IH _)), I]. apply (proj1 (IH _)). destruct (smem k acc) eqn:Es; [apply smem_In, Es|apply in_or_app; right; left; reflexivity]. }
      induction q as [|mb q IH]; intro acc; cbn [fold_left]; [split; [auto|intros (z & [] & _)]|]. split.
      - intro I. apply (proj1 (IH _)). destruct (snd mb); [apply (proj1 (Ak _ _)), I|exact I].
      - intros (z & [->|Z] & T & Q); [|apply (proj2 (IH _)); exists z; auto]. apply (proj1 (IH _)). rewrite T. apply (proj2 (Ak _ _)), Q. }
    unfold req, request. apply (proj2 (G _ _)). exists (m, true). split; [|split; [reflexivity|exact Ik]].
    apply in_map_iff. exists (m, st, true). split; [reflexivity|]. unfold l, planned. apply in_map_iff. exists (m, st). split; [|exact Im].
    cbn [fst snd plan]. rewrite Di. cbn [negb orb andb]. destruct (m_query m) as [|a q] eqn:Eq; [destruct Ik|].
    cbn [fst snd]. unfold should_update, update_interval. rewrite Te, Mm. reflexivity.
  - intros resp d r Wf N. cbv zeta. change (request _) with req. unfold ask. rewrite N.
    match goal with |- context[try_get ?a ?b] => destruct (try_get a b) as [i|e] end; [|discriminate].
    intros [= <- <-] k v E. cbn [lu set_mods set_info set_lu]. rewrite dget_dupdate_wf by exact Wf. rewrite E. reflexivity.
Qed.
Print Assumptions family_list_fresh.

(** ** A hub with one sensor *)
Definition obj (id name : string) : json := JObj [("device_id", JStr id); ("nickname", JStr name)].
Definition hub_info : json := JObj [("device_id", JStr "hub")].
Definition list_of (l : list json) : reply := RVal (JObj [("child_device_list", JArr l)]).
Definition comps_of (l : list json) : reply := RVal (JObj [("child_component_list", JArr l)]).
Definition dev_mod : smod := mkMod "DeviceModule" ["get_device_info"] 0 [] true (Some (fun _ => true)).
Definition kid_mod : smod := mkMod "ChildDevice" ["get_child_device_list"; "get_child_device_component_list"] 0 [] true None.
Definition sensor_mod : smod := mkMod "BatterySensor" ["get_battery"] 0 [] false None.
Definition hub_net (l : list json) (c : reply) : net := fun i q =>
  Ok (filter (fun kv => smem (fst kv) q)
        [("component_nego", RVal JNull); ("get_device_info", RVal hub_info); ("get_connect_cloud_state", RVal JNull);
         ("get_child_device_list", list_of l); ("get_child_device_component_list", c)]).
Definition hub_world (l : list json) (c : reply) : world :=
  mkWorld (hub_net l c) (fun _ => Ok true) (Ok [("get_child_device_list", list_of l); ("get_child_device_component_list", c)])
    (fun _ => Ok [dev_mod; kid_mod]) (fun _ _ _ => Ok [("get_battery", RVal (JObj [("level", JInt 5)]))]).
Definition hub_make (x : string) (i c : json) : res dev := Ok (new_child true [sensor_mod] i []).
Definition after1 : family := fst (fst (family_update hub_make true true (hub_world [obj "s" "Hall"] (comps_of [obj "s" ""])) 1000 new_family)).
Example family_ex : let w := hub_world [obj "s" "Kitchen"; obj "t" "Attic"] (comps_of [obj "s" ""; obj "t" ""]) in
  dkeys (f_kids after1) = ["s"] /\
  let '(f, rs, o) := family_update hub_make true false w 2000 after1 in
  o = Ok tt /\ reports (lu (f_dev f)) [obj "s" "Kitchen"; obj "t" "Attic"] [obj "s" ""; obj "t" ""] /\
  map (fun kv => (fst kv, info (snd kv))) (f_kids f) = [("s", obj "s" "Kitchen"); ("t", obj "t" "Attic")] /\ map fst rs = ["s"; "t"].
Proof. cbv zeta. split; [reflexivity|]. vm_compute. split; [reflexivity|]. split; [|split; reflexivity]. split; eexists; split; reflexivity. Qed.
Example family_fresh_ex : exists st, In (kid_mod, st) (mods (f_dev after1)) /\ started (f_dev after1) = true /\ t_err st = false /\ disabled st = false.
Proof. eexists. split; [right; left; reflexivity|]. vm_compute. auto. Qed.

(** A hub that once answers the question for the components with an error makes update raise a
    TypeError, and it goes on doing so for the next half minute although the hub is well again: the
    lists are not asked for while the module backs off, and the error is still there. *)
Theorem family_components_refuted : exists make w1 w2 w3 code f1 f2 f3 rs,
  family_update make true true w1 0 new_family = (f1, rs, Ok tt) /\ dkeys (f_kids f1) = ["s"] /\
  w_net w2 1%nat ["get_child_device_component_list"] = Ok [("get_child_device_component_list", RErr code)] /\
  family_update make true true w2 (5 * SEC) f1 = (f2, [], Err PyTypeError) /\
  (forall i q, w_net w3 i q = w_net w1 i q) /\ family_update make true true w3 (30 * SEC) f2 = (f3, [], Err PyTypeError).
Proof.
  exists hub_make, (hub_world [obj "s" "Hall"] (comps_of [obj "s" ""])), (hub_world [obj "s" "Hall"] (RErr (-1001))), (hub_world [obj "s" "Hall"] (comps_of [obj "s" ""])), (-1001).
  do 4 eexists. split; [vm_compute; reflexivity|]. split; [vm_compute; reflexivity|]. split; [reflexivity|]. split; [vm_compute; reflexivity|].
  split; [reflexivity|]. vm_compute. reflexivity.
Qed.
Print Assumptions family_components_refuted.

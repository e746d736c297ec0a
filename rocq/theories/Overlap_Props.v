(** C136: after a setting was changed, an update shows it - also when updates and
    setters overlap. *)
From Verif Require Import Base Base_Lemmas Py Smod_Model Smod_Spec Smod_Proofs Overlap_Model Overlap_Spec Overlap_Proofs.
From Coq Require Import Lia.
Open Scope string_scope.
Open Scope list_scope.
Open Scope Z_scope.

(** Let any number of updates and marked setters of one device object overlap in any
    way.  Once the setters have ended, an update shows for every method what the
    device answers - provided no query failed.  (With failures: see
    [overlap_fallback_refuted].) *)
Theorem overlap_setter_seen_partial : forall s es id now m k,
  up_to_date s -> NoDup (map m_name (map fst (mods (s_dev s)))) ->
  Forall no_failure es -> by_setters s es ->
  let s1 := run s es in
  s_sets s1 = [] -> lookup id (s_ups s1) = None ->
  asks (s_dev s1) m k -> enabled (s_dev s1) k ->
  current (run s1 [EBegin id now; EAnswer id true]) k.
Proof.
  intros s es id now m k U ND NF B s1 Hs Hid Ha He.
  assert (I : Inv s1) by (apply inv_run; auto; now apply inv_start).
  destruct (alone_lu s1 id now k Hid) as [Hw Hl]. unfold current. rewrite Hw, Hl.
  destruct (smem k (u_req (begin_update now (s_dev s1)))) eqn:E; [reflexivity|]. apply smem_false in E.
  destruct (inv_keys _ I m k Ha) as [C|(mo & st & Hm & Hk & [P|[i P]])]; [exact C| |rewrite Hs in P; discriminate].
  exfalso. apply E. apply due_asked with mo st; auto; [exact (He mo st Hm Hk)|].
  unfold should_update. rewrite P. apply orb_true_r.
Qed.
Print Assumptions overlap_setter_seen_partial.

(** Two updates and a setter of the LED module, mixed. *)
Definition led : smod := mkMod "Led" ["get_led_info"] (3600 * SEC) [] false None.
Definition base : smod := mkMod "DeviceModule" ["get_device_info"] 0 [] false None.
Definition on_ : reply := RVal (JObj [("led_rule", JStr "always")]).
Definition off_ : reply := RVal (JObj [("led_rule", JStr "never")]).
Definition facts : reply := RVal (JObj [("model", JStr "P110")]).
Definition ex_world (k : string) : reply := if String.eqb k "get_led_info" then on_ else facts.
Definition ex_dev : dev :=
  mkDev [(led, mkSt (Some (10 * SEC)) false 0); (base, mkSt (Some (10 * SEC)) false 0)]
        [("get_led_info", on_); ("get_device_info", facts)] (JObj [("model", JStr "P110")]) true false.
Definition ex_start : sys := quiet ex_dev ex_world.
Definition ex_mix : list event :=
  [EBegin 1 (4000 * SEC); ECall 1 "Led"; EBegin 2 (4001 * SEC); EAnswer 1 true; EEffect 1 "get_led_info" off_; EAnswer 2 true; EReturn 1].
Example overlap_example :
  up_to_date ex_start /\ NoDup (map m_name (map fst (mods ex_dev))) /\ Forall no_failure ex_mix /\ by_setters ex_start ex_mix
  /\ s_sets (run ex_start ex_mix) = [] /\ s_ups (run ex_start ex_mix) = []
  /\ asks (s_dev (run ex_start ex_mix)) "Led" "get_led_info" /\ enabled (s_dev (run ex_start ex_mix)) "get_led_info"
  /\ dget "get_led_info" (lu (s_dev (run ex_start ex_mix))) = Some off_.
Proof.
  split; [|split; [|split; [|split; [|split; [|split; [|split; [|split]]]]]]]; try (vm_compute; reflexivity).
  - split; [reflexivity|]. split; [reflexivity|]. intros m k (mo & st & [H|[H|[]]] & _ & Hk); injection H as <- <-; destruct Hk as [<-|[]]; reflexivity.
  - vm_compute. constructor; [intros [H|[]]; discriminate|]. constructor; [intros []|constructor].
  - repeat constructor.
  - cbn [by_setters ex_mix]. repeat split. vm_compute. eexists _, _. split; [left; reflexivity|]. split; [reflexivity|left; reflexivity].
  - vm_compute. eexists _, _. split; [left; reflexivity|]. split; [reflexivity|left; reflexivity].
  - intros mo st H _. vm_compute in H. destruct H as [H|[H|[]]]; injection H as <- <-; reflexivity.
Qed.

(** When the common query of an update fails and the methods are asked one by one, a
    setter may come in between: its module counts as asked just now with the old
    reply, and updates go on showing it until the interval of the module has passed
    - for the LED one hour. *)
Definition ex_late : list event :=
  [EBegin 1 (4000 * SEC); EAnswer 1 false; EAnswer 1 true; ECall 1 "Led"; EEffect 1 "get_led_info" off_; EReturn 1; EAnswer 1 true].
Theorem overlap_fallback_refuted :
  up_to_date ex_start /\ by_setters ex_start ex_late /\
  let s1 := run ex_start ex_late in
  s_sets s1 = [] /\ s_ups s1 = [] /\ asks (s_dev s1) "Led" "get_led_info" /\ enabled (s_dev s1) "get_led_info" /\
  s_world s1 "get_led_info" = off_ /\
  forall id now, 4000 * SEC <= now < 7600 * SEC ->
    dget "get_led_info" (lu (s_dev (run s1 [EBegin id now; EAnswer id true]))) = Some on_.
Proof.
  split; [exact (proj1 overlap_example)|]. split.
  { cbn [by_setters ex_late]. repeat split. vm_compute. eexists _, _. split; [left; reflexivity|]. split; [reflexivity|left; reflexivity]. }
  cbv zeta. split; [vm_compute; reflexivity|]. split; [vm_compute; reflexivity|].
  split. { vm_compute. eexists _, _. split; [left; reflexivity|]. split; [reflexivity|left; reflexivity]. }
  split. { intros mo st H _. vm_compute in H. destruct H as [H|[H|[]]]; injection H as <- <-; reflexivity. }
  split; [vm_compute; reflexivity|]. intros id now H.
  set (s1 := run ex_start ex_late). assert (E : s_ups s1 = []) by (vm_compute; reflexivity).
  destruct (alone_lu s1 id now "get_led_info") as [_ ->]; [now rewrite E|].
  assert (D : s_dev s1 = mkDev [(led, mkSt (Some (4000 * SEC)) false 0); (base, mkSt (Some (4000 * SEC)) false 0)]
        [("get_led_info", on_); ("get_device_info", facts)] (JObj [("model", JStr "P110")]) true false) by (vm_compute; reflexivity).
  rewrite D. cbn [u_req begin_update mods hub_child planned map fst snd plan].
  assert (S1 : should_update false led (mkSt (Some (4000 * SEC)) false 0) now = false).
  { unfold should_update, update_interval. cbn [t_err t_last t_count m_min led]. unfold SEC in *. 
    destruct (Z.leb_spec (3600 * 1000000) (now - 4000 * 1000000)); [lia|reflexivity]. }
  assert (S2 : should_update false base (mkSt (Some (4000 * SEC)) false 0) now = true) by reflexivity.
  cbn [disabled t_count orb negb andb m_query led base]. change (10 <=? 0) with false. cbn [orb negb andb m_first].
  rewrite S1, S2. vm_compute. reflexivity.
Qed.
Print Assumptions overlap_fallback_refuted.

(** A module without an interval of its own and without errors is asked by every
    update of a device that is not the child of a hub: an update shows what the
    device answers, whoever changed it, and whatever happened before. *)
Theorem overlap_always_asked : forall s id now mo st k,
  In (mo, st) (mods (s_dev s)) -> In k (m_query mo) -> m_min mo = 0 -> hub_child (s_dev s) = false ->
  t_err st = false -> disabled st = false -> lookup id (s_ups s) = None ->
  current (run s [EBegin id now; EAnswer id true]) k.
Proof.
  intros s id now mo st k Hm Hk M H E D Hid. destruct (alone_lu s id now k Hid) as [Hw Hl]. unfold current. rewrite Hw, Hl.
  assert (A : In k (u_req (begin_update now (s_dev s)))).
  { apply due_asked with mo st; auto. unfold should_update, update_interval. rewrite E, H, M. reflexivity. }
  apply smem_In in A. now rewrite A.
Qed.
Print Assumptions overlap_always_asked.
Example overlap_always_example :
  dget "get_device_info" (lu (s_dev (run ex_start [EOutside "get_device_info" (RVal (JObj [("on", JBool true)])); EBegin 1 (20 * SEC); EAnswer 1 true])))
  = Some (RVal (JObj [("on", JBool true)])).
Proof. vm_compute. reflexivity. Qed.

(** The same when the common query of the update fails and its methods are asked one by one: once all
    of them have been answered, the last replies and the earlier ones are shown. *)
Lemma lookup_removed {A} i (l : list (nat * A)) : lookup i (remove i l) = None.
Proof. unfold remove. induction l as [|[n x] l IH]; [reflexivity|]. cbn [filter fst]. destruct (Nat.eqb_spec i n); cbn [negb lookup]; [exact IH|]. destruct (Nat.eqb_spec i n); [contradiction|exact IH]. Qed.
Lemma idle s id n : lookup id (s_ups s) = None -> run s (repeat (EAnswer id true) n) = s.
Proof.
  intros H. induction n as [|n IH]; [reflexivity|]. unfold run in *. cbn [repeat fold_left step].
  assert (answer id true s = s) as -> by (unfold answer; now rewrite H). exact IH.
Qed.
Lemma singles id u : forall todo got s n, todo <> [] -> lookup id (s_ups s) = Some u -> u_single u = Some (todo, got) -> (List.length todo <= n)%nat ->
  let s' := run s (repeat (EAnswer id true) n) in
  s_world s' = s_world s /\ lu (s_dev s') = dupdate (lu (s_dev s)) (got ++ map (fun k => (k, s_world s k)) todo).
Proof.
  revert u. intros u todo. revert u. induction todo as [|k todo IH]; intros u got s n N L S Hn; [contradiction|].
  destruct n as [|n]; [cbn in Hn; lia|]. unfold run. cbn [repeat fold_left step]. remember (answer id true s) as a eqn:Ea. unfold answer in Ea. rewrite L, S in Ea.
  destruct todo as [|k2 todo]; subst a.
  - fold (run (set_ups (set_dev s (finish u (got ++ [(k, s_world s k)]) (s_dev s))) (remove id (s_ups s))) (repeat (EAnswer id true) n)).
    rewrite idle by (cbn; apply lookup_removed). cbn [set_ups set_dev s_world s_dev]. split; [reflexivity|]. now rewrite finish_lu.
  - set (s1 := set_ups s _). fold (run s1 (repeat (EAnswer id true) n)).
    edestruct (IH (mkUpd (u_now u) (u_asked u) (u_req u) (Some (k2 :: todo, got ++ [(k, s_world s k)]))) (got ++ [(k, s_world s k)]) s1 n) as (W & D); [discriminate|cbn [s1 set_ups s_ups lookup]; rewrite Nat.eqb_refl; reflexivity|reflexivity|cbn in Hn |- *; lia|].
    split; [exact W|]. rewrite D. cbn [s1 set_ups s_dev s_world]. now rewrite <- app_assoc.
Qed.
Theorem overlap_one_by_one : forall s id now mo st k n,
  In (mo, st) (mods (s_dev s)) -> In k (m_query mo) -> m_min mo = 0 -> hub_child (s_dev s) = false ->
  t_err st = false -> disabled st = false -> lookup id (s_ups s) = None ->
  (List.length (u_req (begin_update now (s_dev s))) <= n)%nat ->
  current (run s (EBegin id now :: EAnswer id false :: repeat (EAnswer id true) n)) k.
Proof.
  intros s id now mo st k n Hm Hk M H E D Hid Hn.
  assert (A : In k (u_req (begin_update now (s_dev s)))).
  { apply due_asked with mo st; auto. unfold should_update, update_interval. rewrite E, H, M. reflexivity. }
  assert (Rn : u_req (begin_update now (s_dev s)) <> []) by (intros Z; rewrite Z in A; exact A).
  unfold current, run. cbn [fold_left step]. rewrite Hid.
  assert (B : u_single (begin_update now (s_dev s)) = None) by reflexivity. remember (begin_update now (s_dev s)) as b eqn:Eb. clear Eb.
  remember (answer id false (set_ups s ((id, b) :: s_ups s))) as a eqn:Ea. unfold answer in Ea. cbn [s_ups set_ups lookup] in Ea. rewrite Nat.eqb_refl, B in Ea.
  destruct (u_req b) as [|q0 q]; [contradiction|]. subst a.
  set (s1 := set_ups _ _). fold (run s1 (repeat (EAnswer id true) n)).
  edestruct (singles id (mkUpd (u_now b) (u_asked b) (q0 :: q) (Some (q0 :: q, []))) (q0 :: q) [] s1 n) as (W & L); [discriminate|cbn [s1 set_ups s_ups lookup]; rewrite Nat.eqb_refl; reflexivity|reflexivity|exact Hn|].
  rewrite W, L. cbn [app s1 set_ups s_dev s_world]. rewrite dget_answers. apply smem_In in A. now rewrite A.
Qed.
Print Assumptions overlap_one_by_one.
Example overlap_one_by_one_ex :
  dget "get_device_info" (lu (s_dev (run ex_start [EOutside "get_device_info" (RVal (JObj [("on", JBool true)])); EBegin 1 (20 * SEC); EAnswer 1 false; EAnswer 1 true; EAnswer 1 true])))
  = Some (RVal (JObj [("on", JBool true)])).
Proof. vm_compute. reflexivity. Qed.

(** An update that nothing overlaps is the update of the sequential model. *)
Theorem overlap_sequential : forall d w n init id now,
  started d = true -> n 1%nat (u_req (begin_update now d)) = Ok (map (fun k => (k, w k)) (u_req (begin_update now d))) ->
  (forall m st m' st', In (m, st) (mods d) -> In (m', st') (mods d) -> m_name m = m_name m' -> m = m' /\ st = st') ->
  s_dev (run (quiet d w) [EBegin id now; EAnswer id true]) = fst (fst (Smod_Model.update n init now d)).
Proof.
  intros d w n init id now S N U.
  assert (L : s_dev (run (quiet d w) [EBegin id now; EAnswer id true]) =
              finish (begin_update now d) (map (fun k => (k, w k)) (u_req (begin_update now d))) d).
  { cbn [run fold_left step quiet s_ups lookup]. unfold answer. cbn [set_ups s_ups lookup]. rewrite Nat.eqb_refl. reflexivity. }
  rewrite L. unfold Smod_Model.update. rewrite S.
  set (u := begin_update now d) in *. unfold modular_update. cbv zeta.
  set (l := planned (hub_child d) false now (mods d)).
  change (request (map (fun x => (fst (fst x), snd x)) l)) with (u_req u).
  unfold ask. rewrite N. set (resp := map (fun k => (k, w k)) (u_req u)).
  assert (ST : map fst l = mods d).
  { unfold l, planned. rewrite map_map. rewrite <- (map_id (mods d)) at 2. apply map_ext. intros [m st]. cbn [fst snd]. unfold plan.
    destruct (disabled st); cbn [orb negb andb]; [reflexivity|]. destruct (m_query m); reflexivity. }
  unfold finish. cbn [lu set_lu set_mods mods info hub_child started].
  destruct (try_get "get_device_info" resp) as [i|e] eqn:T; cbn [fst snd].
  - unfold set_mods, set_info, set_lu. cbn [lu mods info started hub_child]. f_equal. unfold post_all.
    unfold l, planned. rewrite map_map. apply map_ext_in. intros [m st] Hin. unfold u. cbn [fst snd u_asked u_now begin_update]. fold l.
    f_equal.
    assert (P1 : fst (plan (hub_child d) false now (m, st)) = st).
    { unfold plan. destruct (disabled st); cbn [orb negb andb]; [reflexivity|]. destruct (m_query m); reflexivity. }
    rewrite P1. f_equal.
    destruct (snd (plan (hub_child d) false now (m, st))) eqn:B.
    + apply smem_In. apply in_map_iff. exists (m, st, true). split; [reflexivity|]. apply filter_In. split; [|reflexivity].
      unfold l, planned. apply in_map_iff. exists (m, st). split; [|exact Hin]. cbn [fst]. rewrite P1, B. reflexivity.
    + apply smem_false. intro H. apply in_map_iff in H as ([[m' st'] b] & En & H). cbn in En. apply filter_In in H as [H Hb]. cbn in Hb. subst b.
      unfold l, planned in H. apply in_map_iff in H as ([m2 st2] & E2 & H). assert (E3 := f_equal snd E2). assert (E4 := f_equal (fun x => fst (fst x)) E2). cbn [fst snd] in E3, E4. subst m2.
      destruct (U m' st2 m st H Hin En) as [Em Es]. subst m' st2. rewrite B in E3. discriminate.
  - unfold set_mods, set_lu. cbn [lu mods info started hub_child]. now rewrite ST.
Qed.
Print Assumptions overlap_sequential.

(** While the first update of an object still waits for its first reply, the object
    counts as updated but has no modules yet.  A second update called then asks for
    nothing - the empty query is answered without a word to the device - and fails
    for want of the device's facts. *)
Theorem overlap_first_refuted : forall n init now, n 1%nat [] = Ok [] ->
  snd (Smod_Model.update n init now (set_started new_dev)) = Err KKasa.
Proof. intros n init now H. unfold Smod_Model.update. cbn. unfold modular_update. cbn. unfold ask. rewrite H. reflexivity. Qed.
Print Assumptions overlap_first_refuted.
Example overlap_first_example :
  (* the first update, called alone on the same network, succeeds *)
  let n : net := fun i req => Ok (map (fun k => (k, facts)) req) in
  snd (Smod_Model.update n (fun _ => Ok [base]) SEC new_dev) = Ok tt
  /\ n 1%nat [] = Ok [].
Proof. split; vm_compute; reflexivity. Qed.

(** A module of a hub's child is asked again only after a day, also where the module
    itself wants to be asked every hour: a button pressed after the first update is
    not in the log shown by an update two hours later. *)
Definition logs : smod := mkMod "TriggerLogs" ["get_trigger_logs"] (3600 * SEC) [] false None.
Definition log_net (l : list json) : net := fun _ req => Ok (map (fun k => (k, RVal (JObj [("logs", JArr l)]))) req).
Definition press (id t : Z) : json := JObj [("id", JInt id); ("timestamp", JInt t); ("event", JStr "singleClick")].
Theorem hub_child_logs_refuted :
  let d := fst (Smod_Model.run (new_child true [logs] (JObj [("model", JStr "S200B")]) [])
             [EChild (log_net [press 1 1700000000]) (Some []) (100 * SEC);
              EChild (log_net [press 2 1700000500; press 1 1700000000]) (Some []) (7300 * SEC)]) in
  data logs (lu d) (Some []) (info d) = Ok (One (JObj [("logs", JArr [press 1 1700000000])])).
Proof. vm_compute. reflexivity. Qed.
Print Assumptions hub_child_logs_refuted.

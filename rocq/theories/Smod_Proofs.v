(** Proofs about the module update cycle. *)
From Verif Require Import Base Base_Lemmas Py Smod_Model Smod_Spec.
From Coq Require Import Lia.
Open Scope list_scope.
Open Scope Z_scope.

Definition rel (st : mstate) (a : account) : Prop :=
  t_last st = last_asked a /\ t_count st = errors a /\ t_err st = (0 <? errors a) /\ 0 <= errors a /\
  (forall t, last_asked a = Some t -> 0 < t).
Lemma rel_fresh : rel fresh (mkAcc 0 None).
Proof. repeat split; cbn; try lia; discriminate. Qed.

Definition names {A} (l : list (smod * A)) : list string := map (fun x => m_name (fst x)) l.
Section Tables.
  Variable B : Type.
  Variable f : smod * B -> bool.
  Lemma lookup_flag (l : list (smod * B)) x : NoDup (names l) -> In x l ->
    smem (m_name (fst x)) (map (fun y => m_name (fst y)) (filter f l)) = f x.
  Proof.
    intros Hnd Hin. destruct (f x) eqn:E.
    - apply smem_In. apply in_map_iff. exists x. split; [reflexivity|]. now apply filter_In.
    - apply smem_false. intro H. apply in_map_iff in H. destruct H as (y & Hy & Hf). apply filter_In in Hf. destruct Hf as [Hyl Hf].
      assert (x = y).
      { clear E Hf. unfold names in Hnd. induction l as [|z l IH]; [contradiction|]. cbn in Hnd. inversion Hnd; subst. destruct Hin as [->|Hin], Hyl as [->|Hyl]; auto.
        - exfalso. apply H1. apply in_map_iff. exists y. auto.
        - exfalso. apply H1. apply in_map_iff. exists x. auto. }
      subst. congruence.
  Qed.
  Lemma lookup_dget (l : list (smod * B)) x : NoDup (names l) -> In x l ->
    dget (m_name (fst x)) (map (fun y => (m_name (fst y), f y)) l) = Some (f x).
  Proof.
    intros Hnd Hin. apply In_dget.
    - unfold dwf, dkeys. rewrite map_map. exact Hnd.
    - apply in_map_iff. exists x. auto.
  Qed.
End Tables.

(** The triples of a plan, regrouped *)
Definition grp (x : smod * mstate * bool) : smod * (mstate * bool) := (fst (fst x), (snd (fst x), snd x)).
Lemma planned_names hub first now l : names (map grp (planned hub first now l)) = names l.
Proof. unfold names, planned. rewrite !map_map. reflexivity. Qed.
Lemma asked_of hub first now l req own parent inf done m st : NoDup (names l) -> In (m, st) l ->
  smem (m_name m) (asked (report_of req own parent inf done (planned hub first now l))) = snd (plan hub first now (m, st)).
Proof.
  intros Hnd Hin.
  pose proof (lookup_flag (mstate * bool) (fun x => snd (snd x)) (map grp (planned hub first now l)) (m, plan hub first now (m, st))) as H.
  rewrite planned_names in H. specialize (H Hnd).
  assert (Hi : In (m, plan hub first now (m, st)) (map grp (planned hub first now l))).
  { apply in_map_iff. exists (m, fst (plan hub first now (m, st)), snd (plan hub first now (m, st))). split; [unfold grp; cbn [fst snd]; now destruct (plan hub first now (m, st))|].
    unfold planned. apply in_map_iff. exists (m, st). auto. }
  specialize (H Hi). cbn [fst snd] in H. rewrite <- H. unfold report_of. cbn [asked]. f_equal.
  generalize (planned hub first now l) as pl. induction pl as [|x pl IH]; [reflexivity|]. cbn. destruct (snd x); cbn; now rewrite IH.
Qed.
Lemma processed_of hub first now l req own parent inf m st : NoDup (names l) -> In (m, st) l ->
  dget (m_name m) (processed (report_of req own parent inf true (planned hub first now l))) = Some (hook_ok m own parent inf).
Proof.
  intros Hnd Hin. unfold report_of. cbn [processed].
  pose proof (lookup_dget (mstate * bool) (fun x => hook_ok (fst x) own parent inf) (map grp (planned hub first now l)) (m, plan hub first now (m, st))) as H.
  rewrite planned_names in H. specialize (H Hnd). rewrite map_map in H. cbn [fst snd grp] in H. apply H.
  apply in_map_iff. exists (m, fst (plan hub first now (m, st)), snd (plan hub first now (m, st))). split; [unfold grp; cbn [fst snd]; now destruct (plan hub first now (m, st))|].
  unfold planned. apply in_map_iff. exists (m, st). auto.
Qed.

Lemma disabled_rel st a : rel st a -> disabled st = (10 <=? errors a).
Proof. intros (_ & H & _). unfold disabled. now rewrite H. Qed.
(** Planning, as the specification sees it *)
Definition served (first : bool) (now : Z) (m : smod) (a : account) : account :=
  match first && m_first m, m_query m with true, _ :: _ => mkAcc (errors a) (Some now) | _, _ => a end.
Lemma plan_rel hub first now m st a : rel st a -> 0 < now -> rel (fst (plan hub first now (m, st))) (served first now m a).
Proof.
  intros Hr Hnow. unfold plan, served. destruct (m_query m); [rewrite andb_false_r; destruct (first && m_first m); exact Hr|]. rewrite andb_true_r.
  destruct first; cbn [orb andb]; [|destruct (negb (disabled st)); exact Hr].
  destruct (m_first m); [|exact Hr].
  destruct Hr as (H1 & H2 & H3 & H4 & H5). repeat split; cbn; auto. intros t Ht. injection Ht as <-. exact Hnow.
Qed.
Lemma post_rel ok had now st a : rel st a -> 0 < now ->
  rel (post_update ok had now st)
      (if 10 <=? errors a then a
       else mkAcc (if ok then 0 else if had then errors a + 1 else errors a) (if had then Some now else last_asked a)).
Proof.
  intros Hr Hnow. unfold post_update. rewrite (disabled_rel _ _ Hr). destruct (10 <=? errors a); [exact Hr|].
  destruct Hr as (H1 & H2 & H3 & H4 & H5).
  assert (Hp : forall t, Some now = Some t -> 0 < t) by (intros t E; injection E as <-; exact Hnow).
  destruct ok, had; unfold rel; cbn -[Z.ltb]; repeat split; auto; try lia.
  all: try (rewrite H2; reflexivity).
Qed.

Lemma in_names {B} (l : list (smod * B)) m b : In (m, b) l -> In (m_name m) (names l).
Proof. intro H. unfold names. apply in_map_iff. exists (m, b). auto. Qed.

(** One step of the cycle after planning *)
Definition Rel (d : dev) (acc : smod -> account) : Prop := forall m st, In (m, st) (mods d) -> rel st (acc m).
Lemma post_all_in now own parent inf hub first l m st' :
  In (m, st') (post_all now own parent inf (planned hub first now l)) ->
  exists st, In (m, st) l /\ st' = post_update (hook_ok m own parent inf) (snd (plan hub first now (m, st))) now (fst (plan hub first now (m, st))).
Proof.
  unfold post_all, planned. rewrite map_map. intro H. apply in_map_iff in H. destruct H as ([m0 st0] & He & Hin). injection He as <- <-. exists st0. auto.
Qed.
Lemma post_all_names now own parent inf hub first l : names (post_all now own parent inf (planned hub first now l)) = names l.
Proof. unfold names, post_all, planned. rewrite !map_map. reflexivity. Qed.
Lemma plan_map_in hub first now l m st' : In (m, st') (map fst (planned hub first now l)) ->
  exists st, In (m, st) l /\ st' = fst (plan hub first now (m, st)).
Proof.
  unfold planned. rewrite map_map. intro H. apply in_map_iff in H. destruct H as ([m0 st0] & He & Hin). injection He as <- <-. exists st0. auto.
Qed.
Lemma plan_map_names hub first now l : names (map fst (planned hub first now l)) = names l.
Proof. unfold names, planned. rewrite !map_map. reflexivity. Qed.

(** spec_step without early processing *)
Lemma spec_done hub first now l req own parent inf m st a : NoDup (names l) -> In (m, st) l ->
  (first = true -> req <> None) ->
  let r := report_of req own parent inf true (planned hub first now l) in
  spec_step m a (OUpdate first now r) =
  (let a := served first now m a in
   let had := snd (plan hub first now (m, st)) in
   if 10 <=? errors a then a
   else mkAcc (if hook_ok m own parent inf then 0 else if had then errors a + 1 else errors a) (if had then Some now else last_asked a)).
Proof.
  intros Hnd Hin Hreq r. unfold spec_step.
  subst r. rewrite (processed_of hub first now l req own parent inf m st Hnd Hin).
  rewrite (asked_of hub first now l req own parent inf true m st Hnd Hin).
  cbn [report_of early requested dget]. unfold served.
  assert (E : match req, first && m_first m, m_query m with Some _, true, _ :: _ => mkAcc (errors a) (Some now) | _, _, _ => a end =
              match first && m_first m, m_query m with true, _ :: _ => mkAcc (errors a) (Some now) | _, _ => a end).
  { destruct req; [reflexivity|]. destruct first; [now elim Hreq|reflexivity]. }
  rewrite E. reflexivity.
Qed.
Lemma spec_failed hub first now l req own parent inf m a : 
  let r := report_of (Some req) own parent inf false (planned hub first now l) in
  spec_step m a (OUpdate first now r) = served first now m a.
Proof. reflexivity. Qed.

Lemma modular_rel n first now d d' r out acc : modular_update n first now d = (d', r, out) -> NoDup (names (mods d)) -> 0 < now ->
  Rel d acc ->
  Rel d' (fun m => spec_step m (acc m) (OUpdate first now r)) /\ names (mods d') = names (mods d) /\ early r = [] /\
  hub_child d' = hub_child d /\ started d' = started d /\ requested r <> None.
Proof.
  intros H Hnd Hnow Hrel. unfold modular_update in H.
  destruct (ask n _) as [resp|e]; cbn [lu set_lu set_mods] in H; [destruct (try_get _ _) as [i|e]|]; injection H as <- <- <-; cbn [mods set_mods set_lu set_info hub_child started requested report_of early].
  - split; [|split; [apply post_all_names|repeat split; discriminate]].
    intros m st' Hin. cbn [mods set_mods] in Hin. apply post_all_in in Hin. destruct Hin as (st & Hin & ->).
    erewrite spec_done; [|exact Hnd|exact Hin|discriminate]. apply post_rel; [|exact Hnow]. apply plan_rel; [now apply Hrel|exact Hnow].
  - split; [|split; [apply plan_map_names|repeat split; discriminate]].
    intros m st' Hin. cbn [mods set_mods set_lu] in Hin. apply plan_map_in in Hin. destruct Hin as (st & Hin & ->).
    rewrite spec_failed. apply plan_rel; [now apply Hrel|exact Hnow].
  - split; [|split; [apply plan_map_names|repeat split; discriminate]].
    intros m st' Hin. cbn [mods set_mods set_lu] in Hin. apply plan_map_in in Hin. destruct Hin as (st & Hin & ->).
    rewrite spec_failed. apply plan_rel; [now apply Hrel|exact Hnow].
Qed.
Lemma child_rel n parent now d d' r out acc : child_update n parent now d = (d', r, out) -> NoDup (names (mods d)) -> 0 < now ->
  Rel d acc ->
  Rel d' (fun m => spec_step m (acc m) (OUpdate false now r)) /\ names (mods d') = names (mods d) /\ hub_child d' = hub_child d.
Proof.
  intros H Hnd Hnow Hrel. unfold child_update in H.
  destruct (request _) as [|k req]; [|destruct (ask n _) as [resp|e]]; injection H as <- <- <-; cbn [mods set_mods set_lu set_started hub_child].
  - split; [|split; [apply post_all_names|reflexivity]].
    intros m st' Hin. cbn [mods set_mods set_started] in Hin. apply post_all_in in Hin. destruct Hin as (st & Hin & ->).
    erewrite spec_done; [|exact Hnd|exact Hin|discriminate]. apply post_rel; [|exact Hnow]. apply plan_rel; [now apply Hrel|exact Hnow].
  - split; [|split; [apply post_all_names|reflexivity]].
    intros m st' Hin. cbn [mods set_mods set_lu set_started] in Hin. apply post_all_in in Hin. destruct Hin as (st & Hin & ->).
    erewrite spec_done; [|exact Hnd|exact Hin|discriminate]. apply post_rel; [|exact Hnow]. apply plan_rel; [now apply Hrel|exact Hnow].
  - split; [|split; [apply plan_map_names|reflexivity]].
    intros m st' Hin. cbn [mods set_mods set_lu] in Hin. apply plan_map_in in Hin. destruct Hin as (st & Hin & ->).
    rewrite spec_failed. apply plan_rel; [now apply Hrel|exact Hnow].
Qed.
Lemma setter_rel x d acc : Rel d acc -> Rel (call_setter x d) (fun m => spec_step m (acc m) (OSetter x)) /\ names (mods (call_setter x d)) = names (mods d).
Proof.
  intro Hrel. split.
  - intros m st' Hin. cbn [call_setter mods set_mods] in Hin. apply in_map_iff in Hin. destruct Hin as ([m0 st0] & He & Hin). cbn [fst snd] in He.
    cbn [spec_step]. rewrite String.eqb_sym. destruct (String.eqb (m_name m0) x) eqn:E; injection He as <- <-; rewrite E; [|now apply Hrel].
    destruct (Hrel _ _ Hin) as (H1 & H2 & H3 & H4 & H5). repeat split; cbn; auto. discriminate.
  - unfold names. cbn [call_setter mods set_mods]. rewrite map_map. apply map_ext. intros [m0 st0]. cbn. now destruct (String.eqb (m_name m0) x).
Qed.

(** The first update: negotiation, cloud, modules *)
Lemma negotiate_mods n init d d1 : negotiate n init d = (d1, Ok tt) -> 
  exists resp l, init resp = Ok l /\ mods d1 = map (fun m => (m, fresh)) l /\ hub_child d1 = hub_child d /\ started d1 = started d.
Proof.
  unfold negotiate. destruct (n 0%nat _) as [resp|e]; [|discriminate]. destruct (try_get _ resp) as [i|e]; [|discriminate].
  destruct (init resp) as [l|e] eqn:El; [|discriminate]. intro H. injection H as <-. exists resp, l. auto.
Qed.
Lemma negotiate_fail n init d d1 e : negotiate n init d = (d1, Err e) -> mods d1 = mods d /\ hub_child d1 = hub_child d /\ started d1 = started d.
Proof.
  unfold negotiate. destruct (n 0%nat _) as [resp|e0]; [|intro H; injection H as <- <-; auto].
  destruct (try_get _ resp) as [i|e0]; [|intro H; injection H as <- <-; auto].
  destruct (init resp) as [l|e0] eqn:El; [discriminate|]. intro H. injection H as <- <-. auto.
Qed.
Definition early_step (m : smod) (now : Z) (a : account) (er : list (string * bool)) : account :=
  match dget (m_name m) er with Some ok => mkAcc (if ok then 0 else errors a + 1) (Some now) | None => a end.
Lemma spec_early m a first now r er :
  early r = [] -> spec_step m a (OUpdate first now (mkRep (asked r) (requested r) (processed r) er)) =
                  spec_step m (early_step m now a er) (OUpdate first now r).
Proof. intro H. unfold spec_step, early_step. cbn [asked requested processed early]. rewrite H. reflexivity. Qed.
Lemma cloud_lookup d m st : NoDup (names (mods d)) -> In (m, st) (mods d) ->
  dget (m_name m) (cloud_report d) = if String.eqb (m_name m) "Cloud" then Some (hook_ok m (lu d) None (info d)) else None.
Proof.
  intros Hnd Hin. unfold cloud_report. destruct (String.eqb (m_name m) "Cloud") eqn:E.
  - apply In_dget.
    + unfold dwf, dkeys. rewrite map_map. cbn [fst]. revert Hnd. unfold names. generalize (mods d) as l. clear. induction l as [|x l IH]; cbn; intro H; [constructor|].
      inversion H; subst. destruct (String.eqb (m_name (fst x)) "Cloud"); cbn; auto. constructor; [|auto].
      intro Hi. apply H2. apply in_map_iff in Hi. destruct Hi as (y & Hy & Hf). apply filter_In in Hf. apply in_map_iff. exists y. tauto.
    + apply in_map_iff. exists (m, st). split; [reflexivity|]. apply filter_In. auto.
  - apply dget_None. intro Hi. unfold dkeys in Hi. rewrite map_map in Hi. apply in_map_iff in Hi. destruct Hi as ([m0 st0] & Hy & Hf). apply filter_In in Hf.
    cbn [fst] in *. destruct Hf as [_ Hf]. rewrite Hy in Hf. congruence.
Qed.
Lemma cloud_names now d : names (mods (cloud_first now d)) = names (mods d).
Proof. unfold names, cloud_first. cbn [mods set_mods]. rewrite map_map. apply map_ext. intros [m st]. cbn. now destruct (String.eqb (m_name m) "Cloud"). Qed.
Lemma cloud_rel now d : NoDup (names (mods d)) -> 0 < now -> (forall m st, In (m, st) (mods d) -> st = fresh) ->
  Rel (cloud_first now d) (fun m => early_step m now (mkAcc 0 None) (cloud_report d)).
Proof.
  intros Hnd Hnow Hf m st' Hin. unfold cloud_first in Hin. cbn [mods set_mods] in Hin. apply in_map_iff in Hin.
  destruct Hin as ([m0 st0] & He & Hin). cbn [fst snd] in He. pose proof (Hf _ _ Hin) as ->.
  unfold early_step. destruct (String.eqb (m_name m0) "Cloud") eqn:E; injection He as <- <-; rewrite (cloud_lookup d m0 _ Hnd Hin), E.
  - pose proof (post_rel (hook_ok m0 (lu d) None (info d)) true now fresh (mkAcc 0 None) rel_fresh Hnow) as G. cbn [errors last_asked Z.leb] in G. exact G.
  - apply rel_fresh.
Qed.

(** ** Whole histories *)
Record Inv (child : bool) (d : dev) (os : list obs) : Prop := {
  inv_names : NoDup (names (mods d));
  inv_rel : Rel d (fun m => account_of m os);
  inv_start : child = false -> started d = false -> mods d = [] /\ (forall m, account_of m os = mkAcc 0 None);
}.
Lemma account_snoc m os o : account_of m (os ++ [o]) = spec_step m (account_of m os) o.
Proof. unfold account_of. now rewrite fold_left_app. Qed.
Lemma inv_init child d : start_ok child d -> Inv child d [].
Proof.
  unfold start_ok. destruct child.
  - intros (hub & l & i & last & -> & Hnd). split.
    + unfold names, new_child. cbn [mods]. rewrite map_map. exact Hnd.
    + intros m st Hin. cbn [mods new_child] in Hin. apply in_map_iff in Hin. destruct Hin as (m0 & He & _). injection He as <- <-. apply rel_fresh.
    + discriminate.
  - intros ->. split; cbn; [constructor|intros m st []|auto].
Qed.
Lemma rel_ext d acc acc' : (forall m st, In (m, st) (mods d) -> acc m = acc' m) -> Rel d acc -> Rel d acc'.
Proof. intros H Hr m st Hin. rewrite <- (H m st Hin). now apply Hr. Qed.
Lemma inv_step child d os e d' o : Inv child d os -> event_ok e -> event_for child e -> step d e = (d', o) -> Inv child d' (os ++ [o]).
Proof.
  intros [Hn Hr Hs] Hok Hfor Hst. destruct e as [n init now|n parent now|x]; cbn [step event_ok event_for] in *.
  - subst child. destruct Hok as [Hnow Hinit]. destruct (update n init now d) as [[d1 r] out] eqn:Eu. injection Hst as <- <-.
    unfold update in Eu. destruct (started d) eqn:Est.
    + destruct (modular_rel n false now d d1 r out _ Eu Hn Hnow Hr) as (H1 & H2 & H3 & _ & H4 & _). cbn [negb]. split.
      * now rewrite H2.
      * eapply rel_ext; [|exact H1]. intros m st _. cbn beta. now rewrite account_snoc.
      * intros _ H. rewrite H4 in H. congruence.
    + destruct (Hs eq_refl eq_refl) as [Hm Ha]. cbn [negb].
      destruct (negotiate n init (set_started d)) as [d2 [[]|e]] eqn:En.
      * destruct (negotiate_mods _ _ _ _ En) as (resp & l & Hil & Hm2 & Hh2 & Hs2). cbn [set_started started] in Hs2.
        assert (Hn2 : NoDup (names (mods d2))). { rewrite Hm2. unfold names. rewrite map_map. exact (Hinit _ _ Hil). }
        assert (Hf2 : forall m st, In (m, st) (mods d2) -> st = fresh).
        { intros m st Hi. rewrite Hm2 in Hi. apply in_map_iff in Hi. destruct Hi as (m0 & He & _). now injection He. }
        destruct (modular_update n true now (cloud_first now d2)) as [[d3 r3] out3] eqn:Em. injection Eu as <- <- <-.
        assert (Hn3 : NoDup (names (mods (cloud_first now d2)))) by (now rewrite cloud_names).
        destruct (modular_rel n true now _ d3 r3 out3 _ Em Hn3 Hnow (cloud_rel now d2 Hn2 Hnow Hf2)) as (H1 & H2 & H3 & _ & H4 & _).
        split.
        -- rewrite H2, cloud_names. exact Hn2.
        -- eapply rel_ext; [|exact H1]. intros m st _. cbn beta. rewrite account_snoc, Ha, spec_early by exact H3. reflexivity.
        -- intros _ H. rewrite H4 in H. cbn [cloud_first started set_mods] in H. congruence.
      * injection Eu as <- <- <-. destruct (negotiate_fail _ _ _ _ _ En) as (H1 & H2 & H3). cbn [set_started mods started] in H1, H3.
        split; [rewrite H1; exact Hn| |intros _ H; congruence].
        intros m st Hi. rewrite H1, Hm in Hi. contradiction.
  - subst child. destruct (child_update n parent now d) as [[d1 r] out] eqn:Eu. injection Hst as <- <-.
    destruct (child_rel n parent now d d1 r out _ Eu Hn Hok Hr) as (H1 & H2 & _). split; [now rewrite H2| |discriminate].
    eapply rel_ext; [|exact H1]. intros m st _. cbn beta. now rewrite account_snoc.
  - injection Hst as <- <-. destruct (setter_rel x d _ Hr) as [H1 H2]. split; [now rewrite H2| |].
    + eapply rel_ext; [|exact H1]. intros m st _. cbn beta. now rewrite account_snoc.
    + intros Hc H. destruct (Hs Hc H) as [Hm Ha]. split; [unfold call_setter; cbn [mods set_mods]; now rewrite Hm|].
      intro m. rewrite account_snoc, Ha. cbn. now destruct (String.eqb x (m_name m)).
Qed.
Lemma inv_run child es : forall d os d' os', Inv child d os -> Forall event_ok es -> Forall (event_for child) es ->
  run d es = (d', os') -> Inv child d' (os ++ os').
Proof.
  induction es as [|e es IH]; intros d os d' os' Hi Ho Hf Hr; cbn in Hr.
  - injection Hr as <- <-. now rewrite app_nil_r.
  - destruct (step d e) as [d1 o] eqn:Es. destruct (run d1 es) as [d2 os2] eqn:Er. injection Hr as <- <-.
    apply Forall_cons_iff in Ho, Hf. destruct Ho as [Ho1 Ho2], Hf as [Hf1 Hf2].
    change (o :: os2) with ([o] ++ os2). rewrite app_assoc. eapply IH; eauto. eapply inv_step; eauto.
Qed.

(** ** What is asked *)
Lemma should_update_due hub m st a now : rel st a -> should_update hub m st now = true <-> due hub m a now.
Proof.
  intros (H1 & H2 & H3 & H4 & H5). unfold should_update, due.
  assert (Hi : update_interval hub m st = delay hub m a). { unfold update_interval, delay. rewrite H3, H2. reflexivity. }
  rewrite Hi, H1, orb_true_iff, Z.eqb_eq. destruct (last_asked a) as [t|]; [|tauto].
  specialize (H5 t eq_refl). rewrite orb_true_iff, Z.eqb_eq, Z.leb_le. split; intros [H|H]; try tauto; try lia.
Qed.
Lemma plan_spec hub m st a now : rel st a ->
  snd (plan hub false now (m, st)) = true <-> m_query m <> [] /\ errors a < 10 /\ due hub m a now.
Proof.
  intro Hr. unfold plan. cbn [orb andb]. rewrite (disabled_rel _ _ Hr). rewrite <- (should_update_due hub m st a now Hr), <- Z.leb_gt.
  destruct (10 <=? errors a); cbn [negb andb]; [cbn; split; [discriminate|intros (_ & H & _); discriminate]|].
  destruct (m_query m); cbn; split; try discriminate; try tauto. intro H. repeat split; auto. discriminate.
Qed.
Lemma in_add_keys q : forall req k, In k (add_keys req q) <-> In k req \/ In k q.
Proof.
  unfold add_keys. induction q as [|x q IH]; intros req k; cbn; [tauto|]. rewrite IH.
  destruct (smem x req) eqn:E.
  - apply smem_In in E. split; [tauto|]. intros [H|[<-|H]]; auto.
  - rewrite in_app_iff. cbn. tauto.
Qed.
Lemma in_request l k : In k (request l) <-> exists m, In (m, true) l /\ In k (m_query m).
Proof.
  unfold request. assert (G : forall l req, In k (fold_left (fun req (mb : smod * bool) => if snd mb then add_keys req (m_query (fst mb)) else req) l req) <->
     In k req \/ exists m, In (m, true) l /\ In k (m_query m)).
  { clear l. induction l as [|[m b] l IH]; intro req; cbn; [split; [tauto|intros [H|(m & [] & _)]; exact H]|]. rewrite IH. destruct b; cbn.
    - rewrite in_add_keys. split.
      + intros [[H|H]|(m0 & H1 & H2)]; [tauto|right; exists m; auto|right; exists m0; auto].
      + intros [H|(m0 & [H1|H1] & H2)]; [tauto|injection H1 as ->; tauto|right; exists m0; auto].
    - split.
      + intros [H|(m0 & H1 & H2)]; [tauto|right; exists m0; auto].
      + intros [H|(m0 & [H1|H1] & H2)]; [tauto|discriminate|right; exists m0; auto]. }
  rewrite G. cbn. tauto.
Qed.

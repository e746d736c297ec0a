From Verif Require Import Base Base_Lemmas Py Smod_Model Smod_Spec Smod_Proofs Overlap_Model Overlap_Spec.
From Coq Require Import Lia.
Open Scope list_scope.
Open Scope Z_scope.

Lemma lookup_remove_other {A} i j (l : list (nat * A)) : j <> i -> lookup j (remove i l) = lookup j l.
Proof.
  intro N. unfold remove. induction l as [|[n x] l IH]; [reflexivity|]. cbn [filter fst lookup].
  destruct (Nat.eqb_spec i n) as [->|N2]; cbn [negb lookup]; rewrite IH; [|reflexivity].
  destruct (Nat.eqb_spec j n); [contradiction|reflexivity].
Qed.
Lemma in_remove {A} i (l : list (nat * A)) x : In x (remove i l) <-> In x l /\ fst x <> i.
Proof.
  unfold remove. rewrite filter_In. destruct (Nat.eqb_spec i (fst x)); cbn; split; intros [H1 H2]; split; auto; congruence.
Qed.
Lemma lookup_in {A} i (l : list (nat * A)) x : lookup i l = Some x -> In (i, x) l.
Proof.
  induction l as [|[n y] l IH]; cbn; [discriminate|]. destruct (Nat.eqb_spec i n) as [->|N]; intro H; [injection H as <-; now left|right; auto].
Qed.

Definition shape (d : dev) : list smod := map fst (mods d).
Lemma shape_asks d d' : shape d = shape d' -> forall m k, asks d m k -> asks d' m k.
Proof.
  intros E m k (mo & st & Hin & Hn & Hk). assert (H : In mo (shape d')). { rewrite <- E. unfold shape. apply (in_map fst) in Hin. exact Hin. }
  unfold shape in H. apply in_map_iff in H as ([mo' st'] & Hmo & H). cbn in Hmo. subst mo'. now exists mo, st'.
Qed.
Lemma finish_shape u resp d : shape (finish u resp d) = shape d.
Proof. unfold finish, shape. destruct (try_get _ resp); cbn; [rewrite map_map; reflexivity|reflexivity]. Qed.
Lemma finish_lu u resp d : lu (finish u resp d) = dupdate (lu d) resp.
Proof. unfold finish. destruct (try_get _ resp); reflexivity. Qed.
Lemma setter_shape m d : shape (call_setter m d) = shape d.
Proof. unfold call_setter, shape. cbn. rewrite map_map. apply map_ext. intros [mo st]. cbn. now destruct (String.eqb (m_name mo) m). Qed.
Lemma setter_lu m d : lu (call_setter m d) = lu d.
Proof. reflexivity. Qed.


Lemma dget_answers w k req : forall d, 
  dget k (dupdate d (map (fun k => (k, w k)) req)) = if smem k req then Some (w k) else dget k (d : dict reply).
Proof.
  induction req as [|x req IH]; intro d; [reflexivity|]. change (dupdate d (map (fun k => (k, w k)) (x :: req))) with (dupdate (dset x (w x) d) (map (fun k => (k, w k)) req)).
  rewrite IH. change (smem k (x :: req)) with (String.eqb k x || smem k req)%bool. destruct (smem k req); [now rewrite orb_true_r|].
  rewrite orb_false_r, dget_dset. destruct (String.eqb_spec k x) as [->|N]; reflexivity.
Qed.

Lemma begin_covers now d mo st k : In (mo, st) (mods d) -> NoDup (map m_name (shape d)) ->
  In (m_name mo) (u_asked (begin_update now d)) -> In k (m_query mo) -> In k (u_req (begin_update now d)).
Proof.
  intros Hin ND Ha Hk. cbn [u_asked begin_update u_req] in *. apply in_request. exists mo. split; [|exact Hk].
  apply in_map_iff in Ha as ([[mo' st'] b] & Hn & Ha). cbn in Hn. apply filter_In in Ha as [Ha Hb]. cbn in Hb. subst b.
  apply in_map_iff. exists (mo', st', true). split; [cbn|exact Ha].
  unfold planned in Ha. apply in_map_iff in Ha as ([mo2 st2] & E & Ha). injection E as -> _ _.
  f_equal. unfold shape in ND. apply (in_map fst) in Hin, Ha. cbn in Hin, Ha. clear -ND Hin Ha Hn.
  induction (map fst (mods d)) as [|x l IH]; [destruct Ha|]. cbn in ND. inversion ND as [|? ? Hnot ND']; subst.
  destruct Hin as [->|Hin], Ha as [->|Ha]; [reflexivity| | |now apply IH].
  - exfalso. apply Hnot. rewrite <- Hn. now apply in_map.
  - exfalso. apply Hnot. rewrite Hn. now apply in_map.
Qed.

(** The invariant of histories without failures *)
Definition pending (s : sys) (k : string) : Prop :=
  exists mo st, In (mo, st) (mods (s_dev s)) /\ In k (m_query mo) /\ (t_last st = None \/ exists id, lookup id (s_sets s) = Some (m_name mo)).
Record Inv (s : sys) : Prop := {
  inv_nodup : NoDup (map m_name (shape (s_dev s)));
  inv_ups : forall id u, In (id, u) (s_ups s) -> u_single u = None /\
    forall mo st k, In (mo, st) (mods (s_dev s)) -> In (m_name mo) (u_asked u) -> In k (m_query mo) -> In k (u_req u);
  inv_keys : forall m k, asks (s_dev s) m k -> current s k \/ pending s k }.

Lemma shape_in d d' mo st : shape d = shape d' -> In (mo, st) (mods d) -> exists st', In (mo, st') (mods d').
Proof.
  unfold shape. intros E H. apply (in_map fst) in H. rewrite E in H. apply in_map_iff in H as ([x st'] & Ex & H). cbn in Ex. subst. now exists st'.
Qed.

Lemma finish_in u resp d mo st' : In (mo, st') (mods (finish u resp d)) ->
  exists st, In (mo, st) (mods d).
Proof. intro H. exact (shape_in _ _ _ _ (finish_shape u resp d) H). Qed.
Lemma finish_keeps u resp d mo st : In (mo, st) (mods d) -> ~ In (m_name mo) (u_asked u) -> t_last st = None ->
  exists st', In (mo, st') (mods (finish u resp d)) /\ t_last st' = None.
Proof.
  intros H N T. unfold finish. destruct (try_get _ resp) as [i|e]; [|exists st; auto].
  eexists. split; [cbn [mods set_mods set_info set_lu]; apply in_map_iff; exists (mo, st); split; [reflexivity|exact H]|].
  cbn [fst snd]. apply smem_false in N. rewrite N. unfold post_update. destruct (disabled st); [exact T|].
  destruct (hook_ok _ _ _ _); exact T.
Qed.

Lemma inv_finish s id u : Inv s -> In (id, u) (s_ups s) ->
  Inv (set_ups (set_dev s (finish u (map (fun k => (k, s_world s k)) (u_req u)) (s_dev s))) (remove id (s_ups s))).
Proof.
  intros [ND U K] Hin. set (resp := map _ _). set (d' := finish u resp (s_dev s)).
  assert (SH : shape d' = shape (s_dev s)) by apply finish_shape.
  constructor; cbn [s_dev s_ups set_ups set_dev].
  - rewrite SH. exact ND.
  - intros i v Hv. apply in_remove in Hv as [Hv _]. destruct (U _ _ Hv) as [U1 U2]. split; [exact U1|].
    intros mo st k Hm. destruct (finish_in _ _ _ _ _ Hm) as (st0 & Hm0). now apply (U2 mo st0 k).
  - intros m k Hk. destruct (U _ _ Hin) as [_ U2]. unfold current, pending. cbn [s_dev s_world s_sets set_ups set_dev].
    unfold d'. rewrite finish_lu. unfold resp. rewrite dget_answers. destruct (smem k (u_req u)) eqn:E; [now left|].
    apply smem_false in E. destruct (K m k) as [C|(mo & st & Hm & Hq & P)]; [exact (shape_asks _ _ SH _ _ Hk)|left; exact C|].
    right. destruct (in_dec string_dec (m_name mo) (u_asked u)) as [A|A]; [exfalso; apply E; now apply (U2 mo st k)|].
    destruct P as [P|P].
    + destruct (finish_keeps u resp (s_dev s) mo st Hm A P) as (st' & Hm' & T). exists mo, st'. auto.
    + destruct (shape_in (s_dev s) d' mo st (eq_sym SH) Hm) as (st' & Hm'). exists mo, st'. auto.
Qed.

Lemma inv_step s e : Inv s -> no_failure e -> by_setters s [e] -> Inv (step s e).
Proof.
  intros I NF [B _]. destruct e as [id now|id ok|id m|id k r|id|k r]; cbn [step].
  - destruct (lookup id (s_ups s)) eqn:E; [exact I|]. destruct I as [ND U K]. constructor; cbn [s_dev s_ups set_ups]; [exact ND| |exact K].
    intros i u [H|H]; [|now apply U with i]. injection H as <- <-. split; [reflexivity|]. intros mo st k H1 H2 H3. now apply begin_covers with mo st.
  - cbn in NF. subst ok. unfold answer. destruct (lookup id (s_ups s)) as [u|] eqn:E; [|exact I].
    apply lookup_in in E. destruct (inv_ups _ I _ _ E) as [U1 _]. rewrite U1. now apply inv_finish.
  - destruct (lookup id (s_sets s)) eqn:E; [exact I|]. destruct I as [ND U K]. constructor; cbn [s_dev s_ups]; [exact ND|exact U|].
    intros x k Hk. destruct (K x k Hk) as [C|(mo & st & Hm & Hq & P)]; [left; exact C|right]. exists mo, st. cbn [s_dev s_sets]. repeat split; auto.
    destruct P as [P|[i P]]; [now left|right; exists i]. cbn [lookup]. destruct (Nat.eqb_spec i id) as [->|N]; [congruence|exact P].
  - destruct (lookup id (s_sets s)) as [m|] eqn:E; [|exact I]. destruct I as [ND U K]. constructor; cbn [s_dev s_ups]; [exact ND|exact U|].
    intros x k' Hk. destruct (String.eqb_spec k' k) as [->|N].
    + right. destruct B as (mo & st & Hm & Hn & Hq). exists mo, st. cbn [s_dev s_sets]. repeat split; auto. right. exists id. rewrite Hn. exact E.
    + destruct (K x k' Hk) as [C|P]; [left|right; exact P]. unfold current in *. cbn [s_dev s_world]. unfold change.
      destruct (String.eqb_spec k' k); [contradiction|exact C].
  - destruct (lookup id (s_sets s)) as [m|] eqn:E; [|exact I]. destruct I as [ND U K].
    assert (SH := setter_shape m (s_dev s)). constructor; cbn [s_dev s_ups].
    + rewrite SH. exact ND.
    + intros i u Hu. destruct (U _ _ Hu) as [U1 U2]. split; [exact U1|]. intros mo st k Hm.
      destruct (shape_in _ _ _ _ SH Hm) as (st0 & Hm0). now apply (U2 mo st0 k).
    + intros x k Hk. destruct (K x k) as [C|(mo & st & Hm & Hq & P)]; [exact (shape_asks _ _ SH _ _ Hk)|left; exact C|right].
      unfold pending. cbn [s_dev s_sets]. exists mo. 
      assert (G : exists st', In (mo, st') (mods (call_setter m (s_dev s))) /\ (t_last st = None \/ m_name mo = m -> t_last st' = None)).
      { exists (if String.eqb (m_name mo) m then after_setter st else st). split.
        - unfold call_setter. cbn [mods set_mods]. apply in_map_iff. exists (mo, st). split; [cbn; now destruct (String.eqb (m_name mo) m)|exact Hm].
        - destruct (String.eqb_spec (m_name mo) m); [reflexivity|]. intros [?|?]; [assumption|contradiction]. }
      destruct G as (st' & Hm' & T). exists st'. split; [exact Hm'|]. split; [exact Hq|].
      destruct P as [P|[i P]]; [left; apply T; now left|]. destruct (Nat.eq_dec i id) as [->|N].
      * left. apply T. right. congruence.
      * right. exists i. now rewrite lookup_remove_other.
  - contradiction.
Qed.

Lemma inv_run es : forall s, Inv s -> Forall no_failure es -> by_setters s es -> Inv (run s es).
Proof.
  induction es as [|e es IH]; intros s I NF B; [exact I|]. inversion NF as [|? ? N1 N2]; subst. destruct B as [B1 B2].
  cbn [run fold_left]. apply IH; [|exact N2|exact B2]. apply inv_step; [exact I|exact N1|]. cbn [by_setters]. split; [exact B1|exact Logic.I].
Qed.
Lemma inv_start s : up_to_date s -> NoDup (map m_name (shape (s_dev s))) -> Inv s.
Proof.
  intros (U & S & C) ND. constructor; [exact ND| |intros m k H; left; exact (C m k H)].
  rewrite U. intros ? ? [].
Qed.

Lemma plan_due hub now mo st : m_query mo <> [] -> disabled st = false -> should_update hub mo st now = true ->
  plan hub false now (mo, st) = (st, true).
Proof. intros Q D S. unfold plan. rewrite D. cbn [orb negb andb]. destruct (m_query mo); [contradiction|]. now rewrite S. Qed.
Lemma due_asked now d mo st k : In (mo, st) (mods d) -> In k (m_query mo) -> disabled st = false ->
  should_update (hub_child d) mo st now = true -> In k (u_req (begin_update now d)).
Proof.
  intros Hm Hk D S. cbn [u_req begin_update]. apply in_request. exists mo. split; [|exact Hk].
  apply in_map_iff. exists (mo, st, true). split; [reflexivity|]. unfold planned. apply in_map_iff. exists (mo, st). split; [|exact Hm].
  rewrite plan_due; auto. intro E. now rewrite E in Hk.
Qed.
(** One update by itself *)
Lemma alone_lu s id now k : lookup id (s_ups s) = None ->
  let s' := run s [EBegin id now; EAnswer id true] in
  s_world s' = s_world s /\ 
  dget k (lu (s_dev s')) = if smem k (u_req (begin_update now (s_dev s))) then Some (s_world s k) else dget k (lu (s_dev s)).
Proof.
  intro F. cbn [run fold_left step]. rewrite F. unfold answer. cbn [s_ups set_ups lookup]. rewrite Nat.eqb_refl. cbn [u_single begin_update].
  cbn [set_dev set_ups s_world s_dev]. split; [reflexivity|]. rewrite finish_lu, dget_answers. reflexivity.
Qed.

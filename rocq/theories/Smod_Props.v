(** C27, C28, C69, C70: SMART modules and their update cycle. *)
From Verif Require Import Base Base_Lemmas Py Smod_Model Smod_Spec Smod_Proofs.
From Coq Require Import Lia.
Open Scope string_scope.
Open Scope list_scope.
Open Scope Z_scope.

(** ** C27 *)
Lemma asked_step child d os e d' now r m st : Inv child d os -> event_ok e -> event_for child e ->
  step d e = (d', OUpdate false now r) -> In (m, st) (mods d) ->
  smem (m_name m) (asked r) = snd (plan (hub_child d) false now (m, st)).
Proof.
  intros [Hn Hr Hs] Hok Hfor Hst Hin. destruct e as [n init now0|n parent now0|x]; cbn [step event_ok event_for] in *; [| |discriminate].
  - destruct (update n init now0 d) as [[d1 r1] out] eqn:Eu. injection Hst as <- Hneg <- <-. unfold update in Eu.
    destruct (started d) eqn:Est; [|discriminate]. unfold modular_update in Eu.
    destruct (ask n _) as [resp|e]; cbn [lu set_lu set_mods] in Eu; [destruct (try_get _ _) as [i|e]|]; injection Eu as <- <- <-; now apply asked_of.
  - destruct (child_update n parent now0 d) as [[d1 r1] out] eqn:Eu. injection Hst as <- <- <-. unfold child_update in Eu.
    destruct (request _) as [|k req]; [|destruct (ask n _) as [resp|e]]; injection Eu as <- <- <-; now apply asked_of.
Qed.
(** After the first update a module is asked exactly when it has a query, has failed
    fewer than ten times in a row, and its delay - thirty seconds per failure,
    otherwise its own interval or a day under a hub - has passed. *)
Theorem module_asked : forall child d0 es d os e d' now r m st,
  start_ok child d0 -> Forall event_ok (es ++ [e]) -> Forall (event_for child) (es ++ [e]) ->
  run d0 es = (d, os) -> step d e = (d', OUpdate false now r) -> In (m, st) (mods d) ->
  (In (m_name m) (asked r) <->
   m_query m <> [] /\ errors (account_of m os) < 10 /\ due (hub_child d) m (account_of m os) now).
Proof.
  intros child d0 es d os e d' now r m st Hs Hok Hfor Hrun Hst Hin.
  apply Forall_app in Hok, Hfor. destruct Hok as [Hok1 Hok2], Hfor as [Hfor1 Hfor2].
  apply Forall_inv in Hok2, Hfor2.
  pose proof (inv_run child es d0 [] d os (inv_init child d0 Hs) Hok1 Hfor1 Hrun) as Hi. rewrite app_nil_l in Hi.
  rewrite <- smem_In, (asked_step child d os e d' now r m st Hi Hok2 Hfor2 Hst Hin).
  apply plan_spec. now apply (inv_rel _ _ _ Hi).
Qed.
Print Assumptions module_asked.

(** The first update asks every module with a query that the negotiation did not serve. *)
Theorem module_first_asked : forall es d os e d' now r m st,
  Forall event_ok (es ++ [e]) -> Forall (event_for false) (es ++ [e]) ->
  run new_dev es = (d, os) -> step d e = (d', OUpdate true now r) -> In (m, st) (mods d') ->
  (m_name m = "Cloud" -> m_first m = true) ->
  (In (m_name m) (asked r) <-> m_query m <> [] /\ m_first m = false).
Proof.
  intros es d os e d' now r m st Hok Hfor Hrun Hst Hin Hcl.
  apply Forall_app in Hok, Hfor. destruct Hok as [Hok1 Hok2], Hfor as [Hfor1 Hfor2].
  apply Forall_inv in Hok2, Hfor2.
  pose proof (inv_run false es new_dev [] d os (inv_init false _ eq_refl) Hok1 Hfor1 Hrun) as [Hn Hr Hs]. rewrite app_nil_l in *.
  destruct e as [n init now0|n parent now0|x]; cbn [step event_ok event_for] in *; [|discriminate|discriminate].
  destruct (update n init now0 d) as [[d1 r1] out] eqn:Eu. injection Hst as <- Hneg <- <-. unfold update in Eu.
  destruct (started d) eqn:Est; [discriminate|]. destruct (Hs eq_refl eq_refl) as [Hm _].
  destruct (negotiate n init (set_started d)) as [d2 [[]|e]] eqn:En.
  2:{ injection Eu as <- <- <-. destruct (negotiate_fail _ _ _ _ _ En) as (H1 & _). rewrite H1 in Hin. cbn [set_started mods] in Hin. rewrite Hm in Hin. contradiction. }
  destruct (negotiate_mods _ _ _ _ En) as (resp & l & Hil & Hm2 & Hh2 & Hs2).
  assert (Hn2 : NoDup (names (mods (cloud_first now0 d2)))). { rewrite cloud_names, Hm2. unfold names. rewrite map_map. destruct Hok2 as [_ Hinit]. exact (Hinit _ _ Hil). }
  destruct (modular_update n true now0 (cloud_first now0 d2)) as [[d3 r3] out3] eqn:Em. injection Eu as <- <- <-. cbn [asked].
  assert (G : exists st0, In (m, st0) (mods (cloud_first now0 d2)) /\ smem (m_name m) (asked r3) = snd (plan (hub_child (cloud_first now0 d2)) true now0 (m, st0))).
  { unfold modular_update in Em.
    destruct (ask n _) as [rsp|e]; cbn [lu set_lu set_mods] in Em; [destruct (try_get _ _) as [i|e]|]; injection Em as <- <- <-;
      cbn [mods set_mods set_lu set_info] in Hin; (apply post_all_in in Hin || apply plan_map_in in Hin); destruct Hin as (st0 & Hin & _); exists st0;
      (split; [exact Hin | now apply asked_of]). }
  destruct G as (st0 & Hin0 & G). rewrite <- smem_In, G. unfold plan. cbn [orb andb].
  destruct (m_query m) as [|k q]; [cbn; split; [discriminate|intros [H _]; now elim H]|].
  destruct (m_first m) eqn:Ef; cbn; [split; [discriminate|intros [_ H]; discriminate]|].
  split; [intros _; split; [discriminate|reflexivity]|]. intros _.
  unfold cloud_first in Hin0. cbn [mods set_mods] in Hin0. rewrite Hm2, map_map in Hin0. apply in_map_iff in Hin0. destruct Hin0 as (m1 & He & _). cbn [fst snd] in He.
  destruct (String.eqb (m_name m1) "Cloud") eqn:Ec; injection He as <- <-.
  - apply String.eqb_eq in Ec. specialize (Hcl Ec). congruence.
  - unfold should_update. cbn. now rewrite orb_true_r.
Qed.
Print Assumptions module_first_asked.

(** Every request asks for exactly the methods of the modules asked. *)
Theorem module_request : forall child d0 es d os e d' first now r req k,
  start_ok child d0 -> Forall event_ok (es ++ [e]) -> Forall (event_for child) (es ++ [e]) ->
  run d0 es = (d, os) -> step d e = (d', OUpdate first now r) -> requested r = Some req ->
  (In k req <-> exists m st, In (m, st) (mods d') /\ In (m_name m) (asked r) /\ In k (m_query m)).
Proof.
  intros child d0 es d os e d' first now r req k Hs Hok Hfor Hrun Hst Hreq.
  apply Forall_app in Hok, Hfor. destruct Hok as [Hok1 Hok2], Hfor as [Hfor1 Hfor2].
  apply Forall_inv in Hok2, Hfor2.
  pose proof (inv_run child es d0 [] d os (inv_init child d0 Hs) Hok1 Hfor1 Hrun) as Hi. rewrite app_nil_l in Hi.
  assert (G : forall hub fst0 (l : list (smod * mstate)) own parent inf done (l' : list (smod * mstate)) rq, NoDup (names l) ->
    (forall m, (exists st, In (m, st) l') <-> exists st, In (m, st) l) ->
    rq = request (map (fun x : smod * mstate * bool => (fst (fst x), snd x)) (planned hub fst0 now l)) ->
    (In k rq <-> exists m st, In (m, st) l' /\ In (m_name m) (asked (report_of (Some rq) own parent inf done (planned hub fst0 now l))) /\ In k (m_query m))).
  { intros hub fst0 l own parent inf done l' rq Hnd Hl' ->. rewrite in_request. split.
    - intros (m & Hm & Hk). unfold planned in Hm. rewrite map_map in Hm. apply in_map_iff in Hm. destruct Hm as ([m0 st0] & He & Hin). cbn [fst snd] in He. injection He as -> Ha.
      destruct (proj2 (Hl' m)) as [st1 H1]; [eauto|]. exists m, st1. repeat split; auto. apply smem_In. rewrite (asked_of _ _ _ _ _ _ _ _ _ m st0 Hnd Hin). exact Ha.
    - intros (m & st1 & H1 & Ha & Hk). destruct (proj1 (Hl' m)) as [st0 H0]; [eauto|]. apply smem_In in Ha. rewrite (asked_of _ _ _ _ _ _ _ _ _ m st0 Hnd H0) in Ha.
      exists m. split; [|exact Hk]. unfold planned. rewrite map_map. apply in_map_iff. exists (m, st0). cbn [fst snd]. rewrite Ha. auto. }
  assert (P1 : forall own parent inf hub f (l : list (smod * mstate)) m, (exists st, In (m, st) (post_all now own parent inf (planned hub f now l))) <-> exists st, In (m, st) l).
  { intros. split; intros [st H].
    - apply post_all_in in H. destruct H as (st0 & H & _). eauto.
    - eexists. unfold post_all, planned. rewrite map_map. apply in_map_iff. exists (m, st). split; [reflexivity|exact H]. }
  assert (P2 : forall hub f (l : list (smod * mstate)) m, (exists st, In (m, st) (map fst (planned hub f now l))) <-> exists st, In (m, st) l).
  { intros. split; intros [st H].
    - apply plan_map_in in H. destruct H as (st0 & H & _). eauto.
    - eexists. unfold planned. rewrite map_map. apply in_map_iff. exists (m, st). split; [reflexivity|exact H]. }
  assert (Q : forall n f d1 d2 r1 out, NoDup (names (mods d1)) -> modular_update n f now d1 = (d2, r1, out) -> requested r1 = Some req ->
    (In k req <-> exists m st, In (m, st) (mods d2) /\ In (m_name m) (asked r1) /\ In k (m_query m))).
  { intros n f d1 d2 r1 out Hnd Hm Hr1. unfold modular_update in Hm.
    destruct (ask n _) as [rsp|e0]; cbn [lu set_lu set_mods] in Hm; [destruct (try_get _ _) as [i|e0]|]; injection Hm as <- <- <-;
      cbn [requested report_of] in Hr1; injection Hr1 as <-; cbn [mods set_mods set_lu set_info]; apply G; auto. }
  destruct e as [n init now0|n parent now0|x]; cbn [step event_ok event_for] in *; [| |discriminate].
  - destruct (update n init now0 d) as [[d1 r1] out] eqn:Eu. injection Hst as <- Hneg -> ->. unfold update in Eu.
    destruct (started d) eqn:Est; [eapply Q; eauto; apply (inv_names _ _ _ Hi)|].
    destruct (negotiate n init (set_started d)) as [d2 [[]|e]] eqn:En; [|injection Eu as <- <- <-; discriminate].
    destruct (negotiate_mods _ _ _ _ En) as (resp & l & Hil & Hm2 & Hh2 & Hs2).
    destruct (modular_update n true now (cloud_first now d2)) as [[d3 r3] out3] eqn:Em. injection Eu as <- <- <-. cbn [asked requested] in *.
    eapply Q; eauto. rewrite cloud_names, Hm2. unfold names. rewrite map_map. destruct Hok2 as [_ Hinit]. exact (Hinit _ _ Hil).
  - destruct (child_update n parent now0 d) as [[d1 r1] out] eqn:Eu. injection Hst as <- _ -> ->. unfold child_update in Eu.
    destruct (request _) as [|k0 req0] eqn:Erq; [|destruct (ask n _) as [resp|e]]; injection Eu as <- <- <-; cbn [requested report_of] in Hreq; try discriminate;
      injection Hreq as <-; cbn [mods set_mods set_lu set_started]; apply G; auto; apply (inv_names _ _ _ Hi).
Qed.
Print Assumptions module_request.

Lemma empty_truthy j : truthy j = false <-> empty_json j.
Proof.
  unfold empty_json. split.
  - destruct j as [|[]|z|s|s|[|]|[|]]; cbn; intro H; try discriminate; auto 10.
    + destruct (Z.eqb_spec z 0); [subst; auto 10|discriminate].
    + destruct (String.eqb_spec s "0.0"); [subst; auto 10|]. destruct (String.eqb_spec s "-0.0"); [subst; auto 10|discriminate].
    + destruct (String.eqb_spec s ""); [subst; auto 10|discriminate].
  - intros [->|[->|[->|[->|[->|[->|[->| ->]]]]]]]; reflexivity.
Qed.
Lemma hook_default m own parent inf : m_hook m = None ->
  (hook_ok m own parent inf = true <-> exists v, data m own parent inf = Ok v /\ ~ nothing v).
Proof.
  intro H. unfold hook_ok. rewrite H. destruct (data m own parent inf) as [[j|d]|e].
  - split.
    + intro T. exists (One j). split; [reflexivity|]. cbn. rewrite <- empty_truthy. congruence.
    + intros (v & E & N). injection E as <-. cbn in N. rewrite <- empty_truthy in N. destruct (truthy j); congruence.
  - split.
    + intro T. exists (Many d). split; [reflexivity|]. cbn. destruct d; discriminate.
    + intros (v & E & N). injection E as <-. cbn in N. destruct d; [now elim N|reflexivity].
  - split; [discriminate|]. intros (v & E & _). discriminate.
Qed.
Lemma modular_outcome n f now d d' r out m st ok : modular_update n f now d = (d', r, out) -> NoDup (names (mods d)) ->
  In (m, st) (mods d') -> dget (m_name m) (processed r) = Some ok -> ok = hook_ok m (lu d') None (info d').
Proof.
  unfold modular_update. intros Hm Hn Hin Hp.
  destruct (ask n _) as [rsp|e0]; cbn [lu set_lu set_mods] in Hm; [destruct (try_get _ _) as [i|e0]|]; injection Hm as <- <- <-;
    try (cbn in Hp; discriminate).
  cbn [mods set_mods set_lu set_info lu info] in *. apply post_all_in in Hin. destruct Hin as (st0 & Hin & _).
  rewrite (processed_of _ _ _ _ _ _ _ _ m st0 Hn Hin) in Hp. now injection Hp as <-.
Qed.
(** What counts as a success: after an update that got so far, a module with the
    default hook has succeeded exactly when it can now be read and is not empty; one
    with a hook of its own, when that hook accepts the replies now held. *)
Theorem module_outcome : forall child d0 es d os e d' first now r m st ok,
  start_ok child d0 -> Forall event_ok (es ++ [e]) -> Forall (event_for child) (es ++ [e]) ->
  run d0 es = (d, os) -> step d e = (d', OUpdate first now r) -> In (m, st) (mods d') ->
  dget (m_name m) (processed r) = Some ok ->
  match m_hook m with
  | None => ok = true <-> exists v, data m (lu d') (parent_of e) (info d') = Ok v /\ ~ nothing v
  | Some h => ok = h (lu d')
  end.
Proof.
  intros child d0 es d os e d' first now r m st ok Hs Hok Hfor Hrun Hst Hin Hp.
  apply Forall_app in Hok, Hfor. destruct Hok as [Hok1 Hok2], Hfor as [Hfor1 Hfor2].
  apply Forall_inv in Hok2, Hfor2.
  pose proof (inv_run child es d0 [] d os (inv_init child d0 Hs) Hok1 Hfor1 Hrun) as Hi. rewrite app_nil_l in Hi.
  assert (G : ok = hook_ok m (lu d') (parent_of e) (info d')).
  { destruct e as [n init now0|n parent now0|x]; cbn [step event_ok event_for parent_of] in *; [| |discriminate].
    - destruct (update n init now0 d) as [[d1 r1] out] eqn:Eu. injection Hst as <- Hneg -> ->. unfold update in Eu.
      destruct (started d) eqn:Est; [exact (modular_outcome _ _ _ _ _ _ _ _ _ _ Eu (inv_names _ _ _ Hi) Hin Hp)|].
      destruct (negotiate n init (set_started d)) as [d2 [[]|e]] eqn:En; [|injection Eu as <- <- <-; discriminate].
      destruct (negotiate_mods _ _ _ _ En) as (resp & l & Hil & Hm2 & Hh2 & Hs2).
      destruct (modular_update n true now (cloud_first now d2)) as [[d3 r3] out3] eqn:Em. injection Eu as <- <- <-. cbn [processed] in Hp.
      refine (modular_outcome _ _ _ _ _ _ _ _ _ _ Em _ Hin Hp).
      rewrite cloud_names, Hm2. unfold names. rewrite map_map. destruct Hok2 as [_ Hinit]. exact (Hinit _ _ Hil).
    - destruct (child_update n parent now0 d) as [[d1 r1] out] eqn:Eu. injection Hst as <- _ -> ->. unfold child_update in Eu.
      destruct (request _) as [|k0 req0] eqn:Erq; [|destruct (ask n _) as [resp|e]]; injection Eu as <- <- <-; try (cbn in Hp; discriminate);
        cbn [mods set_mods set_lu set_started lu info] in *; apply post_all_in in Hin; destruct Hin as (st0 & Hin & _);
        rewrite (processed_of _ _ _ _ _ _ _ _ m st0 (inv_names _ _ _ Hi) Hin) in Hp; now injection Hp as <-. }
  destruct (m_hook m) as [h|] eqn:Eh.
  - rewrite G. unfold hook_ok. now rewrite Eh.
  - rewrite G. now apply hook_default.
Qed.
Print Assumptions module_outcome.

(** No errors are ever counted for a module that accepts everything. *)
Definition clean (d : dev) : Prop := forall m st, In (m, st) (mods d) -> accepts_all m -> t_count st = 0.
Lemma hook_all m own parent inf : accepts_all m -> hook_ok m own parent inf = true.
Proof. intros (h & Hh & H). unfold hook_ok. now rewrite Hh. Qed.
Lemma post_clean b now st : t_count st = 0 -> t_count (post_update true b now st) = 0.
Proof. intro H. unfold post_update. destruct (disabled st); [exact H|reflexivity]. Qed.
Lemma plan_count hub first now m st : t_count (fst (plan hub first now (m, st))) = t_count st.
Proof. unfold plan. destruct ((first || negb (disabled st)) && _); [destruct (first && m_first m)|]; reflexivity. Qed.
Lemma modular_clean n f now d d' r out : modular_update n f now d = (d', r, out) -> clean d -> clean d'.
Proof.
  unfold modular_update. intros Hm Hc m st Hin Ha.
  destruct (ask n _) as [rsp|e0]; cbn [lu set_lu set_mods] in Hm; [destruct (try_get _ _) as [i|e0]|]; injection Hm as <- <- <-;
    cbn [mods set_mods set_lu set_info] in Hin; (apply post_all_in in Hin || apply plan_map_in in Hin); destruct Hin as (st0 & Hin & ->);
    try rewrite (hook_all m _ _ _ Ha); try apply post_clean; rewrite plan_count; exact (Hc m st0 Hin Ha).
Qed.
Lemma step_clean d e d' o : step d e = (d', o) -> clean d -> clean d'.
Proof.
  intros Hst Hc. destruct e as [n init now|n parent now|x]; cbn [step] in Hst.
  - destruct (update n init now d) as [[d1 r] out] eqn:Eu. injection Hst as <- _. unfold update in Eu.
    destruct (started d); [exact (modular_clean _ _ _ _ _ _ _ Eu Hc)|].
    destruct (negotiate n init (set_started d)) as [d2 [[]|e]] eqn:En.
    + destruct (negotiate_mods _ _ _ _ En) as (resp & l & Hil & Hm2 & Hh2 & Hs2).
      destruct (modular_update n true now (cloud_first now d2)) as [[d3 r3] out3] eqn:Em. injection Eu as <- <- <-.
      apply (modular_clean _ _ _ _ _ _ _ Em). intros m st Hin Ha. unfold cloud_first in Hin. cbn [mods set_mods] in Hin. rewrite Hm2, map_map in Hin.
      apply in_map_iff in Hin. destruct Hin as (m1 & He & _). cbn [fst snd] in He. destruct (String.eqb (m_name m1) "Cloud"); injection He as <- <-; [|reflexivity].
      rewrite (hook_all m1 _ _ _ Ha). now apply post_clean.
    + injection Eu as <- <- <-. destruct (negotiate_fail _ _ _ _ _ En) as (H1 & _). intros m st Hin. rewrite H1 in Hin. exact (Hc m st Hin).
  - destruct (child_update n parent now d) as [[d1 r] out] eqn:Eu. injection Hst as <- _. unfold child_update in Eu. intros m st Hin Ha.
    destruct (request _) as [|k0 req0]; [|destruct (ask n _) as [resp|e]]; injection Eu as <- <- <-; cbn [mods set_mods set_lu set_started] in Hin;
      (apply post_all_in in Hin || apply plan_map_in in Hin); destruct Hin as (st0 & Hin & ->);
      try rewrite (hook_all m _ _ _ Ha); try apply post_clean; rewrite plan_count; exact (Hc m st0 Hin Ha).
  - injection Hst as <- _. intros m st Hin Ha. unfold call_setter in Hin. cbn [mods set_mods] in Hin. apply in_map_iff in Hin.
    destruct Hin as ([m0 st0] & He & Hin). cbn [fst snd] in He. destruct (String.eqb (m_name m0) x); injection He as <- <-; exact (Hc m0 st0 Hin Ha).
Qed.
Lemma run_clean es : forall d d' os, run d es = (d', os) -> clean d -> clean d'.
Proof.
  induction es as [|e es IH]; intros d d' os Hr Hc; cbn in Hr; [now injection Hr as <- _|].
  destruct (step d e) as [d1 o] eqn:Es. destruct (run d1 es) as [d2 os2] eqn:Er. injection Hr as <- _.
  exact (IH d1 d2 os2 Er (step_clean _ _ _ _ Es Hc)).
Qed.
(** The module that reads the device info, without which no update returns, is asked
    on every update after the first, however often its query has failed. *)
Theorem critical_module_asked : forall child d0 es d os e d' now r m st,
  start_ok child d0 -> Forall event_ok (es ++ [e]) -> Forall (event_for child) (es ++ [e]) ->
  run d0 es = (d, os) -> step d e = (d', OUpdate false now r) -> In (m, st) (mods d) ->
  accepts_all m -> m_query m <> [] -> m_min m = 0 -> hub_child d = false -> In (m_name m) (asked r).
Proof.
  intros child d0 es d os e d' now r m st Hs Hok Hfor Hrun Hst Hin Ha Hq Hmin Hh.
  apply (module_asked child d0 es d os e d' now r m st Hs Hok Hfor Hrun Hst Hin).
  assert (C0 : clean d0).
  { intros m1 st1 H1 _. unfold start_ok in Hs. destruct child.
    - destruct Hs as (hub & l & i & last & -> & _). cbn in H1. apply in_map_iff in H1. destruct H1 as (m2 & E & _). now injection E as <- <-.
    - subst d0. destruct H1. }
  pose proof (run_clean es d0 d os Hrun C0 m st Hin Ha) as C.
  apply Forall_app in Hok, Hfor. destruct Hok as [Hok1 _], Hfor as [Hfor1 _].
  pose proof (inv_run child es d0 [] d os (inv_init child d0 Hs) Hok1 Hfor1 Hrun) as Hi. rewrite app_nil_l in Hi.
  pose proof (inv_rel _ _ _ Hi m st Hin) as (_ & Hc & _). rewrite C in Hc.
  split; [exact Hq|]. split; [rewrite <- Hc; reflexivity|]. left. unfold delay. rewrite <- Hc, Hh. exact Hmin.
Qed.
Print Assumptions critical_module_asked.

Lemma mods_kept_modular n first now d d' r out : modular_update n first now d = (d', r, out) -> map fst (mods d') = map fst (mods d).
Proof.
  unfold modular_update. destruct (ask n _) as [resp|e]; cbn [lu set_lu set_mods]; [destruct (try_get _ _) as [i|e]|]; intro H; injection H as <- <- <-;
    cbn [mods set_mods set_lu set_info]; unfold post_all, planned; rewrite !map_map; apply map_ext; reflexivity.
Qed.
Lemma early_modular n first now d d' r out : modular_update n first now d = (d', r, out) -> early r = [] /\ started d' = started d.
Proof.
  unfold modular_update. destruct (ask n _) as [resp|e]; cbn [lu set_lu set_mods]; [destruct (try_get _ _) as [i|e]|]; intro H; injection H as <- <- <-; split; reflexivity.
Qed.
(** A module that failed ten times in a row is never asked again. *)
Theorem module_disabled_forever : forall child d0 es d os es2 d2 os2 m st,
  start_ok child d0 -> Forall event_ok (es ++ es2) -> Forall (event_for child) (es ++ es2) ->
  run d0 es = (d, os) -> run d es2 = (d2, os2) -> In (m, st) (mods d) -> 10 <= errors (account_of m os) ->
  forall first now r, In (OUpdate first now r) os2 -> ~ In (m_name m) (asked r).
Proof.
  intros child d0 es d os es2 d2 os2 m st Hs Hok Hfor Hrun Hrun2 Hin H10.
  apply Forall_app in Hok, Hfor. destruct Hok as [Hok1 Hok2], Hfor as [Hfor1 Hfor2].
  pose proof (inv_run child es d0 [] d os (inv_init child d0 Hs) Hok1 Hfor1 Hrun) as Hi. rewrite app_nil_l in Hi.
  clear Hs Hok1 Hfor1 Hrun d0 es. revert d os os2 st Hi Hin H10 Hok2 Hfor2 Hrun2.
  induction es2 as [|e es2 IH]; intros d os os2 st Hi Hin H10 Hok2 Hfor2 Hrun2 first now r Hr; cbn in Hrun2.
  - injection Hrun2 as <- <-. contradiction.
  - destruct (step d e) as [d1 o] eqn:Es. destruct (run d1 es2) as [d3 os3] eqn:Er. injection Hrun2 as <- <-.
    apply Forall_cons_iff in Hok2, Hfor2. destruct Hok2 as [Ho1 Ho2], Hfor2 as [Hf1 Hf2].
    pose proof (inv_step child d os e d1 o Hi Ho1 Hf1 Es) as Hi1.
    assert (Hst : child = false -> started d = true).
    { intro Hc. destruct (started d) eqn:E; [reflexivity|]. destruct (inv_start _ _ _ Hi Hc E) as [Hm _]. rewrite Hm in Hin. contradiction. }
    assert (K : map fst (mods d1) = map fst (mods d) /\ match o with OUpdate f _ r => f = false /\ early r = [] | _ => True end).
    { destruct e as [n init now0|n parent now0|x]; cbn [step event_for] in *.
      - subst child. destruct (update n init now0 d) as [[d4 r4] out] eqn:Eu. injection Es as <- <-. unfold update in Eu. rewrite (Hst eq_refl) in Eu |- *.
        split; [exact (mods_kept_modular _ _ _ _ _ _ _ Eu)|]. split; [reflexivity|]. apply (early_modular _ _ _ _ _ _ _ Eu).
      - destruct (child_update n parent now0 d) as [[d4 r4] out] eqn:Eu. injection Es as <- <-. unfold child_update in Eu.
        destruct (request _) as [|k req]; [|destruct (ask n _) as [resp|e]]; injection Eu as <- <- <-; (split; [|split; reflexivity]);
          cbn [mods set_mods set_lu set_started]; unfold post_all, planned; rewrite !map_map; apply map_ext; reflexivity.
      - injection Es as <- <-. split; [|exact I]. cbn [call_setter mods set_mods]. rewrite map_map. apply map_ext. intros [m0 st0]. cbn. now destruct (String.eqb (m_name m0) x). }
    destruct K as [K1 K2].
    destruct Hr as [->|Hr].
    + destruct K2 as [-> _]. rewrite <- smem_In, (asked_step child d os e d1 now r m st Hi Ho1 Hf1 Es Hin).
      rewrite (plan_spec (hub_child d) m st _ now (inv_rel _ _ _ Hi m st Hin)). lia.
    + assert (Hin1 : exists st1, In (m, st1) (mods d1)).
      { assert (Hx : In m (map fst (mods d1))) by (rewrite K1; apply in_map_iff; exists (m, st); auto). apply in_map_iff in Hx. destruct Hx as ([m0 st0] & <- & Hx). eauto. }
      destruct Hin1 as [st1 Hin1].
      eapply (IH d1 (os ++ [o]) os3 st1 Hi1 Hin1); eauto.
      rewrite account_snoc. destruct o as [f n0 r0|x].
      * destruct K2 as [-> K2]. unfold spec_step. rewrite K2. cbn [dget andb].
        destruct (requested r0), (dget (m_name m) (processed r0)); try exact H10.
        all: apply Z.leb_le in H10; rewrite H10; now apply Z.leb_le.
      * cbn. destruct (String.eqb x (m_name m)); exact H10.
Qed.
Print Assumptions module_disabled_forever.

(** An instance: a module whose queries keep failing is asked at increasing delays
    and, after the tenth failure, no more. *)
Definition dm : smod := mkMod "DeviceModule" ["get_device_info"] 0 [] true (Some (fun _ => true)).
Definition auto_off : smod := mkMod "AutoOff" ["get_auto_off_config"] 0 [] false None.
Definition ex_net (bad : string) : net := fun _ req =>
  Ok (map (fun k => (k, if String.eqb k bad then RErr (-1001) else RVal (JObj [("k", JStr k)]))) req).
Definition ex_init : dict reply -> res (list smod) := fun _ => Ok [dm; auto_off].
Definition ex_history (bad : string) (times : list Z) : list event := map (fun t => EUpdate (ex_net bad) ex_init (t * SEC)) times.
Definition asked_at (x : string) (os : list obs) : list Z :=
  flat_map (fun o => match o with OUpdate _ now r => if smem x (asked r) then [now / SEC] else [] | _ => [] end) os.
Example module_asked_ex :
  let es := ex_history "get_auto_off_config" (map Z.of_nat (seq 1 3000)) in
  Forall event_ok (firstn 20 es) /\ Forall (event_for false) es /\
  asked_at "AutoOff" (snd (run new_dev es)) = [1; 31; 91; 181; 301; 451; 631; 841; 1081; 1351] /\
  errors (account_of auto_off (snd (run new_dev es))) = 10.
Proof.
  cbv zeta. split; [|split; [|split; vm_compute; reflexivity]].
  - cbn. assert (G : forall t (l : list smod), 0 < t -> l = [dm; auto_off] -> 0 < t /\ forall (r : dict reply) l0, @Ok (list smod) l = Ok l0 -> NoDup (map m_name l0)).
    { intros t l Ht ->. split; [exact Ht|]. intros _ l0 H. injection H as <-. cbn. repeat constructor; cbn; intuition discriminate. }
    repeat (constructor; [apply G; [reflexivity|reflexivity]|]). constructor.
  - apply Forall_forall. intros x Hx. unfold ex_history in Hx. apply in_map_iff in Hx. destruct Hx as (t & <- & _). reflexivity.
Qed.
Example module_outcome_ex :
  match snd (run new_dev (ex_history "get_auto_off_config" [1; 2])) with
  | [OUpdate true _ r1; OUpdate false _ r2] =>
      dget (m_name auto_off) (processed r1) = Some false /\ dget (m_name dm) (processed r1) = Some true /\ dget (m_name dm) (processed r2) = Some true
  | _ => False
  end.
Proof. vm_compute. auto. Qed.
Example critical_module_asked_ex :
  let es := ex_history "none" [1] ++ ex_history "get_device_info" (map Z.of_nat (seq 2 20)) in
  accepts_all dm /\ m_query dm <> [] /\ m_min dm = 0 /\ hub_child (fst (run new_dev es)) = false /\
  In dm (map fst (mods (fst (run new_dev es)))) /\ asked_at "DeviceModule" (snd (run new_dev es)) = map Z.of_nat (seq 2 20).
Proof.
  cbv zeta. split; [now exists (fun _ => true)|]. split; [discriminate|]. split; [reflexivity|].
  split; [vm_compute; reflexivity|]. split; [|vm_compute; reflexivity].
  vm_compute. now left.
Qed.

(** ** C28 *)
Lemma filter_in_dget (q : list string) (d : dict reply) k v : dwf d ->
  In (k, v) (filter (fun kv : string * reply => smem (fst kv) q) d) <-> In k q /\ dget k d = Some v.
Proof.
  intro Hw. rewrite filter_In. cbn [fst]. rewrite smem_In. split; intros [H1 H2]; split; auto; [now apply In_dget | now apply dget_In].
Qed.
Lemma removable_err opt d e : removable opt d = Err e -> exists k c, e = KDevice (Some c) /\ In (k, RErr c) d /\ ~ In k opt.
Proof.
  induction d as [|[k [j|c]] d IH]; cbn; [discriminate| |].
  - intro H. destruct (IH H) as (k0 & c & H1 & H2 & H3). exists k0, c. auto.
  - destruct (smem k opt) eqn:E.
    + destruct (removable opt d); [discriminate|]. intro H. injection H as ->. destruct (IH eq_refl) as (k0 & c0 & H1 & H2 & H3). exists k0, c0. auto.
    + intro H. injection H as <-. exists k, c. repeat split; auto. now apply smem_false.
Qed.
Lemma removable_ok opt d l : removable opt d = Ok l -> (forall k c, In (k, RErr c) d -> In k opt) /\ (l = [] -> forall k c, ~ In (k, RErr c) d).
Proof.
  revert l. induction d as [|[k [j|c]] d IH]; cbn; intros l H.
  - injection H as <-. split; [intros k c []|intros _ k c []].
  - destruct (IH l H) as [H1 H2]. split; [intros k0 c0 [G|G]; [discriminate|eauto]|]. intros Hl k0 c0 [G|G]; [discriminate|]. exact (H2 Hl k0 c0 G).
  - destruct (smem k opt) eqn:E; [|discriminate]. destruct (removable opt d) as [r|] eqn:Er; [|discriminate]. cbn in H. injection H as <-.
    destruct (IH r eq_refl) as [H1 H2]. split; [|discriminate]. intros k0 c0 [G|G]; [injection G as <- <-; now apply smem_In | eauto].
Qed.
Lemma values_in d k j : In (k, j) (values d) <-> In (k, RVal j) d.
Proof.
  induction d as [|[k0 [j0|c0]] d IH]; cbn; [tauto| |].
  - rewrite IH. split; intros [H|H]; auto; injection H as -> ->; auto.
  - rewrite IH. split; [auto|]. intros [H|H]; [discriminate|auto].
Qed.
Lemma values_wf d : dwf d -> dwf (values d).
Proof.
  unfold dwf, dkeys. induction d as [|[k [j|c]] d IH]; cbn; intro H; inversion H; subst; [constructor| |auto].
  constructor; [|auto]. intro Hi. apply H2. apply in_map_iff in Hi. destruct Hi as ([k0 j0] & He & Hi). cbn in He. subst k0.
  apply values_in in Hi. apply in_map_iff. exists (k, RVal j0). auto.
Qed.
Lemma filter_wf (f : string * reply -> bool) d : dwf d -> dwf (filter f d).
Proof.
  unfold dwf, dkeys. induction d as [|x d IH]; cbn; intro H; inversion H; subst; [constructor|]. destruct (f x); cbn; auto.
  constructor; [|auto]. intro Hi. apply H2. apply in_map_iff in Hi. destruct Hi as (y & Hy & Hi). apply filter_In in Hi. apply in_map_iff. exists y. tauto.
Qed.

(** [src]: the replies the module reads: its device's, or its parent's when its
    device has none for the first method. *)
Definition source (m : smod) (own : dict reply) (parent : option (dict reply)) (src : dict reply) : Prop :=
  match m_query m with
  | [] => False
  | k0 :: _ => (In k0 (dkeys own) /\ src = own) \/ (~ In k0 (dkeys own) /\ parent = Some src /\ In k0 (dkeys src))
  end.
Lemma data_source m own parent src sys : source m own parent src ->
  data m own parent sys =
  (let filtered := filter (fun kv : string * reply => smem (fst kv) (m_query m)) src in
   let! removed := removable (m_optional m) filtered in
   Ok (match values filtered, removed with [(_, v)], [] => One v | d, _ => Many d end)).
Proof.
  unfold source, data. destruct (m_query m) as [|k0 q]; [contradiction|]. intros [[H ->]|(H1 & -> & H2)].
  - apply dmem_In in H. rewrite H. reflexivity.
  - assert (E : dmem k0 own = false). { destruct (dmem k0 own) eqn:E; [|reflexivity]. apply dmem_In in E. contradiction. }
    rewrite E. apply dmem_In in H2. rewrite H2. reflexivity.
Qed.
(** Reading module data gives exactly the successful replies to the module's own
    methods; a failed non-optional one raises DeviceError with its code; with no
    reply to the first method there is a library error. *)
Theorem module_data_partial : forall m own parent sys,
  (m_query m = [] -> data m own parent sys = Ok (One sys)) /\
  (m_query m <> [] -> (forall src, ~ source m own parent src) -> data m own parent sys = Err KKasa) /\
  (forall src, source m own parent src -> dwf src ->
     match data m own parent sys with
     | Ok (One j) => exists k, In k (m_query m) /\ dget k src = Some (RVal j) /\ (forall k', In k' (m_query m) -> k' <> k -> dget k' src = None)
     | Ok (Many d) => dwf d /\ (forall k j, dget k d = Some j <-> In k (m_query m) /\ dget k src = Some (RVal j)) /\
                      (forall k c, In k (m_query m) -> dget k src = Some (RErr c) -> In k (m_optional m))
     | Err e => exists k c, e = KDevice (Some c) /\ In k (m_query m) /\ ~ In k (m_optional m) /\ dget k src = Some (RErr c)
     end).
Proof.
  intros m own parent sys. split; [|split].
  - intro H. unfold data. now rewrite H.
  - intros Hq Hs. unfold data, source in *. destruct (m_query m) as [|k0 q]; [now elim Hq|].
    destruct (dmem k0 own) eqn:E; [apply dmem_In in E; elim (Hs own); auto|].
    destruct parent as [p|]; [|reflexivity]. destruct (dmem k0 p) eqn:Ep; [|reflexivity]. apply dmem_In in Ep. elim (Hs p). right. split; [|auto].
    intro H. apply dmem_In in H. congruence.
  - intros src Hsrc Hw. rewrite (data_source _ _ _ _ sys Hsrc). cbv zeta.
    set (f := filter (fun kv : string * reply => smem (fst kv) (m_query m)) src).
    assert (Hf : forall k v, In (k, v) f <-> In k (m_query m) /\ dget k src = Some v) by (intros; now apply filter_in_dget).
    assert (Hfw : dwf f) by now apply filter_wf.
    destruct (removable (m_optional m) f) as [rm|e] eqn:Er; cbn [bind].
    2:{ destruct (removable_err _ _ _ Er) as (k & c & -> & H1 & H2). exists k, c. apply Hf in H1. tauto. }
    destruct (removable_ok _ _ _ Er) as [R1 R2].
    assert (Hmany : dwf (values f) /\ (forall k j, dget k (values f) = Some j <-> In k (m_query m) /\ dget k src = Some (RVal j)) /\
                      (forall k c, In k (m_query m) -> dget k src = Some (RErr c) -> In k (m_optional m))).
    { split; [now apply values_wf|]. split.
      - intros k j. rewrite <- Hf, <- values_in. split; [apply dget_In | apply In_dget; now apply values_wf].
      - intros k c H1 H2. apply (R1 k c). apply Hf. auto. }
    destruct (values f) as [|[k j] [|y l]] eqn:Ev; [exact Hmany| |exact Hmany]. destruct rm as [|x rm]; [|exact Hmany].
    exists k. assert (Hk : In (k, RVal j) f) by (apply values_in; rewrite Ev; left; reflexivity). apply Hf in Hk. destruct Hk as [Hk1 Hk2]. repeat split; auto.
    intros k' Hk' Hne. destruct (dget k' src) as [[j'|c']|] eqn:Ed; [| |reflexivity].
    + assert (G : In (k', RVal j') f) by (apply Hf; auto). apply values_in in G. rewrite Ev in G. destruct G as [G|[]]. injection G as G _. congruence.
    + elim (R2 eq_refl k' c'). apply Hf. auto.
Qed.
Print Assumptions module_data_partial.
Definition energy : smod := mkMod "Energy" ["get_energy_usage"; "get_current_power"; "get_emeter_data"] 0 ["get_emeter_data"] false None.
Example module_data_ex :
  data energy [("get_device_info", RVal (JInt 1)); ("get_energy_usage", RVal (JInt 2)); ("get_current_power", RVal (JInt 3)); ("get_emeter_data", RErr (-1001))] None JNull
    = Ok (Many [("get_energy_usage", JInt 2); ("get_current_power", JInt 3)]) /\
  data energy [("get_energy_usage", RErr (-1001))] None JNull = Err (KDevice (Some (-1001))) /\
  source energy [("get_energy_usage", RErr (-1001))] None [("get_energy_usage", RErr (-1001))].
Proof. repeat split. left. cbn. auto. Qed.
(** A missing reply to a method other than the first goes unnoticed, and the data
    then even change shape. *)
Theorem module_data_missing_refuted : exists m own k, In k (m_query m) /\ dget k own = None /\
  data m own None JNull = Ok (One (JInt 2)).
Proof. exists energy, [("get_energy_usage", RVal (JInt 2))], "get_current_power". repeat split. cbn. auto. Qed.
Print Assumptions module_data_missing_refuted.

Lemma dget_filter_keys q (d : dict reply) k : In k q -> dget k (filter (fun kv : string * reply => smem (fst kv) q) d) = dget k d.
Proof.
  intro H. apply smem_In in H. induction d as [|[k0 v0] d IH]; [reflexivity|]. cbn [filter fst dget]. destruct (smem k0 q) eqn:E; cbn [dget].
  - destruct (String.eqb k k0); auto.
  - destruct (String.eqb k k0) eqn:Ek; [apply String.eqb_eq in Ek; congruence|exact IH].
Qed.
(** Camera modules: with several methods every reply must be there. *)
Theorem camera_module_data : forall q getter section own sys, dwf own ->
  ((forall g, q = [g] -> g = getter) ->
   match q with
   | [] => cam_data q getter section own sys = Ok (One sys)
   | [g] =>
       match dget g own with
       | None => cam_data q getter section own sys = Err KKasa
       | Some (RErr c) => cam_data q getter section own sys = Err (KDevice (Some c))
       | Some (RVal (JObj [])) => cam_data q getter section own sys = Err KKasa
       | Some (RVal (JObj d)) => cam_data q getter section own sys = Ok (One (match dget section d with Some v => v | None => JObj d end))
       | _ => True
       end
   | _ =>
       match cam_data q getter section own sys with
       | Ok (Many d) => dwf d /\ (forall k, In k q -> exists j, dget k own = Some (RVal j)) /\
                        (forall k j, dget k d = Some j <-> In k q /\ dget k own = Some (RVal j))
       | Ok (One _) => False
       | Err KKasa => exists k, In k q /\ dget k own = None
       | Err (KDevice (Some c)) => exists k, In k q /\ dget k own = Some (RErr c)
       | Err _ => False
       end
   end).
Proof.
  intros q getter section own sys Hw Hg. destruct q as [|g [|g2 q]]; [reflexivity| |].
  - rewrite (Hg g eq_refl). cbn [cam_data]. destruct (dget getter own) as [[j|c]|]; [|reflexivity|reflexivity].
    destruct j as [| | | | | |[|x d]]; try exact I; reflexivity.
  - remember (g :: g2 :: q) as qq eqn:Eq. assert (E : cam_data qq getter section own sys =
      (let found := filter (fun kv : string * reply => smem (fst kv) qq) own in let! _ := cam_check qq found in Ok (Many (values found)))) by (rewrite Eq; reflexivity).
    rewrite E. clear E Eq Hg g g2 q. cbv zeta. set (f := filter (fun kv : string * reply => smem (fst kv) qq) own).
    assert (G : forall q', incl q' qq -> match cam_check q' f with
      | Ok _ => forall k, In k q' -> exists j, dget k own = Some (RVal j)
      | Err KKasa => exists k, In k qq /\ dget k own = None
      | Err (KDevice (Some c)) => exists k, In k qq /\ dget k own = Some (RErr c)
      | Err _ => False end).
    { induction q' as [|k q' IH]; intro Hi; cbn; [intros k []|]. assert (Hk : In k qq) by (apply Hi; left; reflexivity).
      unfold f. rewrite (dget_filter_keys qq own k Hk). fold f. specialize (IH (fun x h => Hi x (or_intror h))).
      destruct (dget k own) as [[j|c]|] eqn:Ed; [|exists k; auto|exists k; auto].
      destruct (cam_check q' f) as [[]|[]]; auto. intros k0 [<-|H]; eauto. }
    specialize (G qq (incl_refl _)). destruct (cam_check qq f) as [[]|e]; cbn [bind]; [|destruct e as [| | | |[c|]|[c|]|[c|]| | | | | | | | | | | | | | |]; auto].
    split; [apply values_wf; now apply filter_wf|]. split; [exact G|]. intros k j. rewrite <- (filter_in_dget qq own k (RVal j) Hw). fold f. rewrite <- values_in.
    split; [apply dget_In | apply In_dget; apply values_wf; now apply filter_wf].
Qed.
Print Assumptions camera_module_data.

(** ** C69: a failed first update *)
(** When the first update succeeds in negotiating, the device has the modules its
    components call for. *)
Theorem start_partial : forall n init now l resp, n 0%nat ["component_nego"; "get_device_info"; "get_connect_cloud_state"] = Ok resp ->
  (exists i, i <> JNull /\ dget "get_device_info" resp = Some (RVal i)) -> init resp = Ok l ->
  map fst (mods (fst (fst (update n init now new_dev)))) = l.
Proof.
  intros n init now l resp Hn (i & Hi & Hg) Hl. unfold update. cbn [started new_dev]. unfold negotiate. rewrite Hn.
  assert (E : try_get "get_device_info" resp = Ok i) by (unfold try_get; rewrite Hg; destruct i; congruence). rewrite E, Hl.
  destruct (modular_update n true now _) as [[d r] out] eqn:Em. cbn [fst]. rewrite (mods_kept_modular _ _ _ _ _ _ _ Em).
  unfold cloud_first. cbn [mods set_mods]. rewrite !map_map. rewrite <- (map_id l) at 2. apply map_ext. intro m. cbn. now destruct (String.eqb (m_name m) "Cloud").
Qed.
Print Assumptions start_partial.
(** Otherwise the device never gets any module, however often it is updated and
    whatever it answers: later updates do not negotiate. *)
Theorem failed_start_refuted : exists n init now, snd (update n init now new_dev) = Err KTimeout /\
  forall es d os, Forall (event_for false) es -> run (fst (fst (update n init now new_dev))) es = (d, os) ->
    mods d = [] /\ forall first t r, In (OUpdate first t r) os -> first = false /\ requested r = Some [].
Proof.
  exists (fun _ _ => Err KTimeout), ex_init, 5. split; [reflexivity|]. cbn.
  assert (G : forall es d0 d os, started d0 = true -> mods d0 = [] -> Forall (event_for false) es -> run d0 es = (d, os) ->
    mods d = [] /\ forall first t r, In (OUpdate first t r) os -> first = false /\ requested r = Some []).
  { induction es as [|e es IH]; intros d0 d os Hst Hm Hf Hr; cbn in Hr; [injection Hr as <- <-; split; [exact Hm|intros ? ? ? []]|].
    apply Forall_cons_iff in Hf. destruct Hf as [Hf1 Hf2].
    destruct (step d0 e) as [d1 o] eqn:Es. destruct (run d1 es) as [d2 os2] eqn:Er. injection Hr as <- <-.
    assert (K : started d1 = true /\ mods d1 = [] /\ forall first t r, o = OUpdate first t r -> first = false /\ requested r = Some []).
    { destruct e as [n init now|n parent now|x]; cbn [step event_for] in *; [|discriminate|].
      - destruct (update n init now d0) as [[d4 r4] out] eqn:Eu. injection Es as <- <-. unfold update in Eu. rewrite Hst in Eu |- *.
        destruct (early_modular _ _ _ _ _ _ _ Eu) as [_ H2]. pose proof (mods_kept_modular _ _ _ _ _ _ _ Eu) as H3. rewrite Hm in H3.
        split; [congruence|]. split; [now destruct (mods d4)|]. intros first t r H. injection H as <- <- <-. split; [reflexivity|].
        unfold modular_update in Eu. rewrite Hm in Eu. cbn in Eu. destruct (ask n []) as [resp|e]; cbn [lu set_lu set_mods] in Eu; [destruct (try_get _ _)|]; injection Eu as <- <- <-; reflexivity.
      - injection Es as <- <-. split; [exact Hst|]. split; [unfold call_setter; cbn [mods set_mods]; now rewrite Hm|]. discriminate. }
    destruct K as (K1 & K2 & K3). destruct (IH d1 d2 os2 K1 K2 Hf2 Er) as [H1 H2]. split; [exact H1|].
    intros first t r [H|H]; [now apply (K3 first t r) | eauto]. }
  intros es d os Hf Hr. eapply G; eauto; reflexivity.
Qed.
Print Assumptions failed_start_refuted.

(** ** C70: data stay available *)
Lemma run_wf es : forall d d' os, run d es = (d', os) -> dwf (lu d) -> Forall (event_for false) es -> dwf (lu d').
Proof.
  assert (Hstep : forall d e d' o, step d e = (d', o) -> event_for false e -> dwf (lu d) -> dwf (lu d')).
  { intros d e d' o Hs Hf Hw. destruct e as [n init now|n parent now|x]; cbn [step event_for] in *; [|discriminate|injection Hs as <- <-; exact Hw].
    destruct (update n init now d) as [[d1 r] out] eqn:Eu. injection Hs as <- <-. unfold update in Eu.
    assert (Hm : forall n f now d0 d2 r2 o2, modular_update n f now d0 = (d2, r2, o2) -> dwf (lu d0) -> dwf (lu d2)).
    { clear. intros n f now d0 d2 r2 o2 H Hw. unfold modular_update in H. destruct (ask n _) as [resp|e]; cbn [lu set_lu set_mods] in H; [destruct (try_get _ _)|]; injection H as <- <- <-;
        cbn [lu set_lu set_mods set_info]; auto; now apply dwf_dupdate. }
    destruct (started d); [eauto|]. destruct (negotiate n init (set_started d)) as [d2 x] eqn:En.
    assert (Hw2 : dwf (lu d2)).
    { unfold negotiate in En. destruct (n 0%nat _) as [resp|e]; [|injection En as <- <-; exact Hw].
      destruct (try_get _ resp) as [i|e]; [|injection En as <- <-; now apply dwf_dupdate].
      destruct (init resp); injection En as <- <-; now apply dwf_dupdate. }
    destruct x as [[]|e]; [|injection Eu as <- <- <-; exact Hw2].
    destruct (modular_update n true now (cloud_first now d2)) as [[d3 r3] out3] eqn:Em. injection Eu as <- <- <-. eapply Hm; eauto. }
  induction es as [|e es IH]; intros d d' os Hr Hw Hf; cbn in Hr; [injection Hr as <- <-; exact Hw|].
  destruct (step d e) as [d1 o] eqn:Es. destruct (run d1 es) as [d2 os2] eqn:Er. injection Hr as <- <-.
  apply Forall_cons_iff in Hf. destruct Hf as [Hf1 Hf2]. eapply IH; eauto.
Qed.
(** On a device, data a module could read stay readable after any further step, as
    long as no reply to its methods has turned into an error. *)
Theorem device_data_kept : forall es d os e d' o m,
  Forall (event_for false) (es ++ [e]) -> run new_dev es = (d, os) -> step d e = (d', o) ->
  (exists v, data m (lu d) None (info d) = Ok v) ->
  (forall k c, In k (m_query m) -> dget k (lu d') = Some (RErr c) -> In k (m_optional m)) ->
  exists v, data m (lu d') None (info d') = Ok v.
Proof.
  intros es d os e d' o m Hf Hrun Hst [v Hv] Hno. apply Forall_app in Hf. destruct Hf as [Hf1 Hf2].
  pose proof (run_wf es new_dev d os Hrun dwf_nil Hf1) as Hw.
  pose proof (run_wf [e] d d' [o]) as Hw'. cbn [run] in Hw'. rewrite Hst in Hw'. specialize (Hw' eq_refl Hw Hf2).
  assert (Hkeys : forall k, In k (dkeys (lu d)) -> In k (dkeys (lu d'))).
  { apply Forall_inv in Hf2. intros k Hk. destruct e as [n init now|n parent now|x]; cbn [step event_for] in *; [|discriminate|injection Hst as <- <-; exact Hk].
    destruct (update n init now d) as [[d1 r] out] eqn:Eu. injection Hst as <- <-. unfold update in Eu.
    assert (Hm : forall n f now d0 d2 r2 o2, modular_update n f now d0 = (d2, r2, o2) -> In k (dkeys (lu d0)) -> In k (dkeys (lu d2))).
    { clear. intros n f now d0 d2 r2 o2 H Hw. unfold modular_update in H. destruct (ask n _) as [resp|e]; cbn [lu set_lu set_mods] in H; [destruct (try_get _ _)|]; injection H as <- <- <-;
        cbn [lu set_lu set_mods set_info]; auto; apply In_dkeys_dupdate; auto. }
    destruct (started d); [eauto|]. destruct (negotiate n init (set_started d)) as [d2 x] eqn:En.
    assert (Hw2 : In k (dkeys (lu d2))).
    { unfold negotiate in En. destruct (n 0%nat _) as [resp|e]; [|injection En as <- <-; exact Hk].
      destruct (try_get _ resp) as [i|e]; [|injection En as <- <-; apply In_dkeys_dupdate; auto].
      destruct (init resp); injection En as <- <-; apply In_dkeys_dupdate; auto. }
    destruct x as [[]|e]; [|injection Eu as <- <- <-; exact Hw2].
    destruct (modular_update n true now (cloud_first now d2)) as [[d3 r3] out3] eqn:Em. injection Eu as <- <- <-. eapply Hm; eauto. }
  destruct (module_data_partial m (lu d') None (info d')) as (P1 & P2 & P3).
  destruct (m_query m) as [|k0 q] eqn:Eq; [eauto|].
  assert (Hsrc : source m (lu d') None (lu d')).
  { unfold source. rewrite Eq. left. split; [|reflexivity]. apply Hkeys. unfold data in Hv. rewrite Eq in Hv. destruct (dmem k0 (lu d)) eqn:E; [now apply dmem_In|discriminate]. }
  specialize (P3 _ Hsrc Hw'). destruct (data m (lu d') None (info d')) as [v'|e']; [eauto|].
  destruct P3 as (k & c & _ & H1 & H2 & H3). elim H2. now apply (Hno k c).
Qed.
Print Assumptions device_data_kept.
Example device_data_kept_ex :
  let es := ex_history "none" [1; 2] in
  exists d os, run new_dev es = (d, os) /\ exists v, data auto_off (lu d) None (info d) = Ok v.
Proof. eexists. eexists. split; [vm_compute; reflexivity|]. eexists. vm_compute. reflexivity. Qed.
(** A child replaces its replies with those of the last request: after one module's
    setter was called, the next update - every query of which succeeds - makes the
    data of the other modules unreadable, for the rest of the day under a hub. *)
Definition fw : smod := mkMod "Firmware" ["get_latest_fw"] 86400 [] false None.
Definition logs : smod := mkMod "TriggerLogs" ["get_trigger_logs"] 3600 [] false None.
Theorem child_data_refuted : exists d0 es, start_ok true d0 /\ Forall event_ok es /\ Forall (event_for true) es /\
  (exists v, data logs (lu (fst (run d0 (firstn 1 es)))) (Some []) (info d0) = Ok v) /\
  data logs (lu (fst (run d0 es))) (Some []) (info d0) = Err KKasa /\
  (forall o, In o (snd (run d0 es)) -> match o with OUpdate _ _ r => Forall (fun x => snd x = true) (processed r) \/ asked r = ["Firmware"] | _ => True end) /\
  forall t, 100 * SEC < t < 86400 * SEC -> data logs (lu (fst (run d0 (es ++ [EChild (ex_net "none") (Some []) t])))) (Some []) (info d0) = Err KKasa.
Proof.
  exists (new_child true [fw; logs] (JObj [("device_id", JStr "x")]) []),
         [EChild (ex_net "none") (Some []) SEC; ESetter "Firmware"; EChild (ex_net "none") (Some []) (100 * SEC)].
  split; [exists true, [fw; logs], (JObj [("device_id", JStr "x")]), []; split; [reflexivity|cbn; repeat constructor; cbn; intuition discriminate]|].
  split; [repeat constructor|]. split; [repeat constructor|]. split; [eexists; vm_compute; reflexivity|]. split; [vm_compute; reflexivity|].
  split.
  - assert (E : snd (run (new_child true [fw; logs] (JObj [("device_id", JStr "x")]) [])
         [EChild (ex_net "none") (Some []) SEC; ESetter "Firmware"; EChild (ex_net "none") (Some []) (100 * SEC)]) =
       [OUpdate false SEC (mkRep ["Firmware"; "TriggerLogs"] (Some ["get_latest_fw"; "get_trigger_logs"]) [("Firmware", true); ("TriggerLogs", true)] []);
        OSetter "Firmware";
        OUpdate false (100 * SEC) (mkRep ["Firmware"] (Some ["get_latest_fw"]) [("Firmware", true); ("TriggerLogs", false)] [])]) by (vm_compute; reflexivity).
    rewrite E. intros o [<-|[<-|[<-|[]]]]; cbn; auto.
  - intros t Ht. cbn [app run step]. unfold SEC in *.
    set (d1 := child_update _ _ 1000000 _). vm_compute in d1. subst d1. cbn [fst snd].
    set (d2 := call_setter _ _). vm_compute in d2. subst d2.
    set (d3 := child_update _ _ (100 * 1000000) _). vm_compute in d3. subst d3. cbn [fst snd].
    unfold child_update. cbn [hub_child mods planned map plan fst snd disabled t_count t_err t_last m_query m_min fw logs should_update update_interval negb orb andb].
    unfold should_update, update_interval, SEC. cbn [t_err t_last].
    assert (E1 : (86400 * 1000000 <=? t - 100000000) = false) by (apply Z.leb_gt; lia).
    assert (E2 : (86400 * 1000000 <=? t - 1000000) = false) by (apply Z.leb_gt; lia).
    rewrite E1, E2. reflexivity.
Qed.
Print Assumptions child_data_refuted.

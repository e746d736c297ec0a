From Verif Require Import Base Base_Lemmas Xor_Model Xor_Proofs Conc_Model Conc_Spec Conc_Proofs.
From Coq Require Import Lia.

Section P.
Variable J : Type.
Variable loads : bytes -> option J.
Notation step := (step J loads).
Notation run := (run J loads).


(** Somebody inside holds the lock. *)
Lemma inside_holder s t : Inv J loads s -> inside s t -> holder s = Some t.
Proof.
  intros (_ & Hf & _) (k & Ht & Hw & Hd). specialize (Hf t k Ht).
  destruct (at_ k); cbn in Hf; try tauto; try congruence.
Qed.

Lemma holder_inside s t : Inv J loads s -> holder s = Some t -> inside s t.
Proof.
  intros (_ & Hf & _ & Hh) Ht. destruct (Hh t Ht) as (k & Hk). specialize (Hf t k Hk).
  exists k. split; [exact Hk|]. split; intros; intros E; rewrite E in Hf; cbn in Hf; tauto.
Qed.

(** C101: at most one call is ever past the lock. *)
Theorem concurrent_exclusive s t u : reachable loads s -> inside s t -> inside s u -> t = u.
Proof.
  intros HR Ht Hu. apply reachable_Inv in HR.
  pose proof (inside_holder _ _ HR Ht). pose proof (inside_holder _ _ HR Hu). congruence.
Qed.

Lemma answered_step s e p : In p (answered (step s e)) ->
  In p (answered s) \/ exists c t req rep, e = EAnswer c rep /\ p = (t, req, rep).
Proof.
  assert (Hc : forall x : state J, answered (close_without_wait J x) = answered x)
    by (intros x; unfold close_without_wait; now destruct (writer x)).
  assert (Hw : forall x t k r c, answered (write J x t k r c) = answered x).
  { intros. unfold write, reset_and_raise. destruct (encrypt (request k)); cbn; auto. }
  assert (Ha : forall x t k r, answered (attempt J x t k r) = answered x).
  { intros. unfold attempt. destruct (writer x); cbn; auto. }
  assert (Hg : forall x t k r ex, answered (caught J x t k r ex) = answered x).
  { intros. unfold caught.
    destruct ex; cbn [is_kasa]; try destruct (Nat.leb _ _); cbn; rewrite ?Ha; auto. }
  assert (Hr : forall x t k r ex, answered (raised J x t k r ex) = answered x).
  { intros. unfold raised, reset_and_raise. destruct (writer x); cbn; auto. }
  destruct e as [t req n|t|t bad|t|t|t f|t|t|c rep|c n|]; cbn [Conc_Model.step]; unfold on_task;
    try destruct (tasks s t) as [k|]; cbn; auto; try destruct (at_ k); cbn; auto.
  - destruct (holder s); rewrite ?Ha; cbn; auto.
  - destruct bad as [f|]; [|rewrite Hw; cbn; auto].
    destruct f; rewrite ?Hr; cbn; auto.
  - destruct (writer s); rewrite ?Hr; cbn; auto.
  - destruct (readexactly _ _) as [[hdr rest]|]; auto. destruct (unpack_u32 hdr); rewrite ?Hr; cbn; auto.
    destruct (writer s); rewrite ?Hr; cbn; auto.
  - destruct (_ <=? _)%N; auto. destruct (readexactly _ _) as [[b rest]|]; auto.
    destruct (loads _); rewrite ?Hr; cbn; auto.
  - destruct f; cbn; auto.
  - destruct f; rewrite ?Hr; cbn; rewrite ?Hc; auto.
  - destruct f; rewrite ?Hr; cbn; rewrite ?Hc; auto.
  - destruct f; rewrite ?Hr; cbn; rewrite ?Hc; auto.
  - destruct f; rewrite ?Hr; cbn; rewrite ?Hc; auto.
  - destruct f; cbn; auto.
  - destruct f; cbn; auto.
  - rewrite Hg. auto.
  - rewrite Ha. auto.
  - destruct (c_asked (conns s c)) as [|[t req] rest]; cbn; auto.
    intros [<-|H]; [right; eauto 10|auto].
  - rewrite Hc. auto.
Qed.

Lemma answered_run es : forall s p, In p (answered (run s es)) ->
  In p (answered s) \/ exists c t req rep, In (EAnswer c rep) es /\ p = (t, req, rep).
Proof.
  unfold Conc_Model.run. induction es as [|e es IH]; intros s p H; cbn in *; [auto|].
  apply IH in H as [H|(c & t & req & rep & Hi & ->)]; [|right; eauto 10].
  apply answered_step in H as [H|(c & t & req & rep & -> & ->)]; [auto|right; eauto 10].
Qed.

(** C101: for every schedule, a call that succeeds returns what the device
    answered to this very call. *)
Theorem concurrent_own_answer es t req n j :
  called (run init es) t req n -> ended (run init es) t (Ok j) ->
  exists rep c, In (t, req, rep) (answered (run init es)) /\ loads rep = Some j /\
    In (EAnswer c rep) es.
Proof.
  intros (k & Ht & Hr & _) (k' & Ht' & Hf).
  pose proof (run_Inv J loads es init (init_Inv J loads)) as (_ & HF & _).
  rewrite Ht in Ht'. injection Ht' as <-.
  specialize (HF t k Ht). rewrite Hf in HF. cbn in HF. destruct HF as (_ & _ & HF).
  destruct (HF j eq_refl) as (rep & Hi & Hl). rewrite Hr in Hi.
  destruct (answered_run es init _ Hi) as [[]|(c & t' & req' & rep' & Hi' & [= <- <- <-])].
  exists rep, c. auto.
Qed.

(** C101: the device only ever answers requests that were made. *)
Theorem concurrent_answers_genuine s t req rep : reachable loads s ->
  In (t, req, rep) (answered s) -> exists n, called s t req n.
Proof.
  intros HR Hi. apply reachable_Inv in HR as ((_ & _ & H3 & _) & _).
  destruct (H3 _ _ _ Hi) as (k & Hk & Hq). exists (retries k), k. auto.
Qed.

(** C101: the exchanges of one call, retries included, are never interleaved
    with those of another, and there are at most [n + 1] of them. *)
Theorem concurrent_uninterrupted s : reachable loads s ->
  uninterrupted (wrote s) /\
  forall t req n, called s t req n -> count_occ Nat.eq_dec (wrote s) t <= S n.
Proof.
  intros HR. apply reachable_Inv in HR as ((_ & _ & _ & _ & H5 & _) & Hf & _).
  split; [exact H5|]. intros t req n (k & Ht & _ & <-). specialize (Hf t k Ht).
  destruct (at_ k); cbn in Hf.
  - destruct Hf as [Hf _]. apply (count_occ_not_In Nat.eq_dec) in Hf. unfold tid in *. lia.
  - destruct Hf as (_ & _ & Hr & m & Hm & Hl). rewrite (count_wrote _ _ _ _ Hm). lia.
  - destruct Hf as (_ & _ & Hr & (m & Hm & Hl) & _). rewrite (count_wrote _ _ _ _ Hm). lia.
  - destruct Hf as (_ & _ & Hr & (m & Hm & Hl) & _). rewrite (count_wrote _ _ _ _ Hm). lia.
  - destruct Hf as (_ & _ & Hr & (m & Hm & Hl) & _). rewrite (count_wrote _ _ _ _ Hm). lia.
  - destruct Hf as (_ & _ & Hr & m & Hm & Hl). rewrite (count_wrote _ _ _ _ Hm). lia.
  - destruct Hf as (_ & _ & Hr & m & Hm & Hl). rewrite (count_wrote _ _ _ _ Hm). lia.
  - apply Hf.
Qed.

(** * No call waits for ever *)

Definition stage (s : state J) (t : tid) (k : task J) (p : pc J) : Prop :=
  holder s = Some t /\ tasks s t = Some (mkTask (request k) (retries k) p).

Definition trying (s : state J) (t : tid) (k : task J) (retry : nat) : Prop :=
  stage s t k (Opening retry) \/ (exists c, stage s t k (Draining retry c)) \/
  (exists c, stage s t k (Header retry c)) \/ (exists c n, stage s t k (Body retry c n)) \/
  (exists e, stage s t k (Closing retry e)).

Definition over (s : state J) (t : tid) : Prop :=
  holder s = None /\ exists e, ended s t (Err e).

Lemma close_keeps (s : state J) : holder (close_without_wait J s) = holder s /\
  tasks (close_without_wait J s) = tasks s.
Proof. unfold close_without_wait. destruct (writer s); auto. Qed.

Lemma finish_over s t k e : over (finish J s t k (Err e)) t.
Proof.
  split; [reflexivity|]. exists e. eexists. cbn. rewrite upd_same. split; reflexivity.
Qed.

Lemma goto_stage s t k p : holder s = Some t -> stage (goto J s t k p) t k p.
Proof. intros H. split; [exact H|]. cbn. now rewrite upd_same. Qed.

Lemma attempt_trying s t k retry : holder s = Some t -> trying (attempt J s t k retry) t k retry.
Proof.
  intros H. unfold attempt, write. destruct (writer s) as [c|]; [|left; now apply goto_stage].
  destruct (encrypt (request k)).
  - right. left. exists c. now apply goto_stage.
  - do 4 right. eexists. apply goto_stage. now rewrite (proj1 (close_keeps s)).
Qed.

Lemma caught_next s t k retry e : holder s = Some t ->
  over (caught J s t k retry e) t \/
  (retry < retries k /\ (trying (caught J s t k retry e) t k (S retry) \/
                         stage (caught J s t k retry e) t k (Resting retry))).
Proof.
  intros H. assert (H' : holder (close_without_wait J s) = Some t)
    by now rewrite (proj1 (close_keeps s)).
  unfold caught. destruct e; cbn [is_kasa]; try (left; apply finish_over);
    destruct (Nat.leb_spec (retries k) retry); try (left; apply finish_over); right; split; auto.
  - right. now apply goto_stage.
  - left. now apply attempt_trying.
  - left. now apply attempt_trying.
Qed.

Lemma raised_next s t k retry e : holder s = Some t ->
  stage (raised J s t k retry e) t k (Closing retry e) \/
  raised J s t k retry e = caught J s t k retry e.
Proof.
  intros H. unfold raised. destruct (writer s); [left|now right].
  apply goto_stage. now rewrite (proj1 (close_keeps s)).
Qed.

Lemma run_app s es es' : run s (es ++ es') = run (run s es) es'.
Proof. apply fold_left_app. Qed.

Lemma times_out n : forall s t k retry, trying s t k retry -> retries k <= retry + n ->
  exists es, Forall (only_time t) es /\ over (run s es) t.
Proof.
  induction n as [|n IH]; intros s t k retry HT Hn.
  all: assert (HC : forall x, (over x t \/ (retry < retries k /\ (trying x t k (S retry) \/
             stage x t k (Resting retry)))) ->
        exists es, Forall (only_time t) es /\ over (run x es) t).
  1,3: intros x [Ho|(Hl & [Hx|(Hh & Ht)])]; [exists []; auto| |];
    [try lia; try (eapply IH; [exact Hx|lia])|try lia].
  { destruct (IH (step x (ESlept t)) t k (S retry)) as (es & Hes & Ho); [|lia|].
    { cbn [Conc_Model.step]. unfold on_task. rewrite Ht. cbn [at_].
      pose proof (attempt_trying x t k (S retry) Hh) as Ha. exact Ha. }
    exists (ESlept t :: es). split; [constructor; [right; now right|exact Hes]|exact Ho]. }
  all: assert (HX : forall x e, stage x t k (Closing retry e) ->
        exists es, Forall (only_time t) es /\ over (run x es) t).
  1,3: intros x e (Hh & Ht);
    destruct (HC (step x (EClosed t))) as (es & Hes & Ho);
    [cbn [Conc_Model.step]; unfold on_task; rewrite Ht; cbn [at_]; exact (caught_next x t k retry e Hh)
    |exists (EClosed t :: es); split; [constructor; [right; now left|exact Hes]|exact Ho]].
  all: assert (HR : forall x e, holder x = Some t ->
        exists es, Forall (only_time t) es /\ over (run (raised J x t k retry e) es) t).
  1,3: intros x e Hh; destruct (raised_next x t k retry e Hh) as [Hs| ->];
    [eapply HX; eauto|apply HC; now apply caught_next].
  all: assert (HF : forall p, stage s t k p ->
        (exists e, step s (EFault t FTimeout) = raised J s t k retry e) ->
        exists es, Forall (only_time t) es /\ over (run s es) t).
  1,3: intros p (Hh & Ht) (e & He); destruct (HR s e Hh) as (es & Hes & Ho);
    exists (EFault t FTimeout :: es); (split; [constructor; [now left|exact Hes]|]);
    cbn [Conc_Model.run fold_left]; unfold Conc_Model.run in *; cbn [fold_left];
    rewrite He; exact Ho.
  all: destruct HT as [HT|[(c & HT)|[(c & HT)|[(c & m & HT)|(e & HT)]]]];
    [eapply HF; [exact HT|]|eapply HF; [exact HT|]|eapply HF; [exact HT|]
    |eapply HF; [exact HT|]|eapply HX; eauto];
    destruct HT as (Hh & Ht); eexists; cbn [Conc_Model.step]; unfold on_task; rewrite Ht;
    cbn [at_]; reflexivity.
Qed.

(** C101: even if the device never reacts again, time alone ends the call that
    is past the lock and frees the lock. *)
Theorem concurrent_lock_released s t : reachable loads s -> inside s t ->
  exists es, Forall (only_time t) es /\ (exists e, ended (run s es) t (Err e)) /\
    forall u, ~ inside (run s es) u.
Proof.
  intros HR Hi. apply reachable_Inv in HR. pose proof (inside_holder _ _ HR Hi) as Hh.
  destruct Hi as (k & Ht & Hw & Hd).
  assert (Hk : tasks s t = Some (mkTask (request k) (retries k) (at_ k))) by now rewrite eta_task.
  assert (HO : exists es, Forall (only_time t) es /\ over (run s es) t).
  { destruct (at_ k) as [|r|r c|r c|r c n|r e|r|r] eqn:E; try congruence.
    - apply (times_out (retries k) s t k r); [|lia]. left. now split.
    - apply (times_out (retries k) s t k r); [|lia]. right. left. exists c. now split.
    - apply (times_out (retries k) s t k r); [|lia]. do 2 right. left. exists c. now split.
    - apply (times_out (retries k) s t k r); [|lia]. do 3 right. left. exists c, n. now split.
    - apply (times_out (retries k) s t k r); [|lia]. do 4 right. exists e. now split.
    - destruct (times_out (retries k) (step s (ESlept t)) t k (S r)) as (es & Hes & Ho); [|lia|].
      { cbn [Conc_Model.step]. unfold on_task. rewrite Ht, E. now apply attempt_trying. }
      exists (ESlept t :: es). split; [constructor; [right; now right|exact Hes]|exact Ho]. }
  destruct HO as (es & Hes & (Hno & He)). exists es. split; [exact Hes|]. split; [exact He|].
  intros u Hu. pose proof (run_Inv J loads es s HR) as HI.
  pose proof (inside_holder _ _ HI Hu). congruence.
Qed.

(** C101: a waiting call gets its turn as soon as nobody is inside. *)
Theorem concurrent_waiter_served s t k : reachable loads s ->
  tasks s t = Some k -> at_ k = Waiting -> (forall u, ~ inside s u) ->
  inside (step s (EAcquire t)) t.
Proof.
  intros HR Ht Hw Hn. apply reachable_Inv in HR.
  assert (Hh : holder s = None).
  { destruct (holder s) as [u|] eqn:E; [|reflexivity]. exfalso. eapply Hn.
    eapply holder_inside; eauto. }
  apply holder_inside; [now apply step_Inv|].
  cbn [Conc_Model.step]. unfold on_task. rewrite Ht, Hw, Hh.
  unfold attempt, write, reset_and_raise, close_without_wait. cbn.
  destruct (writer s) as [c|] eqn:Ew; cbn; [|reflexivity].
  destruct (encrypt (request k)); cbn; [reflexivity|]. rewrite ?Ew. reflexivity.
Qed.

(** C101: cancelling ends a call at once.  If it was still waiting nothing else
    changes; if it was inside, the lock is free and no connection is open. *)
Theorem concurrent_cancel s t k : reachable loads s -> tasks s t = Some k ->
  (forall r, at_ k <> Finished r) ->
  let s' := step s (EFault t FCancel) in
  ended s' t (Err Cancelled) /\
  (forall u, u <> t -> tasks s' u = tasks s u) /\
  (~ inside s t -> wrote s' = wrote s /\ conns s' = conns s /\ writer s' = writer s /\
                   holder s' = holder s) /\
  (inside s t -> (forall u, ~ inside s' u) /\ forall c, c_open (conns s' c) = false).
Proof.
  intros HR Ht Hd s'. apply reachable_Inv in HR.
  assert (HI' : Inv J loads s') by now apply step_Inv.
  assert (HG : (at_ k = Waiting /\ s' = goto J s t k (Finished (Err Cancelled))) \/
               (at_ k <> Waiting /\ (s' = finish J s t k (Err Cancelled) /\ writer s = None \/
                s' = finish J (close_without_wait J s) t k (Err Cancelled)))).
  { subst s'. cbn [Conc_Model.step]. unfold on_task. rewrite Ht.
    pose proof HR as (_ & Hf & _). specialize (Hf t k Ht).
    destruct (at_ k) eqn:E; cbn in Hf.
    all: try (right; split; [discriminate|]; right; reflexivity).
    - left. auto.
    - right. split; [discriminate|]. left. split; [reflexivity|tauto].
    - right. split; [discriminate|]. left. split; [reflexivity|tauto].
    - exfalso. eapply Hd; eauto. }
  destruct HG as [(Hw & ->)|(Hw & HG)].
  - split; [eexists; cbn; rewrite upd_same; split; reflexivity|].
    split; [intros u Hu; cbn; now rewrite upd_other|]. split; [cbn; auto|].
    intros (k' & Hk' & Hnw & _). congruence.
  - assert (HF : holder s' = None /\ writer s' = None /\ ended s' t (Err Cancelled) /\
                 forall u, u <> t -> tasks s' u = tasks s u).
    { destruct HG as [(-> & Hwn)| ->].
      - cbn. repeat split; auto.
        + eexists. cbn. rewrite upd_same. split; reflexivity.
        + intros u Hu. now rewrite upd_other.
      - cbn. repeat split; auto.
        + unfold close_without_wait. now destruct (writer s) eqn:E.
        + eexists. cbn. rewrite upd_same. split; reflexivity.
        + intros u Hu. rewrite upd_other by auto. now rewrite (proj2 (close_keeps s)). }
    destruct HF as (Hh & Hwn & He & Ho). split; [exact He|]. split; [exact Ho|]. split.
    + intros Hn. exfalso. apply Hn. exists k. auto.
    + intros _. split.
      * intros u Hu. pose proof (inside_holder _ _ HI' Hu). congruence.
      * intros c. destruct (c_open (conns s' c)) eqn:E; [|reflexivity].
        destruct HI' as ((_ & H2 & _) & _). apply H2 in E. congruence.
Qed.

(** C101: a result, once there, never changes. *)
Theorem concurrent_result_final s t r e : ended s t r -> ended (step s e) t r.
Proof.
  intros (k & Ht & Hf).
  assert (Hcw : forall x : state J, tasks (close_without_wait J x) = tasks x)
    by (intros; apply close_keeps).
  assert (Hg : forall (x : state J) u k' p, tasks x t = Some k -> u <> t -> tasks (goto J x u k' p) t = Some k)
    by (intros x u k' p Hx Hu; cbn; rewrite upd_other by congruence; exact Hx).
  assert (Hfi : forall (x : state J) u k' p, tasks x t = Some k -> u <> t -> tasks (finish J x u k' p) t = Some k)
    by (intros x u k' p Hx Hu; cbn; rewrite upd_other by congruence; exact Hx).
  assert (Hrr : forall (x : state J) u k' n ex, tasks x t = Some k -> u <> t ->
            tasks (reset_and_raise J x u k' n ex) t = Some k)
    by (intros; apply Hg; [rewrite Hcw|]; auto).
  assert (Hwr : forall (x : state J) u k' n c, tasks x t = Some k -> u <> t -> tasks (write J x u k' n c) t = Some k).
  { intros x u k' n c Hx Hu. unfold write. destruct (encrypt (request k')); [|now apply Hrr].
    cbn. rewrite upd_other by congruence. exact Hx. }
  assert (Hat : forall (x : state J) u k' n, tasks x t = Some k -> u <> t -> tasks (attempt J x u k' n) t = Some k).
  { intros x u k' n Hx Hu. unfold attempt. destruct (writer x); auto. }
  assert (Hca : forall (x : state J) u k' n ex, tasks x t = Some k -> u <> t -> tasks (caught J x u k' n ex) t = Some k).
  { intros x u k' n ex Hx Hu. unfold caught.
    destruct ex; cbn [is_kasa]; try destruct (Nat.leb _ _);
      first [apply Hfi|apply Hat|apply Hg]; auto; now rewrite Hcw. }
  assert (Hra : forall (x : state J) u k' n ex, tasks x t = Some k -> u <> t -> tasks (raised J x u k' n ex) t = Some k).
  { intros x u k' n ex Hx Hu. unfold raised. destruct (writer x); auto. }
  assert (Hcc : forall (x : state J) u k', tasks x t = Some k -> u <> t -> tasks (cancelled J x u k') t = Some k).
  { intros x u k' Hx Hu. unfold cancelled. apply Hfi; auto. now rewrite Hcw. }
  exists k. split; [|exact Hf].
  destruct e as [u req n|u|u bad|u|u|u f|u|u|c rep|c n|]; cbn [Conc_Model.step]; unfold on_task;
    try (destruct (Nat.eq_dec u t) as [->|Hu];
         [rewrite Ht, ?Hf; try (destruct (holder s); exact Ht); try (destruct f; exact Ht); exact Ht|];
         destruct (tasks s u) as [k1|] eqn:Eu; auto; try destruct (at_ k1); auto).
  - destruct (holder s); auto.
  - destruct bad as [f|]; [destruct f|]; auto.
  - destruct (writer s); auto.
  - destruct (readexactly _ _) as [[hdr rest]|]; auto. destruct (unpack_u32 hdr); auto.
    destruct (writer _); auto.
  - destruct (_ <=? _)%N; auto. destruct (readexactly _ _) as [[b rest]|]; auto.
    destruct (loads _); auto.
  - destruct f; auto.
  - destruct f; auto.
  - destruct f; auto.
  - destruct f; auto.
  - destruct f; auto.
  - destruct f; auto.
  - destruct f; auto.
  - destruct (c_asked (conns s c)) as [|[u req] rest]; auto.
  - exact Ht.
  - rewrite Hcw. exact Ht.
Qed.

(** * Connections (C102) *)

(** C102: never two connections open at once. *)
Theorem one_connection_open s c c' : reachable loads s ->
  c_open (conns s c) = true -> c_open (conns s c') = true -> c = c'.
Proof.
  intros HR H H'. apply reachable_Inv in HR as ((_ & H2 & _) & _).
  apply H2 in H, H'. congruence.
Qed.

(** C102: disconnecting closes everything, at once, for good if nobody is
    inside a query and nobody starts one. *)
Theorem disconnect_partial s es : reachable loads s ->
  let s' := step s EDisconnect in
  (forall c, c_open (conns s' c) = false) /\
  ((forall u, ~ inside s u) -> Forall (fun e => forall t, e <> EAcquire t) es ->
   forall c, c_open (conns (run s' es) c) = false).
Proof.
  intros HR s'. apply reachable_Inv in HR.
  assert (HI : Inv J loads s') by now apply step_Inv.
  assert (Hw : writer s' = None).
  { subst s'. cbn. unfold close_without_wait. now destruct (writer s) eqn:E. }
  assert (Hall : forall x, Inv J loads x -> writer x = None -> forall c, c_open (conns x c) = false).
  { intros x ((_ & H2 & _) & _) Hx c. destruct (c_open (conns x c)) eqn:E; [|reflexivity].
    apply H2 in E. congruence. }
  split; [now apply Hall|]. intros Hn Hes.
  assert (Hh : holder s' = None).
  { destruct (holder s') as [u|] eqn:E; [|reflexivity]. exfalso. apply (Hn u).
    subst s'. cbn in E. rewrite (proj1 (close_keeps s)) in E. now apply holder_inside. }
  clearbody s'. clear HR Hn. revert s' HI Hw Hh.
  induction Hes as [|e es He Hes IH]; intros x HI Hw Hh; [now apply Hall|].
  apply (IH (step x e)).
  - now apply step_Inv.
  - assert (Hgone : forall t k, tasks x t = Some k -> at_ k = Waiting \/ exists r, at_ k = Finished r).
    { intros t k Ht. destruct HI as (_ & Hf & _). specialize (Hf t k Ht).
      destruct (at_ k); cbn in Hf; try (destruct Hf as (Hc & _); congruence); eauto. }
    destruct e as [t req n|t|t bad|t|t|t f|t|t|c rep|c n|]; cbn [Conc_Model.step]; unfold on_task.
    all: try (destruct (tasks x t) as [k|] eqn:Et; [|exact Hw]);
      try (destruct (Hgone t k Et) as [Ek|(r & Ek)]; rewrite Ek); try exact Hw.
    + exfalso. now apply (He t).
    + destruct f; exact Hw.
    + destruct (c_asked (conns x c)) as [|[t req] rest]; exact Hw.
    + unfold close_without_wait. rewrite Hw. exact Hw.
  - assert (Hgone : forall t k, tasks x t = Some k -> at_ k = Waiting \/ exists r, at_ k = Finished r).
    { intros t k Ht. destruct HI as (_ & Hf & _). specialize (Hf t k Ht).
      destruct (at_ k); cbn in Hf; try (destruct Hf as (Hc & _); congruence); eauto. }
    destruct e as [t req n|t|t bad|t|t|t f|t|t|c rep|c n|]; cbn [Conc_Model.step]; unfold on_task.
    all: try (destruct (tasks x t) as [k|] eqn:Et; [|exact Hh]);
      try (destruct (Hgone t k Et) as [Ek|(r & Ek)]; rewrite Ek); try exact Hh.
    + exfalso. now apply (He t).
    + destruct f; exact Hh.
    + destruct (c_asked (conns x c)) as [|[t req] rest]; exact Hh.
    + unfold close_without_wait. rewrite Hw. exact Hh.
Qed.
End P.
Print Assumptions concurrent_exclusive.
Print Assumptions concurrent_own_answer.
Print Assumptions concurrent_answers_genuine.
Print Assumptions concurrent_uninterrupted.
Print Assumptions concurrent_lock_released.
Print Assumptions concurrent_waiter_served.
Print Assumptions concurrent_cancel.
Print Assumptions concurrent_result_final.
Print Assumptions one_connection_open.
Print Assumptions disconnect_partial.

(** * Concrete schedules *)

Definition txt (s : string) : bytes := list_ascii_of_string s.

(** Two callers; the first is cancelled after its answer's header has arrived,
    the second gets its own answer over a new connection. *)
Definition two_callers : list event :=
  [EQuery 0 (txt "first") 3; EQuery 1 (txt "second") 3; EAcquire 0; EAcquire 1;
   EOpened 0 None; EDrained 0; EAnswer 0 (txt "one"); EDeliver 0 5; ERead 0;
   EFault 0 FCancel; EAcquire 1; EDeliver 0 9; EOpened 1 None; EDrained 1;
   EAnswer 1 (txt "two"); EDeliver 1 2; ERead 1; EDeliver 1 9; ERead 1; ERead 1].

Example two_callers_end :
  let s := run bytes Some init two_callers in
  ended s 0 (Err Cancelled) /\ ended s 1 (Ok (txt "two")) /\
  called s 1 (txt "second") 3 /\ wrote s = [1; 0] /\ reachable Some s.
Proof.
  cbv zeta. split; [|split; [|split; [|split]]].
  - eexists. split; [vm_compute; reflexivity|reflexivity].
  - eexists. split; [vm_compute; reflexivity|reflexivity].
  - eexists. split; [vm_compute; reflexivity|split; reflexivity].
  - vm_compute. reflexivity.
  - exists two_callers. reflexivity.
Qed.

Example second_waits :
  let s := run bytes Some init (firstn 8 two_callers) in
  inside s 0 /\ ~ inside s 1 /\ reachable Some s /\
  exists k, tasks s 1 = Some k /\ at_ k = Waiting.
Proof.
  cbv zeta. repeat split.
  - eexists. split; [vm_compute; reflexivity|]. split; [discriminate|intros r; discriminate].
  - intros (k & Hk & Hw & _). vm_compute in Hk. injection Hk as <-. now apply Hw.
  - exists (firstn 8 two_callers). reflexivity.
  - eexists. split; [vm_compute; reflexivity|reflexivity].
Qed.

(** C102 fails when a query is under way: close() does not take the lock, the
    query notices that its connection is gone, and retries over a new one. *)
Theorem disconnect_in_flight_refuted :
  exists es1 es2, let s := run bytes Some init (es1 ++ EDisconnect :: es2) in
    (forall e, In e es2 -> ~ is_call e /\ forall t, e <> EAcquire t) /\
    (forall t req n, In (EQuery t req n) (es1 ++ EDisconnect :: es2) -> exists r, ended s t r) /\
    exists c, c_open (conns s c) = true.
Proof.
  exists [EQuery 0 (txt "q") 3; EAcquire 0; EOpened 0 None],
    [EDrained 0; EOpened 0 None; EDrained 0; EAnswer 1 (txt "a"); EDeliver 1 9; ERead 0; ERead 0].
  cbv zeta. split; [|split].
  - intros e He. cbn in He. repeat (destruct He as [<-|He]; [split; [intros (? & ? & ? & ?)|intros ?]; discriminate|]).
    destruct He.
  - intros t req n Hi. cbn in Hi.
    repeat (destruct Hi as [Hi|Hi]; [try discriminate|]); [|easy].
    injection Hi as <- <- <-. eexists. eexists. split; [vm_compute; reflexivity|reflexivity].
  - exists 1. vm_compute. reflexivity.
Qed.
Print Assumptions disconnect_in_flight_refuted.

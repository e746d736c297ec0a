(** How a discovery ends (C134). *)
From Verif Require Import Base DiscEnd_Model DiscEnd_Spec DiscEnd_Proofs.
From Coq Require Import Lia.
Open Scope list_scope.

(** Whatever happens, a call that has ended, by a result or an exception, has closed its socket; nothing
    that happens later changes its end, the devices it has found or which of them were closed. *)
Theorem discovery_end_final : forall k started es r, at_ (after k started es) = Over r ->
  is_open (after k started es) = false /\
  forall more, at_ (after k started (es ++ more)) = Over r /\
               devices (after k started (es ++ more)) = devices (after k started es) /\
               closed (after k started (es ++ more)) = closed (after k started es).
Proof.
  intros k b es r A. destruct (i_over _ _ _ (inv_after k b es) _ A) as (O & _). split; auto.
  intros more. rewrite after_app. now apply run_over.
Qed.

(** An exception that leaves the call has a cause; in particular calling off the sending because the
    target has answered does not show as a cancellation. *)
Theorem discovery_error_has_cause : forall k started es e, at_ (after k started es) = Over (Err e) -> cause es e.
Proof. intros k b es e A. exact (i_err _ _ _ (inv_after k b es) _ A). Qed.
Theorem discovery_not_cancelled_by_itself : forall k started es,
  ~ In ECancel es -> ~ In ELost es -> (forall i, ~ In (ECallbackEnds i (Err Cancelled)) es) -> ~ In (EClosed (Err Cancelled)) es ->
  at_ (after k started es) <> Over (Err Cancelled).
Proof.
  intros k b es N1 N2 N3 N4 A. apply discovery_error_has_cause in A.
  inversion A; subst; try contradiction. eapply N3; eauto.
Qed.

(** A call that returns has stopped sending; every callback that had been started by then has run to
    its end, and none of them failed. *)
Theorem discovery_waits_for_callbacks_partial : forall k started es,
  at_ (after k started es) = Over (Ok tt) ->
  (exists r, task (after k started es) = TEnded r) /\
  forall before e r later, es = before ++ e :: later ->
    sending (after k started before) -> task (after k started (before ++ [e])) = TEnded r ->
    forall i, i < length (callback_tasks (after k started before)) ->
    nth_error (callback_tasks (after k started es)) i = Some (CEnded (Ok tt)).
Proof.
  intros k b es A. split; [exact (returned_ended k b es A)|].
  intros es1 e r es2 -> S T i L.
  rewrite after_snoc in T. destruct (sender_ends_only _ _ _ _ S T) as (x & ->).
  assert (H : held (length (callback_tasks (after k b es1))) (after k b (es1 ++ [ESenderEnds x]))).
  { rewrite after_snoc. destruct (sender_step_at k (after k b es1) x) as (E1 & E2). unfold held. rewrite E1, E2.
    split; [eauto|]. split; [lia|]. split.
    - intros n g G. destruct (i_gather _ _ _ (inv_after k b es1) _ _ G) as (_ & y & Y). destruct (S y Y).
    - intros O. destruct (returned_ended k b es1 O) as (y & Y). destruct (S y Y). }
  apply (held_run _ _ _ _ es2) in H. rewrite <- app_assoc in H. cbn [app] in H.
  destruct H as (_ & _ & _ & H). exact (H A i L).
Qed.
(** ... but a callback that is started while the others are waited for is left running. *)
Theorem discovery_waits_for_callbacks_refuted : exists k es, single k = false /\
  at_ (after k true es) = Over (Ok tt) /\ length (devices (after k true es)) = 2 /\
  nth_error (callback_tasks (after k true es)) 1 = Some CRuns.
Proof.
  exists (mkKind false true false),
    [EReply false (VDevice true); ESenderEnds (Ok tt); EResume; EReply false (VDevice true); ECallbackEnds 0 (Ok tt); EResume].
  now vm_compute.
Qed.

(** A call whose caller is cancelled while it runs does not return as if nothing had happened, as long
    as no host with the address asked for is heard (none ever is, for a broadcast). *)
Theorem discovery_cancelled_partial : forall k started before later r,
  ~ is_over (after k started before) ->
  (forall v, ~ In (EReply true v) (before ++ ECancel :: later)) ->
  at_ (after k started (before ++ ECancel :: later)) = Over r -> exists e, r = Err e.
Proof.
  intros k b es1 es2 r N T A. apply (unheard k b) in T.
  replace (es1 ++ ECancel :: es2) with ((es1 ++ [ECancel]) ++ es2) in * by now rewrite <- app_assoc.
  rewrite after_app in *.
  assert (D : doomed (run k (after k b (es1 ++ [ECancel])) es2)).
  { apply doomed_run; auto. rewrite after_snoc. cbn [step]. apply doomed_cancel. intros x X. apply N. now exists x. }
  unfold doomed in D. rewrite A in D. destruct r as [[]|e]; [congruence|eauto].
Qed.
(** ... but a cancellation at about the time the target answers is lost: the call returns. *)
Theorem discovery_cancelled_refuted : exists k es1 es2, ~ is_over (after k true es1) /\
  at_ (after k true (es1 ++ ECancel :: es2)) = Over (Ok tt).
Proof.
  exists (mkKind true false false), [EReply true (VDevice true)], [ESenderEnds (Ok tt); EResume].
  split; [intros (r & E); discriminate|reflexivity].
Qed.
Example discovery_cancelled_before_the_answer :
  at_ (after (mkKind true false false) true [ECancel; EReply true (VDevice true); ESenderEnds (Ok tt); EResume]) = Over (Ok tt).
Proof. reflexivity. Qed.

(** When discover() ends with an error of the library or cancelled, it has closed all devices it had
    found, each once and in order, if it was left alone while doing so. *)
Theorem discovery_closes_devices_partial : forall k started es e,
  single k = false -> undisturbed k started es ->
  at_ (after k started es) = Over (Err e) -> tidied e ->
  closed (after k started es) = seq 0 (length (devices (after k started es))).
Proof.
  intros k b es e S U A T. pose proof (tidy_after k b es S U) as P. unfold tidy in P. rewrite A in P. auto.
Qed.
(** ... but not when a callback fails otherwise, nor if another device answers meanwhile, in which case
    the error is replaced by another. *)
Theorem discovery_closes_devices_refuted : exists k es es', single k = false /\
  (undisturbed k true es /\ at_ (after k true es) = Over (Err PyValueError) /\
   devices (after k true es) = [true] /\ closed (after k true es) = []) /\
  (undisturbed k true es' /\ In (ECallbackEnds 0 (Err KKasa)) es' /\ at_ (after k true es') = Over (Err PyRuntime) /\
   devices (after k true es') = [true; true; true] /\ closed (after k true es') = [0]).
Proof.
  exists (mkKind false true false),
    [EReply false (VDevice true); ESenderEnds (Ok tt); EResume; ECallbackEnds 0 (Err PyValueError); EResume],
    [EReply false (VDevice true); EReply false (VDevice true); ESenderEnds (Ok tt); EResume; ECallbackEnds 0 (Err KKasa); EResume;
     EReply false (VDevice true); EClosed (Ok tt)].
  assert (U : forall k b es, (forall e, In e es -> e <> ECancel /\ forall x, e <> EClosed (Err x)) -> undisturbed k b es).
  { intros k b es H. split.
    - intros x X. destruct (H _ X) as (_ & N). exact (N x eq_refl).
    - intros es1 es2 ->. destruct (H ECancel); [apply in_or_app; right; now left|congruence]. }
  split; [reflexivity|]. split; (split; [apply U; intros e I; cbn in I; intuition (subst; discriminate)|]).
  - repeat split.
  - split; [cbn; auto 10|]. repeat split.
Qed.
(** ... nor by discover_single. *)
Theorem discovery_single_closes_devices_refuted : exists k es, single k = true /\ undisturbed k true es /\
  at_ (after k true es) = Over (Err Cancelled) /\ devices (after k true es) = [true] /\ closed (after k true es) = [].
Proof.
  exists (mkKind true false false), [EReply false (VDevice true); ECancel; ESenderEnds (Ok tt); EResume].
  split; [reflexivity|]. split; [split|repeat split].
  - intros x X. cbn in X. intuition discriminate.
  - intros es1 es2 E (i & n & x & A). destruct es1 as [|a [|c es1]]; [discriminate| |].
    + injection E as <- <-. discriminate.
    + destruct es1 as [|d es1]; [discriminate|]. injection E as <- <- <- E. destruct es1 as [|f [|g es1]]; discriminate.
Qed.
(** ... and the loss of the socket looks like a cancellation though nobody cancelled. *)
Theorem discovery_lost_refuted : exists k es, ~ In ECancel es /\ at_ (after k true es) = Over (Err Cancelled).
Proof.
  exists (mkKind false false false), [ELost; ESenderEnds (Ok tt); EResume]. split; [|reflexivity]. cbn. intuition discriminate.
Qed.

(** A discovery ends: once the sending and the callbacks have ended it is resumed at most twice and
    then at most closes what it has found. *)
Theorem discovery_ends : forall k es, (exists r, task (after k true es) = TEnded r) ->
  (forall c, In c (callback_tasks (after k true es)) -> c <> CRuns) ->
  (forall i n e, at_ (after k true es) <> AtClose i n e) ->
  is_over (after k true (es ++ EResume :: EResume :: repeat (EClosed (Ok tt)) (length (devices (after k true es))))).
Proof.
  intros k es T C N. rewrite after_app. unfold run. cbn [fold_left step].
  apply settled_ends. eapply two_resumes; eauto using inv_after, after_started.
Qed.

(** The hypotheses can be met: two devices, a callback that fails with an error of the library; both are
    closed. *)
Example discovery_ex :
  let k := mkKind false true false in
  let es := [EReply false (VDevice true); EReply false (VDevice true); ESenderEnds (Ok tt); ECallbackEnds 1 (Err KConn);
             ECallbackEnds 0 (Ok tt); EResume; EResume; EClosed (Ok tt); EClosed (Ok tt)] in
  at_ (after k true es) = Over (Err KConn) /\ closed (after k true es) = [0; 1] /\ cause es KConn.
Proof. repeat split. apply by_callback with 1. cbn. auto 10. Qed.
(** A broadcast that is cancelled: the devices found are closed and the cancellation is passed on. *)
Example discovery_ex_cancelled :
  let k := mkKind false true false in
  let es := [EReply false (VDevice true); ECancel; ESenderEnds (Ok tt); EResume; EClosed (Ok tt)] in
  at_ (after k true es) = Over (Err Cancelled) /\ closed (after k true es) = [0].
Proof. repeat split. Qed.
(** A single host that answers: the sending is called off, and the call returns. *)
Example discovery_ex_single :
  let k := mkKind true false false in
  at_ (after k true [EReply true (VDevice true); ESenderEnds (Ok tt); EResume]) = Over (Ok tt).
Proof. reflexivity. Qed.
Example discovery_ex_ends :
  let k := mkKind false true false in
  let es := [EReply false (VDevice true); ESenderEnds (Ok tt); ECallbackEnds 0 (Err KKasa)] in
  at_ (after k true es) = AtTask /\ (exists r, task (after k true es) = TEnded r) /\
  (forall c, In c (callback_tasks (after k true es)) -> c <> CRuns).
Proof. repeat split; [eexists; reflexivity|]. intros c [<-|[]]. discriminate. Qed.

Print Assumptions discovery_end_final.
Print Assumptions discovery_error_has_cause.
Print Assumptions discovery_not_cancelled_by_itself.
Print Assumptions discovery_waits_for_callbacks_partial.
Print Assumptions discovery_waits_for_callbacks_refuted.
Print Assumptions discovery_cancelled_partial.
Print Assumptions discovery_cancelled_refuted.
Print Assumptions discovery_closes_devices_partial.
Print Assumptions discovery_closes_devices_refuted.
Print Assumptions discovery_single_closes_devices_refuted.
Print Assumptions discovery_lost_refuted.
Print Assumptions discovery_ends.

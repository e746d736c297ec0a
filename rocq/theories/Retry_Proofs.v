From Verif Require Import Base Retry_Model Retry_Spec.
From Coq Require Import Lia.

Section P.
Context {S A : Type}.
Variable exec : S -> S * res A.
Variable treset : S -> S.

Lemma state_at_shift s i :
  state_at exec treset (state_at exec treset s 1) i = state_at exec treset s (Datatypes.S i).
Proof. induction i as [|i IH]; [reflexivity|]. cbn [state_at] in *. now rewrite IH. Qed.

Lemma good_run_step between max k tr r f s e :
  outcome exec treset s 0 = Err e -> worth_retrying e = true ->
  good_run exec treset (state_at exec treset s 1) between max k tr r f ->
  good_run exec treset s between (Datatypes.S max) (Datatypes.S k) (Exec :: between e ++ tr) r f.
Proof.
  intros He Hw (H1 & H2 & H3 & H4 & H5 & H6).
  assert (Hout : forall i, outcome exec treset (state_at exec treset s 1) i =
                           outcome exec treset s (Datatypes.S i)).
  { intros i. unfold outcome. now rewrite state_at_shift. }
  unfold good_run. split; [lia|]. split; [|split; [|split; [|split]]].
  - intros i Hi. destruct i as [|i]; [eauto|].
    destruct (H2 i) as [e' [He' Hw']]; [lia|]. exists e'. now rewrite <- Hout.
  - now rewrite H3, Hout.
  - intros Hk e' He'. apply (H4 ltac:(lia) e'). now rewrite Hout.
  - rewrite H5. cbn [seq flat_map]. unfold error_at at 2. rewrite He. cbn [app].
    f_equal. rewrite <- app_assoc. f_equal. rewrite <- seq_shift.
    rewrite Hout. f_equal.
    rewrite flat_map_concat_map, flat_map_concat_map, map_map. f_equal.
    apply map_ext. intros i. unfold error_at. now rewrite Hout.
  - rewrite H6, Hout. now rewrite state_at_shift.
Qed.

Lemma good_run_stop between max s :
  (0 < max -> forall e, outcome exec treset s 0 = Err e -> worth_retrying e = false) ->
  good_run exec treset s between max 0 (Exec :: finally (outcome exec treset s 0))
    (outcome exec treset s 0) (after treset (outcome exec treset s 0) (fst (exec s))).
Proof.
  intros H. unfold good_run. split; [lia|]. split; [intros i Hi; lia|].
  split; [reflexivity|]. split; [exact H|]. split; reflexivity.
Qed.

Lemma iot_loop_good n : forall retry rc s,
  (rc - retry = Z.of_nat n)%Z ->
  let '(f, tr, r) := iot_loop exec treset (Datatypes.S n) retry rc s in
  exists k, good_run exec treset s between_iot n k tr r f.
Proof.
  induction n as [|n IH]; intros retry rc s Hn.
  - cbn [iot_loop]. destruct (exec s) as [s1 r] eqn:E.
    assert (Ho : outcome exec treset s 0 = r) by (unfold outcome; cbn; now rewrite E).
    assert (Hf : fst (exec s) = s1) by (now rewrite E).
    assert (Hge : (retry >=? rc)%Z = true) by (rewrite Z.geb_leb; apply Z.leb_le; lia).
    pose proof (good_run_stop between_iot 0 s ltac:(lia)) as HG. rewrite Ho, Hf in HG.
    destruct r as [a|e]; [exists 0; exact HG|].
    destruct e; rewrite ?Hge; exists 0; exact HG.
  - remember (Datatypes.S n) as m eqn:Em.
    cbn [iot_loop]. destruct (exec s) as [s1 r] eqn:E.
    assert (Ho : outcome exec treset s 0 = r) by (unfold outcome; cbn; now rewrite E).
    assert (Hf : fst (exec s) = s1) by (now rewrite E).
    assert (Hge : (retry >=? rc)%Z = false) by (rewrite Z.geb_leb; apply Z.leb_gt; lia).
    assert (Hs1 : state_at exec treset s 1 = after treset r s1) by (cbn; now rewrite E).
    assert (Hstop : (forall e, r = Err e -> worth_retrying e = false) ->
              exists k, good_run exec treset s between_iot m k
                (Exec :: finally r) r (after treset r s1)).
    { intros H. exists 0. pose proof (good_run_stop between_iot m s) as HG.
      rewrite Ho, Hf in HG. apply HG. intros _; exact H. }
    assert (Hgo : forall e, r = Err e -> worth_retrying e = true ->
              let '(f, tr, r2) := iot_loop exec treset m (retry + 1) rc (after treset r s1) in
              exists k, good_run exec treset s between_iot m k (Exec :: between_iot e ++ tr) r2 f).
    { intros e -> Hw. subst m. specialize (IH (retry + 1)%Z rc (after treset (@Err A e) s1) ltac:(lia)).
      destruct (iot_loop exec treset (Datatypes.S n) (retry + 1) rc (after treset (@Err A e) s1)) as [[f tr] r2].
      destruct IH as [k Hk]. exists (Datatypes.S k). apply good_run_step; [exact Ho|exact Hw|].
      rewrite Hs1. exact Hk. }
    destruct r as [a|e].
    + apply Hstop. discriminate.
    + destruct e; rewrite ?Hge;
        try (apply Hstop; intros e' He'; injection He' as <-; reflexivity).
      * specialize (Hgo KTimeout eq_refl eq_refl). cbn [after is_kasa] in Hgo.
        destruct (iot_loop exec treset m (retry + 1) rc (treset s1)) as [[f tr] r2]. exact Hgo.
      * specialize (Hgo KConn eq_refl eq_refl). cbn [after is_kasa] in Hgo.
        destruct (iot_loop exec treset m (retry + 1) rc s1) as [[f tr] r2]. exact Hgo.
      * specialize (Hgo (KRetry code) eq_refl eq_refl). cbn [after is_kasa] in Hgo.
        destruct (iot_loop exec treset m (retry + 1) rc (treset s1)) as [[f tr] r2]. exact Hgo.
Qed.

Lemma smart_loop_good n : forall retry rc s,
  (rc - retry = Z.of_nat n)%Z ->
  let '(f, tr, r) := smart_loop exec treset (Datatypes.S n) retry rc s in
  exists k, good_run exec treset s between_smart n k tr r f.
Proof.
  induction n as [|n IH]; intros retry rc s Hn.
  - cbn [smart_loop]. destruct (exec s) as [s1 r] eqn:E.
    assert (Ho : outcome exec treset s 0 = r) by (unfold outcome; cbn; now rewrite E).
    assert (Hf : fst (exec s) = s1) by (now rewrite E).
    assert (Hge : (retry >=? rc)%Z = true) by (rewrite Z.geb_leb; apply Z.leb_le; lia).
    pose proof (good_run_stop between_smart 0 s ltac:(lia)) as HG. rewrite Ho, Hf in HG.
    destruct r as [a|e]; [exists 0; exact HG|].
    destruct e; rewrite ?Hge; exists 0; exact HG.
  - remember (Datatypes.S n) as m eqn:Em.
    cbn [smart_loop]. destruct (exec s) as [s1 r] eqn:E.
    assert (Ho : outcome exec treset s 0 = r) by (unfold outcome; cbn; now rewrite E).
    assert (Hf : fst (exec s) = s1) by (now rewrite E).
    assert (Hge : (retry >=? rc)%Z = false) by (rewrite Z.geb_leb; apply Z.leb_gt; lia).
    assert (Hs1 : state_at exec treset s 1 = after treset r s1) by (cbn; now rewrite E).
    assert (Hstop : (forall e, r = Err e -> worth_retrying e = false) ->
              exists k, good_run exec treset s between_smart m k
                (Exec :: finally r) r (after treset r s1)).
    { intros H. exists 0. pose proof (good_run_stop between_smart m s) as HG.
      rewrite Ho, Hf in HG. apply HG. intros _; exact H. }
    assert (Hgo : forall e, r = Err e -> worth_retrying e = true ->
              let '(f, tr, r2) := smart_loop exec treset m (retry + 1) rc (after treset r s1) in
              exists k, good_run exec treset s between_smart m k (Exec :: between_smart e ++ tr) r2 f).
    { intros e -> Hw. subst m. specialize (IH (retry + 1)%Z rc (after treset (@Err A e) s1) ltac:(lia)).
      destruct (smart_loop exec treset (Datatypes.S n) (retry + 1) rc (after treset (@Err A e) s1)) as [[f tr] r2].
      destruct IH as [k Hk]. exists (Datatypes.S k). apply good_run_step; [exact Ho|exact Hw|].
      rewrite Hs1. exact Hk. }
    destruct r as [a|e].
    + apply Hstop. discriminate.
    + destruct e; rewrite ?Hge;
        try (apply Hstop; intros e' He'; injection He' as <-; reflexivity).
      * specialize (Hgo KTimeout eq_refl eq_refl). cbn [after is_kasa] in Hgo.
        destruct (smart_loop exec treset m (retry + 1) rc (treset s1)) as [[f tr] r2]. exact Hgo.
      * specialize (Hgo KConn eq_refl eq_refl). cbn [after is_kasa] in Hgo.
        destruct (smart_loop exec treset m (retry + 1) rc s1) as [[f tr] r2]. exact Hgo.
      * specialize (Hgo (KRetry code) eq_refl eq_refl). cbn [after is_kasa] in Hgo.
        destruct (smart_loop exec treset m (retry + 1) rc (treset s1)) as [[f tr] r2]. exact Hgo.
Qed.

Lemma iot_query_lemma rc s : (0 <= rc)%Z ->
  exists k, let '(f, tr, r) := iot_query exec treset rc s in
    good_run exec treset s between_iot (Z.to_nat rc) k tr r f.
Proof.
  intros H. unfold iot_query.
  replace (Z.to_nat (rc + 1)) with (Datatypes.S (Z.to_nat rc)) by lia.
  pose proof (iot_loop_good (Z.to_nat rc) 0 rc s ltac:(lia)) as HG.
  destruct (iot_loop exec treset (Datatypes.S (Z.to_nat rc)) 0 rc s) as [[f tr] r].
  exact HG.
Qed.

Lemma smart_query_lemma rc s : (0 <= rc)%Z ->
  exists k, let '(f, tr, r) := smart_query exec treset rc s in
    good_run exec treset s between_smart (Z.to_nat rc) k tr r f.
Proof.
  intros H. unfold smart_query.
  replace (Z.to_nat (rc + 1)) with (Datatypes.S (Z.to_nat rc)) by lia.
  pose proof (smart_loop_good (Z.to_nat rc) 0 rc s ltac:(lia)) as HG.
  destruct (smart_loop exec treset (Datatypes.S (Z.to_nat rc)) 0 rc s) as [[f tr] r].
  exact HG.
Qed.

(** Consequences in plain words. *)
Definition execs (tr : list act) : nat :=
  length (filter (fun a => match a with Exec => true | _ => false end) tr).

Lemma execs_app a b : execs (a ++ b) = execs a + execs b.
Proof. unfold execs. now rewrite filter_app, app_length. Qed.

Lemma good_run_execs between max k tr r f s :
  (forall e, execs (between e) = 0) ->
  good_run exec treset s between max k tr r f -> execs tr = k + 1.
Proof.
  intros Hb (_ & _ & _ & _ & -> & _). rewrite execs_app.
  assert (H1 : execs (Exec :: finally (outcome exec treset s k)) = 1).
  { unfold execs; cbn. destruct (outcome exec treset s k) as [|[]]; reflexivity. }
  rewrite H1. clear H1. f_equal.
  assert (G : forall m, execs (flat_map (fun i => Exec :: between (error_at exec treset s i)) (seq m k)) = k).
  { induction k as [|k IH]; intros m; [reflexivity|]. cbn [seq flat_map].
    rewrite execs_app, IH. change (Exec :: ?x) with ([Exec] ++ x).
    rewrite execs_app, Hb. reflexivity. }
  apply G.
Qed.

Lemma iot_negative_lemma rc s : (rc < 0)%Z -> iot_query exec treset rc s = (s, [], Err KKasa).
Proof. intros H. unfold iot_query. replace (Z.to_nat (rc + 1)) with 0 by lia. reflexivity. Qed.
Lemma smart_negative_lemma rc s : (rc < 0)%Z -> smart_query exec treset rc s = (s, [], Err KKasa).
Proof. intros H. unfold smart_query. replace (Z.to_nat (rc + 1)) with 0 by lia. reflexivity. Qed.

Lemma iot_bound_lemma rc s : (0 <= rc)%Z ->
  let '(_, tr, _) := iot_query exec treset rc s in
  1 <= execs tr /\ (Z.of_nat (execs tr) <= rc + 1)%Z.
Proof.
  intros H. destruct (iot_query_lemma rc s H) as [k Hk].
  destruct (iot_query exec treset rc s) as [[f tr] r].
  assert (Hb : forall e, execs (between_iot e) = 0) by (intros []; reflexivity).
  pose proof (good_run_execs _ _ _ _ _ _ _ Hb Hk) as ->. destruct Hk as [Hk _]. lia.
Qed.

Lemma smart_bound_lemma rc s : (0 <= rc)%Z ->
  let '(_, tr, _) := smart_query exec treset rc s in
  1 <= execs tr /\ (Z.of_nat (execs tr) <= rc + 1)%Z.
Proof.
  intros H. destruct (smart_query_lemma rc s H) as [k Hk].
  destruct (smart_query exec treset rc s) as [[f tr] r].
  assert (Hb : forall e, execs (between_smart e) = 0) by (intros []; reflexivity).
  pose proof (good_run_execs _ _ _ _ _ _ _ Hb Hk) as ->. destruct Hk as [Hk _]. lia.
Qed.
End P.

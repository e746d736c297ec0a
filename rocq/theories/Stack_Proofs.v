(** Proofs about whole queries.  No statement of record lives here. *)
From Verif Require Import Base Base_Lemmas Py Crypto_Model Retry_Model Codes_Model Smart_Model CamQuery_Model Stack_Spec.

(** ** Two runs of the same program *)
Section Sim.
Variables X1 X2 : Type.
Variable inv : X1 -> Prop.
Variable ok : X1 -> Prop.
Variable rel : X1 -> X2 -> Prop.
Variable full : bool.
Definition sim {A} (m1 : M X1 A) (m2 : M X2 A) : Prop := forall x1 y1 r1, m1 x1 = (y1, r1) -> inv x1 ->
  inv y1 /\ (ok y1 -> ok x1 /\ forall x2, rel x1 x2 -> full = true \/ (exists a, r1 = Ok a) ->
    exists y2, m2 x2 = (y2, r1) /\ rel y1 y2).

Lemma sim_lift A (r : res A) : sim (mlift r) (mlift r).
Proof. intros x1 y1 r1 H Hi. injection H as <- <-. split; [exact Hi|]. intros Ho. split; [exact Ho|]. intros x2 Hr _. exists x2. split; [reflexivity|exact Hr]. Qed.
Lemma sim_ret A (a : A) : sim (mret a) (mret a).
Proof. exact (sim_lift A (Ok a)). Qed.
Lemma sim_fail A (e : exn) : sim (@mfail _ A e) (mfail e).
Proof. exact (sim_lift A (Err e)). Qed.
Lemma sim_bind A B (m1 : M X1 A) m2 (f1 : A -> M X1 B) f2 :
  sim m1 m2 -> (forall a, sim (f1 a) (f2 a)) -> sim (mbind m1 f1) (mbind m2 f2).
Proof.
  intros Hm Hf x1 y1 r1 H Hi. unfold mbind in *. destruct (m1 x1) as [z1 [a|e]] eqn:E.
  - destruct (Hm _ _ _ E Hi) as (Hi1 & K1). destruct (Hf a _ _ _ H Hi1) as (Hi2 & K2).
    split; [exact Hi2|]. intros Ho. destruct (K2 Ho) as (Ho1 & K3). destruct (K1 Ho1) as (Ho2 & K4).
    split; [exact Ho2|]. intros x2 Hr Hg. destruct (K4 x2 Hr) as (z2 & -> & Hr1); [eauto|]. exact (K3 z2 Hr1 Hg).
  - injection H as <- <-. destruct (Hm _ _ _ E Hi) as (Hi1 & K1). split; [exact Hi1|]. intros Ho.
    destruct (K1 Ho) as (Ho1 & K2). split; [exact Ho1|]. intros x2 Hr [Hg|(b & Hg)]; [|discriminate].
    destruct (K2 x2 Hr) as (z2 & -> & Hr1); [now left|]. eauto.
Qed.
End Sim.

(** ** The protocols *)
Section Proto.
Variables D1 D2 : Type.
Variable inv : D1 -> Prop.
Variable ok : D1 -> Prop.
Variable rel : D1 -> D2 -> Prop.
Variable full : bool.
Definition invW (w : world D1) := inv (wdev w).
Definition okW (w : world D1) := ok (wdev w).
Definition relW (w1 : world D1) (w2 : world D2) := rel (wdev w1) (wdev w2) /\ wbatch w1 = wbatch w2 /\ wlog w1 = wlog w2.
Notation simW := (sim (world D1) (world D2) invW okW relW full).

Lemma sim_get : simW get_batch get_batch.
Proof.
  intros w1 y1 r1 H Hi. injection H as <- <-. split; [exact Hi|]. intros Ho. split; [exact Ho|].
  intros w2 Hr _. exists w2. split; [|exact Hr]. unfold get_batch. destruct Hr as (_ & -> & _). reflexivity.
Qed.
Lemma sim_set b : simW (set_batch b) (set_batch b).
Proof.
  intros w1 y1 r1 H Hi. injection H as <- <-. split; [exact Hi|]. intros Ho. split; [exact Ho|].
  intros w2 (R1 & R2 & R3) _. eexists. split; [reflexivity|]. split; [exact R1|]. split; [reflexivity|exact R3].
Qed.

Section Send.
Variable send1 : D1 -> request -> D1 * res (dict json).
Variable send2 : D2 -> request -> D2 * res (dict json).
Hypothesis send_sim : forall q, sim D1 D2 inv ok rel full (fun d => send1 d q) (fun d => send2 d q).

Lemma sim_send q : simW (Smart_Model.send send1 q) (Smart_Model.send send2 q).
Proof.
  intros w1 y1 r1 H Hi. unfold Smart_Model.send in *. destruct (send1 (wdev w1) q) as [d a] eqn:E. injection H as <- <-.
  destruct (send_sim q _ _ _ E Hi) as (Hi1 & K). split; [exact Hi1|]. intros Ho. destruct (K Ho) as (Ho1 & K1).
  split; [exact Ho1|]. intros w2 (R1 & R2 & R3) Hg. destruct (K1 _ R1 Hg) as (y2 & E2 & R4). rewrite E2.
  eexists. split; [reflexivity|]. split; [exact R4|]. cbn [wbatch wlog]. now rewrite R2, R3.
Qed.
Ltac sim1 := first [apply sim_send | apply sim_lift | apply sim_ret | apply sim_fail | apply sim_get | apply sim_set].
Ltac simb := apply sim_bind; [sim1|intros].

Lemma sim_single method params : simW (single_query send1 method params) (single_query send2 method params).
Proof. unfold single_query. simb. simb. sim1. Qed.

Section Pages.
Variable next1 : string -> json -> Z -> M (world D1) json.
Variable next2 : string -> json -> Z -> M (world D2) json.
Hypothesis next_sim : forall m p z, simW (next1 m p z) (next2 m p z).
Lemma sim_pages fuel : forall m p name sum l,
  simW (page_loop next1 fuel m p name sum l) (page_loop next2 fuel m p name sum l).
Proof.
  induction fuel as [|fuel IH]; intros m p name sum l; cbn [page_loop]; destruct (Z.of_nat (length l) <? sum)%Z; try sim1.
  apply sim_bind; [apply next_sim|]. intros nb. simb. destruct (negb (truthy a)); [sim1|]. simb. apply IH.
Qed.
Lemma sim_lists m p j : simW (handle_response_lists next1 m p j) (handle_response_lists next2 m p j).
Proof.
  unfold handle_response_lists. simb. destruct (negb a); [sim1|]. destruct j; try sim1.
  match goal with |- context [JObj ?d] => set (kv := d) end.
  destruct (dget "sum" kv) as [sum|]; [|sim1].
  assert (G : simW
    match first_list_key kv with
    | None => mfail PyRuntime
    | Some name => match dget name kv, as_int sum with
        | Some (JArr l), Some n =>
            do! l' <- page_loop next1 (Z.to_nat (n - Z.of_nat (length l))) m p name n l ;;
            mret (JObj (dset name (JArr l') kv))
        | _, _ => mfail PyTypeError end end
    match first_list_key kv with
    | None => mfail PyRuntime
    | Some name => match dget name kv, as_int sum with
        | Some (JArr l), Some n =>
            do! l' <- page_loop next2 (Z.to_nat (n - Z.of_nat (length l))) m p name n l ;;
            mret (JObj (dset name (JArr l') kv))
        | _, _ => mfail PyTypeError end end).
  { destruct (first_list_key kv) as [name|]; [|sim1]. destruct (dget name kv) as [[| | | | |l|]|]; try sim1.
    destruct (as_int sum); [|sim1]. apply sim_bind; [apply sim_pages|intros; sim1]. }
  destruct sum; try exact G. sim1.
Qed.
End Pages.

Section Multi.
Variable h1 : string -> json -> json -> M (world D1) json.
Variable h2 : string -> json -> json -> M (world D2) json.
Hypothesis h_sim : forall m p j, simW (h1 m p j) (h2 m p j).
Lemma sim_unbatched b reqs : forall acc, simW (unbatched send1 b reqs acc) (unbatched send2 b reqs acc).
Proof.
  induction reqs as [|[m p] reqs IH]; intros acc; cbn [unbatched]; [sim1|]. simb. simb. simb. apply IH.
Qed.
Lemma sim_store rq b r acc : simW (store_response h1 rq b r acc) (store_response h2 rq b r acc).
Proof.
  unfold store_response. destruct r as [| | | | | |kv]; try sim1. cbv zeta. destruct (negb (truthy _)); [sim1|].
  destruct (match dget "method" kv with Some v => v | None => JNull end); try sim1.
  simb. destruct a; [sim1|]. apply sim_bind; [|intros; sim1]. destruct (truthy _); [apply h_sim|sim1].
Qed.
Lemma sim_stores rq b rs : forall acc, simW (store_responses h1 rq b rs acc) (store_responses h2 rq b rs acc).
Proof. induction rs as [|r rs IH]; intros acc; cbn [store_responses]; [sim1|]. apply sim_bind; [apply sim_store|intros; apply IH]. Qed.
Lemma sim_check r : simW (check_batch r) (check_batch r).
Proof.
  unfold check_batch. destruct (handle_response_error_code r true) as [c|e]; [sim1|]. destruct (is_device_error e); [|sim1].
  simb. destruct e; try sim1; match goal with |- context [match ?c with Some _ => _ | None => _ end] => destruct c end; try sim1;
    match goal with |- context [if ?b then _ else _] => destruct b end; try sim1; simb; sim1.
Qed.
Lemma sim_batches rq b bs : forall acc, simW (send_batches send1 h1 rq b bs acc) (send_batches send2 h2 rq b bs acc).
Proof.
  induction bs as [|x bs IH]; intros acc; cbn [send_batches]; [sim1|]. simb. apply sim_bind; [apply sim_check|intros].
  simb. simb. simb. apply sim_bind; [apply sim_stores|intros; apply IH].
Qed.
Lemma sim_missing b rq : forall acc, simW (query_missing send1 b rq acc) (query_missing send2 b rq acc).
Proof.
  induction rq as [|[m p] rq IH]; intros acc; cbn [query_missing]; [sim1|]. destruct (dmem m acc); [apply IH|].
  simb. simb. apply IH.
Qed.
Lemma sim_multi rq : simW (execute_multiple_query send1 h1 rq) (execute_multiple_query send2 h2 rq).
Proof.
  unfold execute_multiple_query. simb. destruct (a =? 1)%Z; [apply sim_unbatched|].
  apply sim_bind; [apply sim_batches|intros; apply sim_missing].
Qed.
End Multi.

Lemma sim_smart rq : simW (smart_execute_query send1 rq) (smart_execute_query send2 rq).
Proof.
  assert (Hn : forall m p z, simW (smart_next_page send1 m p z) (smart_next_page send2 m p z)) by (intros; apply sim_single).
  unfold smart_execute_query. destruct rq as [|[m p] [|x rq]]; try (apply sim_multi; intros; now apply sim_lists).
  apply sim_bind; [apply sim_single|intros]. apply sim_bind; [|intros; sim1].
  destruct (truthy a); [now apply sim_lists|sim1].
Qed.

Section Cam.
Variable plain1 : D1 -> dict json -> D1 * res (dict json).
Variable plain2 : D2 -> dict json -> D2 * res (dict json).
Hypothesis plain_sim : forall q, sim D1 D2 inv ok rel full (fun d => plain1 d q) (fun d => plain2 d q).
Lemma sim_run s : simW (run_single plain1 s) (run_single plain2 s).
Proof.
  unfold run_single. apply sim_bind; [|intros; sim1].
  intros w1 y1 r1 H Hi. destruct (plain1 (wdev w1) (s_request s)) as [d a] eqn:E. injection H as <- <-.
  destruct (plain_sim _ _ _ _ E Hi) as (Hi1 & K). split; [exact Hi1|]. intros Ho. destruct (K Ho) as (Ho1 & K1).
  split; [exact Ho1|]. intros w2 (R1 & R2 & R3) Hg. destruct (K1 _ R1 Hg) as (y2 & E2 & R4). rewrite E2.
  eexists. split; [reflexivity|]. split; [exact R4|]. cbn [wbatch wlog]. now rewrite R2, R3.
Qed.
Lemma sim_cam_execute h1 h2 r : (forall m p j, simW (h1 m p j) (h2 m p j)) ->
  simW (cam_execute send1 plain1 h1 r) (cam_execute send2 plain2 h2 r).
Proof.
  intros Hh. unfold cam_execute. destruct r as [m|[|[m v] rest]]; [apply sim_run|sim1|].
  destruct (Nat.eqb (length rest) 0 && smem m plain_methods); [|now apply sim_multi].
  simb. apply sim_run.
Qed.
Lemma sim_cam r : simW (cam_execute_query send1 plain1 r) (cam_execute_query send2 plain2 r).
Proof.
  apply sim_cam_execute. apply sim_lists. intros m p z. unfold cam_next_page. destruct p; try sim1.
  match goal with |- context [match ?d with [] => _ | _ => _ end] => destruct d as [|[k v] kvs] end; [sim1|]. apply sim_bind; [apply sim_cam_execute; intros; sim1|intros].
  simb. destruct a0; sim1.
Qed.
End Cam.
End Send.

End Proto.
(** ** Retries *)
Section Loop.
Variables X1 X2 : Type.
Variable inv : X1 -> Prop.
Variable ok : X1 -> Prop.
Variable rel : X1 -> X2 -> Prop.
Variable full : bool.
Context {A : Type}.
Variable exec1 : M X1 A.
Variable exec2 : M X2 A.
Variable reset1 : X1 -> X1.
Variable reset2 : X2 -> X2.
Hypothesis exec_sim : sim X1 X2 inv ok rel full exec1 exec2.
Hypothesis reset_inv : forall d, inv d -> inv (reset1 d).
Hypothesis reset_ok : forall d, inv d -> ok (reset1 d) -> ok d.
Hypothesis reset_rel : forall d e, rel d e -> ok (reset1 d) -> rel (reset1 d) (reset2 e).

Lemma loop_inv n : forall i rc w w' tr r,
  smart_loop exec1 reset1 n i rc w = (w', tr, r) -> inv w -> inv w' /\ (ok w' -> ok w).
Proof.
  induction n as [|n IH]; intros i rc w w' tr r H Hi; cbn [smart_loop] in H.
  - injection H as <- <- <-. auto.
  - destruct (exec1 w) as [w1 r1] eqn:E. destruct (exec_sim _ _ _ E Hi) as (Hi1 & K).
    assert (Hi2 : inv (reset1 w1)) by (apply reset_inv, Hi1).
    assert (K2 : ok (reset1 w1) -> ok w) by (intros Ho; apply K; exact (reset_ok _ Hi1 Ho)).
    assert (K1 : ok w1 -> ok w) by (intros Ho; now apply K).
    destruct r1 as [a|e]; [now injection H as <- <- <-|].
    destruct e; cbn [is_kasa] in H;
      repeat match type of H with
      | (if ?b then _ else _) = _ => destruct b
      | (let '(_, _) := smart_loop ?a ?b ?c ?d ?f ?g in _) = _ =>
          let L := fresh "L" in destruct (smart_loop a b c d f g) as [[x tx] rx] eqn:L; apply IH in L; [destruct L as (L1 & L2)|assumption]
      end; injection H as <- <- <-; auto.
Qed.

Lemma loop_full n : full = true -> forall i rc w w' tr r,
  smart_loop exec1 reset1 n i rc w = (w', tr, r) -> inv w -> ok w' ->
  forall v, rel w v -> exists v', smart_loop exec2 reset2 n i rc v = (v', tr, r) /\ rel w' v'.
Proof.
  intros Hf. induction n as [|n IH]; intros i rc w w' tr r H Hi Ho v Hr.
  - cbn [smart_loop] in *. injection H as <- <- <-. eauto.
  - pose proof (loop_inv (Datatypes.S n) _ _ _ _ _ _ H Hi) as Hback.
    cbn [smart_loop] in *. destruct (exec1 w) as [w1 r1] eqn:E. destruct (exec_sim _ _ _ E Hi) as (Hi1 & K).
    assert (Hi2 : inv (reset1 w1)) by (apply reset_inv, Hi1).
    assert (Step : ok w1 -> exists v1, exec2 v = (v1, r1) /\ rel w1 v1).
    { intros Hx. destruct (K Hx) as (_ & K1). apply K1; auto. }
    assert (Rs : forall v1, rel w1 v1 -> ok (reset1 w1) -> rel (reset1 w1) (reset2 v1)).
    { intros v1 R1 Hx. now apply reset_rel. }
    assert (Bk : ok (reset1 w1) -> ok w1) by (intros Hx; exact (reset_ok _ Hi1 Hx)).
    destruct r1 as [a|e].
    { injection H as <- <- <-. destruct (Step Ho) as (v1 & -> & R). eauto. }
    destruct e; cbn [is_kasa] in H |- *;
      repeat match type of H with
      | (if ?b then _ else _) = _ => destruct b eqn:?
      | (let '(_, _) := smart_loop ?a ?b ?c ?d ?f w1 in _) = _ =>
          let L := fresh "L" in destruct (smart_loop a b c d f w1) as [[x tx] rx] eqn:L;
          pose proof (loop_inv _ _ _ _ _ _ _ L Hi1) as LB; injection H as <- <- <-;
          destruct (Step (proj2 LB Ho)) as (v1 & -> & R);
          destruct (IH _ _ _ _ _ _ L Hi1 Ho v1 R) as (v2 & Ev & R2);
          exists v2; split; [|exact R2]; cbv beta iota; try rewrite Heqb; rewrite Ev; reflexivity
      | (let '(_, _) := smart_loop ?a ?b ?c ?d ?f (reset1 w1) in _) = _ =>
          let L := fresh "L" in destruct (smart_loop a b c d f (reset1 w1)) as [[x tx] rx] eqn:L;
          pose proof (loop_inv _ _ _ _ _ _ _ L Hi2) as LB; injection H as <- <- <-;
          destruct (Step (Bk (proj2 LB Ho))) as (v1 & -> & R);
          destruct (IH _ _ _ _ _ _ L Hi2 Ho _ (Rs v1 R (proj2 LB Ho))) as (v2 & Ev & R2);
          exists v2; split; [|exact R2]; cbv beta iota; try rewrite Heqb; rewrite Ev; reflexivity
      end;
      try (injection H as <- <- <-;
        first [destruct (Step Ho) as (v1 & -> & R); exists v1; split; [cbv beta iota; cbn [is_kasa]; try rewrite Heqb; reflexivity|exact R]
              |destruct (Step (Bk Ho)) as (v1 & -> & R); exists (reset2 v1); split; [cbv beta iota; cbn [is_kasa]; try rewrite Heqb; reflexivity|now apply Rs]]).
Qed.

(** The attempt that succeeds *)
Lemma loop_last n : (forall d, inv d -> ok d -> exists e, rel d e) -> forall i rc w w' tr a,
  smart_loop exec1 reset1 n i rc w = (w', tr, Ok a) -> inv w -> ok w' ->
  exists w1 v v', inv w1 /\ ok w1 /\ rel w1 v /\ exec2 v = (v', Ok a) /\ rel w' v'.
Proof.
  intros Ht. induction n as [|n IH]; intros i rc w w' tr a H Hi Ho; cbn [smart_loop] in H; [discriminate|].
  destruct (exec1 w) as [w1 r1] eqn:E. destruct (exec_sim _ _ _ E Hi) as (Hi1 & K).
  assert (Hi2 : inv (reset1 w1)) by (apply reset_inv, Hi1).
  destruct r1 as [b|e].
  { injection H as <- <- <-. destruct (K Ho) as (Ho1 & K1). destruct (Ht _ Hi Ho1) as (e & He).
    destruct (K1 _ He) as (v' & Ev & R'); [eauto|]. exists w, e, v'.
    split; [exact Hi|]. split; [exact Ho1|]. split; [exact He|]. split; [exact Ev|exact R']. }
  destruct e; cbn [is_kasa] in H;
      repeat match type of H with
      | (if ?b then _ else _) = _ => destruct b; [discriminate|]
      | (let '(_, _) := smart_loop ?a ?b ?c ?d ?f ?g in _) = _ =>
          let L := fresh "L" in destruct (smart_loop a b c d f g) as [[x tx] rx] eqn:L; injection H as <- <- ->
      end; try discriminate; eapply IH; eauto.
Qed.

Lemma iloop_inv n : forall i rc w w' tr r,
  iot_loop exec1 reset1 n i rc w = (w', tr, r) -> inv w -> inv w' /\ (ok w' -> ok w).
Proof.
  induction n as [|n IH]; intros i rc w w' tr r H Hi; cbn [iot_loop] in H.
  - injection H as <- <- <-. auto.
  - destruct (exec1 w) as [w1 r1] eqn:E. destruct (exec_sim _ _ _ E Hi) as (Hi1 & K).
    assert (Hi2 : inv (reset1 w1)) by (apply reset_inv, Hi1).
    assert (K2 : ok (reset1 w1) -> ok w) by (intros Ho; apply K; exact (reset_ok _ Hi1 Ho)).
    assert (K1 : ok w1 -> ok w) by (intros Ho; now apply K).
    destruct r1 as [a|e]; [now injection H as <- <- <-|].
    destruct e; cbn [is_kasa] in H;
      repeat match type of H with
      | (if ?b then _ else _) = _ => destruct b
      | (let '(_, _) := iot_loop ?a ?b ?c ?d ?f ?g in _) = _ =>
          let L := fresh "L" in destruct (iot_loop a b c d f g) as [[x tx] rx] eqn:L; apply IH in L; [destruct L as (L1 & L2)|assumption]
      end; injection H as <- <- <-; auto.
Qed.

Lemma iloop_full n : full = true -> forall i rc w w' tr r,
  iot_loop exec1 reset1 n i rc w = (w', tr, r) -> inv w -> ok w' ->
  forall v, rel w v -> exists v', iot_loop exec2 reset2 n i rc v = (v', tr, r) /\ rel w' v'.
Proof.
  intros Hf. induction n as [|n IH]; intros i rc w w' tr r H Hi Ho v Hr.
  - cbn [iot_loop] in *. injection H as <- <- <-. eauto.
  - pose proof (iloop_inv (Datatypes.S n) _ _ _ _ _ _ H Hi) as Hback.
    cbn [iot_loop] in *. destruct (exec1 w) as [w1 r1] eqn:E. destruct (exec_sim _ _ _ E Hi) as (Hi1 & K).
    assert (Hi2 : inv (reset1 w1)) by (apply reset_inv, Hi1).
    assert (Step : ok w1 -> exists v1, exec2 v = (v1, r1) /\ rel w1 v1).
    { intros Hx. destruct (K Hx) as (_ & K1). apply K1; auto. }
    assert (Rs : forall v1, rel w1 v1 -> ok (reset1 w1) -> rel (reset1 w1) (reset2 v1)).
    { intros v1 R1 Hx. now apply reset_rel. }
    assert (Bk : ok (reset1 w1) -> ok w1) by (intros Hx; exact (reset_ok _ Hi1 Hx)).
    destruct r1 as [a|e].
    { injection H as <- <- <-. destruct (Step Ho) as (v1 & -> & R). eauto. }
    destruct e; cbn [is_kasa] in H |- *;
      repeat match type of H with
      | (if ?b then _ else _) = _ => destruct b eqn:?
      | (let '(_, _) := iot_loop ?a ?b ?c ?d ?f w1 in _) = _ =>
          let L := fresh "L" in destruct (iot_loop a b c d f w1) as [[x tx] rx] eqn:L;
          pose proof (iloop_inv _ _ _ _ _ _ _ L Hi1) as LB; injection H as <- <- <-;
          destruct (Step (proj2 LB Ho)) as (v1 & -> & R);
          destruct (IH _ _ _ _ _ _ L Hi1 Ho v1 R) as (v2 & Ev & R2);
          exists v2; split; [|exact R2]; cbv beta iota; try rewrite Heqb; rewrite Ev; reflexivity
      | (let '(_, _) := iot_loop ?a ?b ?c ?d ?f (reset1 w1) in _) = _ =>
          let L := fresh "L" in destruct (iot_loop a b c d f (reset1 w1)) as [[x tx] rx] eqn:L;
          pose proof (iloop_inv _ _ _ _ _ _ _ L Hi2) as LB; injection H as <- <- <-;
          destruct (Step (Bk (proj2 LB Ho))) as (v1 & -> & R);
          destruct (IH _ _ _ _ _ _ L Hi2 Ho _ (Rs v1 R (proj2 LB Ho))) as (v2 & Ev & R2);
          exists v2; split; [|exact R2]; cbv beta iota; try rewrite Heqb; rewrite Ev; reflexivity
      end;
      try (injection H as <- <- <-;
        first [destruct (Step Ho) as (v1 & -> & R); exists v1; split; [cbv beta iota; cbn [is_kasa]; try rewrite Heqb; reflexivity|exact R]
              |destruct (Step (Bk Ho)) as (v1 & -> & R); exists (reset2 v1); split; [cbv beta iota; cbn [is_kasa]; try rewrite Heqb; reflexivity|now apply Rs]]).
Qed.

(** The attempt that succeeds *)
Lemma iloop_last n : (forall d, inv d -> ok d -> exists e, rel d e) -> forall i rc w w' tr a,
  iot_loop exec1 reset1 n i rc w = (w', tr, Ok a) -> inv w -> ok w' ->
  exists w1 v v', inv w1 /\ ok w1 /\ rel w1 v /\ exec2 v = (v', Ok a) /\ rel w' v'.
Proof.
  intros Ht. induction n as [|n IH]; intros i rc w w' tr a H Hi Ho; cbn [iot_loop] in H; [discriminate|].
  destruct (exec1 w) as [w1 r1] eqn:E. destruct (exec_sim _ _ _ E Hi) as (Hi1 & K).
  assert (Hi2 : inv (reset1 w1)) by (apply reset_inv, Hi1).
  destruct r1 as [b|e].
  { injection H as <- <- <-. destruct (K Ho) as (Ho1 & K1). destruct (Ht _ Hi Ho1) as (e & He).
    destruct (K1 _ He) as (v' & Ev & R'); [eauto|]. exists w, e, v'.
    split; [exact Hi|]. split; [exact Ho1|]. split; [exact He|]. split; [exact Ev|exact R']. }
  destruct e; cbn [is_kasa] in H;
      repeat match type of H with
      | (if ?b then _ else _) = _ => destruct b; [discriminate|]
      | (let '(_, _) := iot_loop ?a ?b ?c ?d ?f ?g in _) = _ =>
          let L := fresh "L" in destruct (iot_loop a b c d f g) as [[x tx] rx] eqn:L; injection H as <- <- ->
      end; try discriminate; eapply IH; eauto.
Qed.
End Loop.


(** ** Over a transport *)
Section Runs.
Variables T C S Dv : Type.
Variable send : C -> bytes -> T -> T * res json.
Variable reset : T -> T.
Variable script : nat -> (S -> S) * C.
Variable app : S -> bytes -> S * bytes.
Variable understood : bytes -> res json.
Variable state : Dv -> S.
Variable runs : T * Dv -> list (deed S C) -> T * Dv -> list (bytes * S * S * res json) -> Prop.
Hypothesis runs_nil : forall x y o, runs x [] y o -> y = x /\ o = [].
Hypothesis runs_app : forall x a b y o, runs x (a ++ b) y o ->
  exists y1 o1 o2, runs x a y1 o1 /\ runs y1 b y o2 /\ o = o1 ++ o2.
Hypothesis runs_send : forall x f c m y o, runs x [DSend f c m] y o ->
  exists r, send c m (fst x) = (fst y, r) /\ o = [(m, f (state (snd x)), state (snd y), r)].
Hypothesis runs_reset : forall x y o, runs x [DReset] y o ->
  fst y = reset (fst x) /\ state (snd y) = state (snd x) /\ o = [].
Hypothesis runs_det : forall x es y o y' o', runs x es y o -> runs x es y' o' -> y' = y.
Variable x0 : T * Dv.
Hypothesis once : forall es y o, runs x0 es y o ->
  Forall (fun z : bytes * S * S * res json => let '(m, s, s1, r) := z in
    (s1 = s /\ exists e, r = Err e) \/
    (s1 = fst (app s m) /\ (r = understood (snd (app s m)) \/ exists e, r = Err e))) o.
Variable F : list (deed S C).
Variable yF : T * Dv.
Variable oF : list (bytes * S * S * res json).
Hypothesis final : runs x0 F yF oF.

Lemma sends_app (a b : list (deed S C)) : sends (a ++ b) = (sends a + sends b)%nat.
Proof. unfold sends. now rewrite filter_app, app_length. Qed.

Notation stk := (stack T C S).
Definition okF (x : stk) : Prop := exists rest, F = k_trace x ++ rest.
Definition invF (x : stk) : Prop :=
  k_sent x = sends (k_trace x) /\ forall y o, runs x0 (k_trace x) y o -> fst y = k_client x.
Definition relF (x : stk) (y : S * nat) : Prop :=
  snd y = k_sent x /\ exists z o, runs x0 (k_trace x) z o /\ state (snd z) = fst y.

Lemma okF_runs x : okF x -> exists y o, runs x0 (k_trace x) y o.
Proof. intros (rest & E). pose proof final as HF. rewrite E in HF. destruct (runs_app _ _ _ _ _ HF) as (y1 & o1 & _ & H & _). eauto. Qed.
Lemma total x : invF x -> okF x -> exists e, relF x e.
Proof. intros _ Ho. destruct (okF_runs x Ho) as (y & o & H). exists (state (snd y), k_sent x). split; [reflexivity|]. eauto. Qed.

Lemma reset_inv x : invF x -> invF (stack_reset T C S reset x).
Proof.
  intros (Hc & Hi). split; [cbn [k_trace k_sent stack_reset]; now rewrite sends_app, Nat.add_0_r|].
  intros y o H. cbn [k_trace k_client stack_reset] in *. destruct (runs_app _ _ _ _ _ H) as (y1 & o1 & o2 & H1 & H2 & _).
  destruct (runs_reset _ _ _ H2) as (-> & _). now rewrite (Hi _ _ H1).
Qed.
Lemma reset_ok x : invF x -> okF (stack_reset T C S reset x) -> okF x.
Proof. intros _ (rest & E). cbn [k_trace stack_reset] in E. exists (DReset :: rest). now rewrite E, <- app_assoc. Qed.
Lemma reset_rel x e : relF x e -> okF (stack_reset T C S reset x) -> relF (stack_reset T C S reset x) e.
Proof.
  intros (R1 & z & o & R2 & R3) Ho. split; [exact R1|]. destruct (okF_runs _ Ho) as (y & oy & Hy).
  exists y, oy. split; [exact Hy|]. cbn [k_trace stack_reset] in Hy.
  destruct (runs_app _ _ _ _ _ Hy) as (y1 & o1 & o2 & H1 & H2 & _). destruct (runs_reset _ _ _ H2) as (_ & -> & _).
  now rewrite (runs_det _ _ _ _ _ _ R2 H1).
Qed.

Variable full : bool.
Hypothesis direct : full = true -> forall es f c m y1 o1 y r, (exists rest, F = (es ++ [DSend f c m]) ++ rest) ->
  runs x0 es y1 o1 -> runs y1 [DSend f c m] y [(m, f (state (snd y1)), state (snd y), r)] ->
  state (snd y) = fst (app (f (state (snd y1))) m) /\ r = understood (snd (app (f (state (snd y1))) m)).

Section Messages.
Variables Q B : Type.
Variable encode : nat -> Q -> bytes.
Variable read : json -> res B.
Lemma stack_sim q : sim stk (S * nat) invF okF relF full
  (fun d => stack_send T C S Q B send encode read script d q)
  (fun d => direct_send C S Q B encode read script app understood d q).
Proof.
  intros x1 y1 r1 H (Hc & Hi). unfold stack_send in H.
  set (m := encode (k_sent x1) q) in *. destruct (script (k_sent x1)) as [f c] eqn:Es.
  destruct (send c m (k_client x1)) as [t1 r] eqn:Ed. injection H as <- <-.
  split.
  - split; [cbn [k_trace k_sent]; rewrite sends_app, Hc; cbn; lia|]. intros y o H. cbn [k_trace k_client] in *. destruct (runs_app _ _ _ _ _ H) as (ya & o1 & o2 & H1 & H2 & _).
    destruct (runs_send _ _ _ _ _ _ H2) as (r' & E & _). rewrite (Hi _ _ H1), Ed in E. congruence.
  - intros Ho. split.
    { destruct Ho as (rest & E). cbn [k_trace] in E. exists (DSend f c m :: rest). now rewrite E, <- app_assoc. }
    intros (s, n) (R1 & z & o & R2 & R3) Hg. cbn [fst snd] in *. subst n.
    destruct (okF_runs _ Ho) as (y & oy & Hy). pose proof Hy as Hy'. cbn [k_trace] in Hy'.
    destruct (runs_app _ _ _ _ _ Hy') as (ya & o1 & o2 & H1 & H2 & E).
    pose proof (runs_det _ _ _ _ _ _ R2 H1) as ->. 
    destruct (runs_send _ _ _ _ _ _ H2) as (r' & E1 & E2). rewrite (Hi _ _ R2), Ed in E1. injection E1 as _ <-.
    assert (K : state (snd y) = fst (app (f s) m) /\ r = understood (snd (app (f s) m))).
    { rewrite E2 in H2. rewrite R3 in H2. destruct Hg as [Hg|(a & Hg)].
      - subst s. apply (direct Hg _ f c m _ _ y r Ho R2 H2).
      - pose proof (once _ _ _ Hy') as HO. rewrite E, E2, Forall_app in HO. destruct HO as (_ & HO).
        inversion HO as [|? ? H0 _]; subst. destruct r as [j|e]; [|discriminate].
        destruct H0 as [(_ & e & N)|(K1 & [K2|(e & N)])]; try discriminate. auto. }
    unfold direct_send. cbn [fst snd]. rewrite Es. cbn [fst]. fold m. destruct (app (f s) m) as [s1 answer]. cbn [fst snd] in K.
    destruct K as (K1 & K2). eexists. split; [rewrite K2; reflexivity|]. split; [reflexivity|].
    exists y, oy. split; [exact Hy|exact K1].
Qed.
End Messages.

(** The effects on the device *)
Lemma effects_app s es s1 es' s' : effects C S app s es s1 -> effects C S app s1 es' s' -> effects C S app s (es ++ es') s'.
Proof. intros H. induction H; intros H'; cbn [List.app]; [exact H'|..]; econstructor; eauto; fail. Qed.
Lemma runs_effects es : forall y o, runs x0 es y o -> effects C S app (state (snd x0)) es (state (snd y)).
Proof.
  induction es as [|e es IH] using rev_ind; intros y o H.
  - destruct (runs_nil _ _ _ H) as (-> & _). constructor.
  - destruct (runs_app _ _ _ _ _ H) as (y1 & o1 & o2 & H1 & H2 & E). apply (effects_app _ _ (state (snd y1))); [eapply IH; eauto|].
    destruct e as [f c m|].
    + destruct (runs_send _ _ _ _ _ _ H2) as (r & _ & E2). pose proof (once _ _ _ H) as HO.
      rewrite E, E2, Forall_app in HO. destruct HO as (_ & HO). inversion HO as [|? ? H0 _]; subst.
      destruct H0 as [(-> & _)|(-> & _)]; [apply effects_none|apply effects_once]; constructor.
    + destruct (runs_reset _ _ _ H2) as (_ & -> & _). repeat constructor.
Qed.

Notation sreset := (stack_reset T C S reset).
Lemma resetW_inv w : invW stk invF w -> invW stk invF (on_dev sreset w).
Proof. apply reset_inv. Qed.
Lemma resetW_ok w : invW stk invF w -> okW stk okF (on_dev sreset w) -> okW stk okF w.
Proof. apply reset_ok. Qed.
Lemma resetW_rel w v : relW stk (S * nat) relF w v -> okW stk okF (on_dev sreset w) ->
  relW stk (S * nat) relF (on_dev sreset w) (on_dev (fun y => y) v).
Proof. intros (R1 & R2 & R3) Ho. split; [exact (reset_rel _ _ R1 Ho)|]. split; assumption. Qed.
Lemma totalW w : invW stk invF w -> okW stk okF w -> exists v, relW stk (S * nat) relF w v.
Proof. intros Hi Ho. destruct (total _ Hi Ho) as (e & He). exists (mkW e (wbatch w) (wlog w)). split; [exact He|]. split; reflexivity. Qed.

Section Queries.
Context {A : Type}.
Variable exec1 : A -> M (world stk) (dict rval).
Variable exec2 : A -> M (world (S * nat)) (dict rval).
Hypothesis exec_sim : forall q, sim _ _ (invW stk invF) (okW stk okF) (relW stk (S * nat) relF) full (exec1 q) (exec2 q).
Notation ask1 := (fun q rc => smart_query (exec1 q) (on_dev (stack_reset T C S reset)) rc).
Notation ask2 := (fun q rc => smart_query (exec2 q) (on_dev (fun y => y)) rc).

Lemma query_inv q rc w w' tr r : ask1 q rc w = (w', tr, r) -> invW stk invF w -> invW stk invF w' /\ (okW stk okF w' -> okW stk okF w).
Proof.
  intros H Hi. unfold smart_query in H.
  eapply (loop_inv (world stk) (world (S * nat)) (invW stk invF) (okW stk okF) (relW stk (S * nat) relF) full (exec1 q) (exec2 q)); eauto using resetW_inv, resetW_ok.
Qed.
Lemma all_inv qs : forall w w' rs, ask_all ask1 w qs = (w', rs) -> invW stk invF w -> invW stk invF w' /\ (okW stk okF w' -> okW stk okF w).
Proof.
  induction qs as [|[q rc] qs IH]; intros w w' rs H Hi; cbn [ask_all] in H.
  - injection H as <- <-. auto.
  - destruct (smart_query (exec1 q) (on_dev (stack_reset T C S reset)) rc w) as [[w1 tr] r] eqn:E.
    destruct (ask_all ask1 w1 qs) as [w2 rs'] eqn:E2. injection H as <- <-.
    destruct (query_inv _ _ _ _ _ _ E Hi) as (Hi1 & K1). destruct (IH _ _ _ E2 Hi1) as (Hi2 & K2). auto.
Qed.
Lemma all_full qs : full = true -> forall w w' rs, ask_all ask1 w qs = (w', rs) -> invW stk invF w -> okW stk okF w' ->
  forall v, relW stk (S * nat) relF w v -> exists v', ask_all ask2 v qs = (v', rs) /\ relW stk (S * nat) relF w' v'.
Proof.
  intros Hf. induction qs as [|[q rc] qs IH]; intros w w' rs H Hi Ho v Hr; cbn [ask_all] in *.
  - injection H as <- <-. eauto.
  - destruct (smart_query (exec1 q) (on_dev (stack_reset T C S reset)) rc w) as [[w1 tr] r] eqn:E.
    destruct (ask_all ask1 w1 qs) as [w2 rs'] eqn:E2. injection H as <- <-.
    destruct (query_inv _ _ _ _ _ _ E Hi) as (Hi1 & _). destruct (all_inv _ _ _ _ E2 Hi1) as (_ & K).
    assert (L : exists v1, smart_query (exec2 q) (on_dev (fun y => y)) rc v = (v1, tr, r) /\ relW stk (S * nat) relF w1 v1).
    { unfold smart_query in *. eapply (loop_full (world stk) (world (S * nat)) (invW stk invF) (okW stk okF) (relW stk (S * nat) relF) full (exec1 q) (exec2 q) _ (on_dev (fun y => y)));
        eauto using resetW_inv, resetW_ok, resetW_rel. }
    destruct L as (v1 & -> & R1). destruct (IH _ _ _ E2 Hi1 Ho v1 R1) as (v2 & -> & R2). eauto.
Qed.
Lemma query_last q rc w w' tr a : ask1 q rc w = (w', tr, Ok a) -> invW stk invF w -> okW stk okF w' ->
  exists w1 v v', invW stk invF w1 /\ okW stk okF w1 /\ relW stk (S * nat) relF w1 v /\ exec2 q v = (v', Ok a) /\ relW stk (S * nat) relF w' v'.
Proof. intros H Hi Ho. unfold smart_query in H. eapply (loop_last (world stk) (world (S * nat)) (invW stk invF) (okW stk okF) (relW stk (S * nat) relF) full (exec1 q) (exec2 q)); eauto using resetW_inv, resetW_ok, totalW. Qed.
End Queries.

(** Legacy queries *)
Notation isend := (stack_send T C S bytes json send plain (@Ok json) script).
Notation idirect := (direct_send C S bytes json plain (@Ok json) script app understood).
Lemma iquery_inv m rc w w' tr r : iot_query (fun d => isend d m) sreset rc w = (w', tr, r) -> invF w -> invF w' /\ (okF w' -> okF w).
Proof.
  intros H Hi. unfold iot_query in H.
  eapply (iloop_inv stk (S * nat) invF okF relF full _ (fun d => idirect d m)); eauto using reset_inv, reset_ok, stack_sim.
Qed.
Lemma iall_inv qs : forall w w' rs, iot_all isend sreset w qs = (w', rs) -> invF w -> invF w' /\ (okF w' -> okF w).
Proof.
  induction qs as [|[q rc] qs IH]; intros w w' rs H Hi; cbn [iot_all] in H.
  - injection H as <- <-. auto.
  - destruct (iot_query (fun d => isend d q) sreset rc w) as [[w1 tr] r] eqn:E.
    destruct (iot_all isend sreset w1 qs) as [w2 rs'] eqn:E2. injection H as <- <-.
    destruct (iquery_inv _ _ _ _ _ _ E Hi) as (Hi1 & K1). destruct (IH _ _ _ E2 Hi1) as (Hi2 & K2). auto.
Qed.
Lemma iall_full qs : full = true -> forall w w' rs, iot_all isend sreset w qs = (w', rs) -> invF w -> okF w' ->
  forall v, relF w v -> exists v', iot_all idirect (fun y => y) v qs = (v', rs) /\ relF w' v'.
Proof.
  intros Hf. induction qs as [|[q rc] qs IH]; intros w w' rs H Hi Ho v Hr; cbn [iot_all] in *.
  - injection H as <- <-. eauto.
  - destruct (iot_query (fun d => isend d q) sreset rc w) as [[w1 tr] r] eqn:E.
    destruct (iot_all isend sreset w1 qs) as [w2 rs'] eqn:E2. injection H as <- <-.
    destruct (iquery_inv _ _ _ _ _ _ E Hi) as (Hi1 & _). destruct (iall_inv _ _ _ _ E2 Hi1) as (_ & K).
    assert (L : exists v1, iot_query (fun d => idirect d q) (fun y => y) rc v = (v1, tr, r) /\ relF w1 v1).
    { unfold iot_query in *. eapply (iloop_full stk (S * nat) invF okF relF full _ (fun d => idirect d q) _ (fun y => y));
        eauto using reset_inv, reset_ok, reset_rel, stack_sim. }
    destruct L as (v1 & -> & R1). destruct (IH _ _ _ E2 Hi1 Ho v1 R1) as (v2 & -> & R2). eauto.
Qed.
Lemma iquery_last m rc w w' tr a : iot_query (fun d => isend d m) sreset rc w = (w', tr, Ok a) -> invF w -> okF w' ->
  exists w1 v v', invF w1 /\ okF w1 /\ relF w1 v /\ idirect v m = (v', Ok a) /\ relF w' v'.
Proof.
  intros H Hi Ho. unfold iot_query in H.
  eapply (iloop_last stk (S * nat) invF okF relF full _ (fun d => idirect d m)); eauto using reset_inv, reset_ok, total, stack_sim.
Qed.

(** ** Put together *)
Notation start := (mkStack (fst x0) 0%nat [] : stk).
Lemma start_inv : invF start.
Proof. split; [reflexivity|]. intros y o H. cbn [k_trace] in H. destruct (runs_nil _ _ _ H) as (-> & _). reflexivity. Qed.
Lemma start_rel : relF start (state (snd x0), 0%nat).
Proof.
  split; [reflexivity|]. destruct (runs_app x0 [] F yF oF final) as (y1 & o1 & _ & H & _). exists y1, o1. split; [exact H|].
  destruct (runs_nil _ _ _ H) as (-> & _). reflexivity.
Qed.
Lemma end_rel x v : k_trace x = F -> relF x v -> fst v = state (snd yF).
Proof. intros E (_ & z & o & H & <-). rewrite E in H. now rewrite (runs_det _ _ _ _ _ _ final H). Qed.
Lemma mid_effects x v : invF x -> okF x -> relF x v ->
  snd v = sends (k_trace x) /\ effects C S app (state (snd x0)) (k_trace x) (fst v) /\ exists rest, F = k_trace x ++ rest.
Proof.
  intros (Hc & _) Ho (R1 & z & o & H & <-). split; [congruence|]. split; [now apply (runs_effects _ _ o)|exact Ho].
Qed.

Section Whole.
Context {A : Type}.
Variable exec1 : A -> M (world stk) (dict rval).
Variable exec2 : A -> M (world (S * nat)) (dict rval).
Hypothesis exec_sim : forall q, sim _ _ (invW stk invF) (okW stk okF) (relW stk (S * nat) relF) full (exec1 q) (exec2 q).
Notation ask1 := (fun q rc => smart_query (exec1 q) (on_dev sreset) rc).
Notation ask2 := (fun q rc => smart_query (exec2 q) (on_dev (fun y => y)) rc).
Lemma whole_transparent b qs w' rs : full = true -> ask_all ask1 (mkW start b []) qs = (w', rs) -> k_trace (wdev w') = F ->
  exists v', ask_all ask2 (mkW (state (snd x0), 0%nat) b []) qs = (v', rs) /\ fst (wdev v') = state (snd yF) /\ wlog v' = wlog w'.
Proof.
  intros Hf H E. destruct (all_full exec1 exec2 exec_sim qs Hf _ _ _ H start_inv) with (v := mkW (state (snd x0), 0%nat) b []) as (v' & Ev & R1 & R2 & R3).
  - exists []. now rewrite app_nil_r.
  - split; [exact start_rel|]. split; reflexivity.
  - exists v'. split; [exact Ev|]. split; [exact (end_rel _ _ E R1)|now symmetry].
Qed.
Lemma whole_once b qs q rc w1 rs w' tr r : ask_all ask1 (mkW start b []) qs = (w1, rs) ->
  ask1 q rc w1 = (w', tr, r) -> k_trace (wdev w') = F ->
  effects C S app (state (snd x0)) F (state (snd yF)) /\
  forall a, r = Ok a -> exists before after s b' l v', F = before ++ after /\ effects C S app (state (snd x0)) before s /\
    exec2 q (mkW (s, sends before) b' l) = (v', Ok a) /\ wdev v' = (state (snd yF), sends F).
Proof.
  intros H Hq E. split; [exact (runs_effects _ _ _ final)|]. intros a ->.
  destruct (all_inv exec1 exec2 exec_sim qs _ _ _ H start_inv) as (Hi & _).
  assert (Ho : okW stk okF w') by (exists []; now rewrite app_nil_r).
  destruct (query_inv exec1 exec2 exec_sim _ _ _ _ _ _ Hq Hi) as (Hi' & _).
  destruct (query_last exec1 exec2 exec_sim _ _ _ _ _ _ Hq Hi Ho) as (w2 & v & v' & I2 & O2 & (R1 & R2 & R3) & Ev & (R4 & _)).
  destruct (mid_effects _ _ I2 O2 R1) as (M1 & M2 & rest & M3).
  exists (k_trace (wdev w2)), rest, (fst (wdev v)), (wbatch v), (wlog v), v'. split; [exact M3|]. split; [exact M2|].
  split.
  - rewrite <- M1. destruct v as [[vs vn] vb vl]. exact Ev.
  - destruct (mid_effects _ _ Hi' Ho R4) as (M4 & _). rewrite E in M4.
    pose proof (end_rel _ _ E R4) as M5. destruct (wdev v') as [vs vn]. cbn [fst snd] in *. congruence.
Qed.
End Whole.
Lemma iwhole_transparent qs w' rs : full = true -> iot_all isend sreset start qs = (w', rs) -> k_trace w' = F ->
  exists v', iot_all idirect (fun y => y) (state (snd x0), 0%nat) qs = (v', rs) /\ fst v' = state (snd yF).
Proof.
  intros Hf H E. destruct (iall_full qs Hf _ _ _ H start_inv) with (v := (state (snd x0), 0%nat)) as (v' & Ev & R).
  - exists []. now rewrite app_nil_r.
  - exact start_rel.
  - exists v'. split; [exact Ev|exact (end_rel _ _ E R)].
Qed.
Lemma iwhole_once qs m rc w1 rs w' tr r : iot_all isend sreset start qs = (w1, rs) ->
  iot_query (fun d => isend d m) sreset rc w1 = (w', tr, r) -> k_trace w' = F ->
  effects C S app (state (snd x0)) F (state (snd yF)) /\
  forall a, r = Ok a -> exists before after s v', F = before ++ after /\ effects C S app (state (snd x0)) before s /\
    idirect (s, sends before) m = (v', Ok a) /\ v' = (state (snd yF), sends F).
Proof.
  intros H Hq E. split; [exact (runs_effects _ _ _ final)|]. intros a ->.
  destruct (iall_inv qs _ _ _ H start_inv) as (Hi & _).
  assert (Ho : okF w') by (exists []; now rewrite app_nil_r).
  destruct (iquery_inv _ _ _ _ _ _ Hq Hi) as (Hi' & _).
  destruct (iquery_last _ _ _ _ _ _ Hq Hi Ho) as (w2 & v & v' & I2 & O2 & R1 & Ev & R4).
  destruct (mid_effects _ _ I2 O2 R1) as (M1 & M2 & rest & M3).
  exists (k_trace w2), rest, (fst v), v'. split; [exact M3|]. split; [exact M2|].
  split.
  - rewrite <- M1. destruct v as [vs vn]. exact Ev.
  - destruct (mid_effects _ _ Hi' Ho R4) as (M4 & _). rewrite E in M4.
    pose proof (end_rel _ _ E R4) as M5. destruct v' as [vs vn]. cbn [fst snd] in *. congruence.
Qed.

Notation lift1 := (stack_send T C S _ _ send).
Lemma smart_transparent encode b qs w' rs : full = true ->
  ask_all (smart_ask (lift1 encode as_dict script) sreset) (mkW start b []) qs = (w', rs) -> k_trace (wdev w') = F ->
  exists v', ask_all (smart_ask (direct_send C S _ _ encode as_dict script app understood) (fun y => y))
    (mkW (state (snd x0), 0%nat) b []) qs = (v', rs) /\ fst (wdev v') = state (snd yF) /\ wlog v' = wlog w'.
Proof.
  apply (whole_transparent (smart_execute_query _) (smart_execute_query _)).
  intros q. apply sim_smart. intros r. apply stack_sim.
Qed.
Lemma smart_once encode b qs q rc w1 rs w' tr r :
  ask_all (smart_ask (lift1 encode as_dict script) sreset) (mkW start b []) qs = (w1, rs) ->
  smart_ask (lift1 encode as_dict script) sreset q rc w1 = (w', tr, r) -> k_trace (wdev w') = F ->
  effects C S app (state (snd x0)) F (state (snd yF)) /\
  forall a, r = Ok a -> exists before after s b' l v', F = before ++ after /\ effects C S app (state (snd x0)) before s /\
    smart_execute_query (direct_send C S _ _ encode as_dict script app understood) q (mkW (s, sends before) b' l) = (v', Ok a) /\
    wdev v' = (state (snd yF), sends F).
Proof.
  apply (whole_once (smart_execute_query _) (smart_execute_query _)).
  intros q'. apply sim_smart. intros r'. apply stack_sim.
Qed.
Lemma camera_transparent encode b qs w' rs : full = true ->
  ask_all (cam_ask (lift1 encode as_dict script) sreset) (mkW start b []) qs = (w', rs) -> k_trace (wdev w') = F ->
  exists v', ask_all (cam_ask (direct_send C S _ _ encode as_dict script app understood) (fun y => y))
    (mkW (state (snd x0), 0%nat) b []) qs = (v', rs) /\ fst (wdev v') = state (snd yF) /\ wlog v' = wlog w'.
Proof.
  apply (whole_transparent (cam_execute_query _ _) (cam_execute_query _ _)).
  intros q. apply sim_cam; intros r; apply stack_sim.
Qed.
Lemma camera_once encode b qs q rc w1 rs w' tr r :
  ask_all (cam_ask (lift1 encode as_dict script) sreset) (mkW start b []) qs = (w1, rs) ->
  cam_ask (lift1 encode as_dict script) sreset q rc w1 = (w', tr, r) -> k_trace (wdev w') = F ->
  effects C S app (state (snd x0)) F (state (snd yF)) /\
  forall a, r = Ok a -> exists before after s b' l v', F = before ++ after /\ effects C S app (state (snd x0)) before s /\
    cam_execute_query (fun d r => direct_send C S _ _ encode as_dict script app understood d (inl r))
      (fun d r => direct_send C S _ _ encode as_dict script app understood d (inr r)) q (mkW (s, sends before) b' l) = (v', Ok a) /\
    wdev v' = (state (snd yF), sends F).
Proof.
  apply (whole_once (cam_execute_query _ _) (cam_execute_query _ _)).
  intros q'. apply sim_cam; intros r'; apply stack_sim.
Qed.
End Runs.

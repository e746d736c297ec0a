(** Properties C05, C06: retry behaviour of queries. *)
From Verif Require Import Base Retry_Model Retry_Spec Retry_Proofs.

(** C05 *)
Theorem iot_query_retries : forall S A (exec : S -> S * res A) treset rc s, (0 <= rc)%Z ->
  exists k, let '(f, tr, r) := iot_query exec treset rc s in
    good_run exec treset s between_iot (Z.to_nat rc) k tr r f.
Proof. intros S A. exact iot_query_lemma. Qed.
Print Assumptions iot_query_retries.

Theorem iot_query_attempt_bound : forall S A (exec : S -> S * res A) treset rc s, (0 <= rc)%Z ->
  let '(_, tr, _) := iot_query exec treset rc s in
  1 <= execs tr /\ (Z.of_nat (execs tr) <= rc + 1)%Z.
Proof. intros S A. exact iot_bound_lemma. Qed.
Print Assumptions iot_query_attempt_bound.

Theorem iot_query_negative_count : forall S A (exec : S -> S * res A) treset rc s, (rc < 0)%Z ->
  iot_query exec treset rc s = (s, [], Err KKasa).
Proof. intros S A. exact iot_negative_lemma. Qed.
Print Assumptions iot_query_negative_count.

(** C06 *)
Theorem smart_query_retries : forall S A (exec : S -> S * res A) treset rc s, (0 <= rc)%Z ->
  exists k, let '(f, tr, r) := smart_query exec treset rc s in
    good_run exec treset s between_smart (Z.to_nat rc) k tr r f.
Proof. intros S A. exact smart_query_lemma. Qed.
Print Assumptions smart_query_retries.

Theorem smart_query_attempt_bound : forall S A (exec : S -> S * res A) treset rc s, (0 <= rc)%Z ->
  let '(_, tr, _) := smart_query exec treset rc s in
  1 <= execs tr /\ (Z.of_nat (execs tr) <= rc + 1)%Z.
Proof. intros S A. exact smart_bound_lemma. Qed.
Print Assumptions smart_query_attempt_bound.

Theorem smart_query_negative_count : forall S A (exec : S -> S * res A) treset rc s, (rc < 0)%Z ->
  smart_query exec treset rc s = (s, [], Err KKasa).
Proof. intros S A. exact smart_negative_lemma. Qed.
Print Assumptions smart_query_negative_count.

(** A run with a refused connection, a timeout, a retryable error, then success. *)
Definition demo_exec (n : nat) : nat * res nat :=
  (S n, nth n [Err KConn; Err KTimeout; Err (KRetry None)] (Ok n)).
Example retry_ex :
  iot_query demo_exec (fun n => n) 3 0 =
    (4, [Exec; Exec; Reset; Sleep; Exec; Reset; Exec], Ok 3) /\
  smart_query demo_exec (fun n => n) 3 0 =
    (4, [Exec; Exec; Reset; Sleep; Exec; Reset; Sleep; Exec], Ok 3) /\
  smart_query demo_exec (fun n => n) 1 0 = (2, [Exec; Exec; Reset], Err KTimeout).
Proof. vm_compute. auto. Qed.

(** Property C112: the legacy client and a device on its TCP connection. *)
From Coq Require Import Lia.
From Verif Require Import Base Base_Lemmas Xor_Model Xor_Spec Xor_Proofs XorPeer_Spec XorPeer_Proofs.
From Verif Require Klap_Model.
Open Scope string_scope.
Open Scope list_scope.
Open Scope Z_scope.

(** While nothing goes wrong, sending through the transport is calling the device directly: the
    same answers, the same effects, in the same order, over one connection or many. *)
Theorem xor_transparent : forall json_loads S app s es t s' outs,
  fits S app ->
  together json_loads S app (init, s) es (t, s') outs ->
  all_healthy S es ->
  s' = fst (directly json_loads S app s es) /\
  map snd outs = snd (directly json_loads S app s es).
Proof.
  intros json_loads S app s es t s' outs Hf HT Hh.
  exact (together_healthy json_loads S app Hf _ _ _ _ HT Inv_init Hh).
Qed.
Print Assumptions xor_transparent.

(** Whatever goes wrong (connections refused or broken at any byte, answers cut short, cancellation),
    one send has the effect of the request at most once, and an answer it returns is the device's
    answer to that very request, never one left over from before. *)
Theorem xor_at_most_once : forall json_loads S app s es y outs,
  fits S app ->
  together json_loads S app (init, s) es y outs ->
  Forall (fun o : bytes * S * S * res json => let '(m, s, s1, r) := o in
    let (s2, answer) := app s m in
    (s1 = s /\ exists e, r = Err e) \/
    (s1 = s2 /\ (r = understood json_loads answer \/ exists e, r = Err e))) outs.
Proof.
  intros json_loads S app s es y outs Hf HT.
  eapply Forall_impl; [|exact (proj2 (together_once json_loads S app Hf _ _ _ _ HT Inv_init))].
  intros [[[m s0] s1] r] H. destruct (app s0 m) as [s2 answer]. exact H.
Qed.
Print Assumptions xor_at_most_once.

(** After any trouble, and without anybody doing anything about it: while nothing new goes wrong,
    everything is as if the device was called directly. *)
Theorem xor_recovers : forall json_loads S app s before after t s' outs,
  fits S app ->
  together json_loads S app (init, s) (before ++ after) (t, s') outs ->
  all_healthy S after ->
  exists t0 s0 outs0 outs1,
    together json_loads S app (init, s) before (t0, s0) outs0 /\
    outs = outs0 ++ outs1 /\
    s' = fst (directly json_loads S app s0 after) /\
    map snd outs1 = snd (directly json_loads S app s0 after).
Proof.
  intros json_loads S app s before after t s' outs Hf HT Hh.
  destruct (together_split _ _ _ _ _ _ _ _ HT) as ([t0 s0] & o0 & o1 & A & B & ->).
  exists t0, s0, o0, o1. split; [exact A|]. split; [reflexivity|].
  destruct (together_once json_loads S app Hf _ _ _ _ A Inv_init) as (I & _).
  exact (together_healthy json_loads S app Hf _ _ _ _ B I Hh).
Qed.
Print Assumptions xor_recovers.

(** ** An example: a device that counts up to a hundred *)
Notation lit := Klap_Model.lit.
Definition count_app (s : nat) (m : bytes) : nat * bytes :=
  (Nat.min 100 (s + length m), repeat "x"%char (Nat.min 100 (s + length m))).
Definition toy_json (b : bytes) : option json := Some (JInt (Z.of_nat (length b))).
Example toy_fits : fits nat count_app.
Proof.
  intros s m. cbn [count_app snd]. rewrite repeat_length.
  apply N.le_lt_trans with 100%N; [|reflexivity]. pose proof (Nat.le_min_l 100 (s + length m)). lia.
Qed.
(** Two requests on one connection, then the answer to a third breaks off in the middle, then a
    fourth: nothing is answered with the rest of that answer. *)
Definition answers (n : nat) : bytes := repeat "x"%char n.
Definition story : list (happening nat) :=
  [HSend COk XOk true (answers 9) (lit "four"); HSend COk XOk true (answers 11) (lit "xy");
   HSend COk (XFail FException 6 true) true (answers 12) (lit "z")].
Definition story2 : list (happening nat) := [HSend COk XOk true (answers 14) (lit "ab")].
Example xor_together_ex : exists y outs,
  together toy_json nat count_app (init, 5%nat) (story ++ story2) y outs
  /\ outs = [(lit "four", 5%nat, 9%nat, Ok (JInt 9)); (lit "xy", 9%nat, 11%nat, Ok (JInt 11));
             (lit "z", 11%nat, 12%nat, Err (KRetry None)); (lit "ab", 12%nat, 14%nat, Ok (JInt 14))]
  /\ all_healthy nat story2 /\ snd y = 14%nat.
Proof.
  do 2 eexists. split; [|split; [|split]].
  - cbn [story story2 List.app]. do 4 (eapply together_send; [vm_compute; reflexivity|vm_compute; reflexivity|]). apply together_nil.
  - vm_compute. reflexivity.
  - repeat constructor.
  - reflexivity.
Qed.
Example xor_transparent_ex : exists y outs,
  together toy_json nat count_app (init, 5%nat) (firstn 2 story) y outs /\ all_healthy nat (firstn 2 story)
  /\ map snd outs = snd (directly toy_json nat count_app 5%nat (firstn 2 story)).
Proof.
  do 2 eexists. split; [|split].
  - cbn [story firstn]. do 2 (eapply together_send; [vm_compute; reflexivity|vm_compute; reflexivity|]). apply together_nil.
  - repeat constructor.
  - vm_compute. reflexivity.
Qed.

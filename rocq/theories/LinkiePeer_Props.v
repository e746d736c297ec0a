(** Property C113: the legacy camera's client and a camera that speaks the protocol. *)
From Verif Require Import Base Base_Lemmas Py Crypto_Model Crypto_Proofs Linkie_Model XorPeer_Spec LinkiePeer_Spec LinkiePeer_Proofs.
From Verif Require Klap_Model Linkie_Props.
Open Scope string_scope.
Open Scope list_scope.
Open Scope Z_scope.

(** While nothing goes wrong, sending through the transport is calling the camera directly: the
    same answers, the same effects, in the same order. *)
Theorem linkie_transparent : forall b64d json_loads S app s es s' outs,
  Linkie_Props.reads_base64 b64d ->
  together b64d json_loads S app s es s' outs ->
  all_healthy S es ->
  s' = fst (directly json_loads S app s es) /\
  map snd outs = snd (directly json_loads S app s es).
Proof. intros b64d json_loads S app s es s' outs Hb HT Hh. exact (together_healthy b64d json_loads S app Hb _ _ _ _ HT Hh). Qed.
Print Assumptions linkie_transparent.

(** Whatever goes wrong, one send has the effect of the request at most once, and an answer it
    returns is the camera's answer to that very request. *)
Theorem linkie_at_most_once : forall b64d json_loads S app s es y outs,
  Linkie_Props.reads_base64 b64d ->
  together b64d json_loads S app s es y outs ->
  Forall (fun o : bytes * S * S * res json => let '(m, s, s1, r) := o in
    let (s2, answer) := app s m in
    (s1 = s /\ exists e, r = Err e) \/
    (s1 = s2 /\ (r = understood json_loads answer \/ exists e, r = Err e))) outs.
Proof.
  intros b64d json_loads S app s es y outs Hb HT.
  eapply Forall_impl; [|exact (together_once b64d json_loads S app Hb _ _ _ _ HT)].
  intros [[[m s0] s1] r] H. destruct (app s0 m) as [s2 answer]. exact H.
Qed.
Print Assumptions linkie_at_most_once.

(** After any trouble, and without anybody doing anything about it: while nothing new goes wrong,
    everything is as if the camera was called directly. *)
Theorem linkie_recovers : forall b64d json_loads S app s before after s' outs,
  Linkie_Props.reads_base64 b64d ->
  together b64d json_loads S app s (before ++ after) s' outs ->
  all_healthy S after ->
  exists s0 outs0 outs1,
    together b64d json_loads S app s before s0 outs0 /\
    outs = outs0 ++ outs1 /\
    s' = fst (directly json_loads S app s0 after) /\
    map snd outs1 = snd (directly json_loads S app s0 after).
Proof.
  intros b64d json_loads S app s before after s' outs Hb HT Hh.
  destruct (together_split _ _ _ _ _ _ _ _ _ HT) as (s0 & o0 & o1 & A & B & ->).
  exists s0, o0, o1. split; [exact A|]. split; [reflexivity|].
  exact (together_healthy b64d json_loads S app Hb _ _ _ _ B Hh).
Qed.
Print Assumptions linkie_recovers.

(** ** An example: a camera that counts; a request, a lost answer, another request *)
Notation lit := Klap_Model.lit.
Definition count_app (s : nat) (m : bytes) : nat * bytes := ((s + length m)%nat, repeat "x"%char (s + length m)).
Definition toy_json (b : bytes) : option json := Some (JInt (Z.of_nat (length b))).
Definition ok (n : nat) : res (Z * bytes) := Ok (200, answered (repeat "x"%char n)).
Definition story : list (happening nat) :=
  [HSend Answered (ok 9) (lit "four"); HSend (AnswerLost KTimeout) (Err KTimeout) (lit "xy"); HReset].
Definition story2 : list (happening nat) := [HSend Answered (ok 12) (lit "z")].
Example linkie_together_ex : exists y outs,
  together b64decode toy_json nat count_app 5%nat (story ++ story2) y outs
  /\ outs = [(lit "four", 5%nat, 9%nat, Ok (JInt 9)); (lit "xy", 9%nat, 11%nat, Err (KRetry None)); (lit "z", 11%nat, 12%nat, Ok (JInt 12))]
  /\ all_healthy nat story2.
Proof.
  do 2 eexists. split; [|split].
  - cbn [story story2 List.app].
    do 2 (eapply together_send; [vm_compute; reflexivity|eapply served_post; [vm_compute; reflexivity|apply served_nil]|]).
    apply together_reset. eapply together_send; [vm_compute; reflexivity|eapply served_post; [vm_compute; reflexivity|apply served_nil]|].
    apply together_nil.
  - vm_compute. reflexivity.
  - repeat constructor.
Qed.

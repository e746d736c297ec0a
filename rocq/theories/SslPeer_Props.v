(** Property C111: the vacuum's client and a device that speaks the protocol. *)
From Verif Require Import Base Base_Lemmas Py Codes_Model Crypto_Model Ssl_Model SslPeer_Spec SslPeer_Proofs.
From Verif Require Klap_Model.
Open Scope string_scope.
Open Scope list_scope.
Open Scope Z_scope.

(** While nothing goes wrong, sending through the transport is calling the device directly: the
    same answers, the same effects, in the same order, over any number of sessions, logins, expiries
    and resets. *)
Theorem ssl_transparent : forall json_loads S app accepts d es t d' outs,
  knows accepts ->
  together json_loads S app accepts (init, d) es (t, d') outs ->
  all_healthy S es ->
  dv_state d' = fst (directly json_loads S app (dv_state d) es) /\
  map snd outs = snd (directly json_loads S app (dv_state d) es).
Proof.
  intros json_loads S app accepts d es t d' outs Hk HT Hh.
  refine (proj2 (together_alive json_loads S app accepts _ _ _ _ HT _ Hk Hh)). apply (fresh_alive S init d).
Qed.
Print Assumptions ssl_transparent.

(** Whatever goes wrong (requests and answers lost, sessions forgotten, logins refused, clocks
    anywhere), one send has the effect of the request at most once, and an answer it returns is the
    device's answer to that very request. *)
Theorem ssl_at_most_once : forall json_loads S app accepts d es y outs,
  together json_loads S app accepts (init, d) es y outs ->
  Forall (fun o : bytes * S * S * res json => let '(m, s, s1, r) := o in
    let (s2, answer) := app s m in
    (s1 = s /\ exists e, r = Err e) \/
    (s1 = s2 /\ (r = understood json_loads answer \/ exists e, r = Err e))) outs.
Proof.
  intros json_loads S app accepts d es y outs HT.
  eapply Forall_impl; [|exact (together_once _ _ _ _ _ _ _ _ HT)].
  intros [[[m s] s1] r] H. destruct (app s m) as [s2 answer]. exact H.
Qed.
Print Assumptions ssl_at_most_once.

(** After any trouble, a reset (which every retry of a query makes) is enough: while nothing new
    goes wrong, everything after it is as if the device was called directly. *)
Theorem ssl_recovers : forall json_loads S app accepts d before after t d' outs,
  knows accepts ->
  together json_loads S app accepts (init, d) (before ++ HReset :: after) (t, d') outs ->
  all_healthy S after ->
  exists t0 d0 outs0 outs1,
    together json_loads S app accepts (init, d) before (t0, d0) outs0 /\
    outs = outs0 ++ outs1 /\
    dv_state d' = fst (directly json_loads S app (dv_state d0) after) /\
    map snd outs1 = snd (directly json_loads S app (dv_state d0) after).
Proof.
  intros json_loads S app accepts d before after t d' outs Hk HT Hh.
  destruct (together_split _ _ _ _ _ _ _ _ _ HT) as ([t0 d0] & o0 & o1 & A & B & ->).
  exists t0, d0, o0, o1. split; [exact A|]. split; [reflexivity|].
  inversion B; subst.
  match goal with HX : together _ _ _ _ (reset t0, d0) _ _ _ |- _ =>
    refine (proj2 (together_alive json_loads S app accepts _ _ _ _ HX _ Hk Hh)) end. apply (fresh_alive S t0 d0).
Qed.
Print Assumptions ssl_recovers.

(** ** An example: a device that adds up what it is sent, and knows only the default login *)
Notation lit := Klap_Model.lit.
Definition count_app (s : nat) (m : bytes) : nat * bytes := ((s + length m)%nat, repeat "x"%char (s + length m)).
Definition toy_json (b : bytes) : option json :=
  Some (JObj [("error_code", JInt 0); ("sum", JInt (Z.of_nat (length b)))]).
Definition sum (n : Z) : json := JObj [("error_code", JInt 0); ("sum", JInt n)].
Definition toy_accepts (default : bool) : bool := default.
Example toy_knows : knows toy_accepts /\ toy_accepts false = false.
Proof. split; [right|]; reflexivity. Qed.

Definition d0 : device nat := mkDev [] 5%nat.
(** What the device answers to the posts, put into the world. *)
Fixpoint feed (h : choice) (w : world) (d : device nat) (p : list post) : world :=
  match p with
  | [] => w
  | PLogin def tok :: p =>
      let (d1, r) := on_login nat toy_accepts (if def then h_login2 h else h_login h) def d in
      feed h (if def then mkW (w_now w) (w_login w) (w_login_at w) r (w_login2_at w) (w_req w)
              else mkW (w_now w) r (w_login_at w) (w_login2 w) (w_login2_at w) (w_req w)) d1 p
  | PRequest tok m :: p =>
      let (d1, r) := on_request toy_json nat count_app (h_request h) tok (lit m) d in
      feed h (mkW (w_now w) (w_login w) (w_login_at w) (w_login2 w) (w_login2_at w) r) d1 p
  end.
Fixpoint again {A} (n : nat) (f : A -> A) (x : A) : A := match n with O => x | Datatypes.S n => again n f (f x) end.
Definition arranged (h : choice) (now : Z) (t : ssl) (d : device nat) (m : bytes) : world :=
  again 4 (fun w => feed h w d (log (fst (send w (string_of_list_ascii m) (cleared t)))))
    (mkW now (Err KKasa) (now + 1) (Err KKasa) (now + 1) (Err KKasa)).
Definition fine (now : Z) (k : string) : choice :=
  mkChoice (mkLogin k 86400 now Answered) (mkLogin (k ++ "2")%string 86400 now Answered) (mkPass (now + 2) Answered).

Definition w1 := Eval vm_compute in arranged (fine 0 "a") 0 init d0 (lit "four").
Definition t1 := Eval vm_compute in fst (send w1 "four" init).
Definition d1 : device nat := mkDev [mkD "a2" 86400] 9%nat.
Definition w2 := Eval vm_compute in arranged (fine 10 "b") 10 t1 d1 (lit "xy").
Definition w3 := Eval vm_compute in arranged (fine 10 "b") 10 t1 (mkDev [] 9%nat) (lit "xy").
Definition t3 := Eval vm_compute in fst (send w3 "xy" (cleared t1)).
Definition w4 := Eval vm_compute in arranged (fine 20 "c") 20 (reset t3) (mkDev [] 9%nat) (lit "xy").
Definition w5 := Eval vm_compute in arranged (fine 90000 "d") 90000 t1 d1 (lit "xy").

Ltac show_served := repeat (first [apply served_nil | eapply served_login; [vm_compute; reflexivity|] | eapply served_req; [vm_compute; reflexivity|]]).
Ltac show_send := eapply together_send; [vm_compute; reflexivity|show_served|].

(** A login refused, the default login, and two requests in that session. *)
Example ssl_together_ex : exists y outs,
  together toy_json nat count_app toy_accepts (init, d0) [HSend (fine 0 "a") w1 (lit "four"); HSend (fine 10 "b") w2 (lit "xy")] y outs
  /\ outs = [(lit "four", 5%nat, 9%nat, Ok (sum 9)); (lit "xy", 9%nat, 11%nat, Ok (sum 11))]
  /\ all_healthy nat [HSend (fine 0 "a") w1 (lit "four"); HSend (fine 10 "b") w2 (lit "xy")]
  /\ length (log t1) = 3%nat.
Proof.
  do 2 eexists. split; [|split; [|split]].
  - show_send. show_send. apply together_nil.
  - vm_compute. reflexivity.
  - repeat constructor; vm_compute; congruence.
  - reflexivity.
Qed.
(** A day later: the session is renewed. *)
Example ssl_renew_ex : exists y outs,
  together toy_json nat count_app toy_accepts (init, d0) [HSend (fine 0 "a") w1 (lit "four"); HSend (fine 90000 "d") w5 (lit "xy")] y outs
  /\ outs = [(lit "four", 5%nat, 9%nat, Ok (sum 9)); (lit "xy", 9%nat, 11%nat, Ok (sum 11))]
  /\ all_healthy nat [HSend (fine 0 "a") w1 (lit "four"); HSend (fine 90000 "d") w5 (lit "xy")].
Proof.
  do 2 eexists. split; [|split].
  - show_send. show_send. apply together_nil.
  - vm_compute. reflexivity.
  - repeat constructor; vm_compute; congruence.
Qed.
(** The device restarts in between: a session timeout without effect, and after the reset success. *)
Example ssl_recovers_ex : exists y outs,
  together toy_json nat count_app toy_accepts (init, d0)
    ([HSend (fine 0 "a") w1 (lit "four"); HForget (fun _ => false); HSend (fine 10 "b") w3 (lit "xy")] ++
     HReset :: [HSend (fine 20 "c") w4 (lit "xy")]) y outs
  /\ outs = [(lit "four", 5%nat, 9%nat, Ok (sum 9)); (lit "xy", 9%nat, 9%nat, Err (KRetry (Some 9999)));
             (lit "xy", 9%nat, 11%nat, Ok (sum 11))]
  /\ all_healthy nat [HSend (fine 20 "c") w4 (lit "xy")].
Proof.
  do 2 eexists. split; [|split].
  - cbn [List.app]. show_send. apply together_forget. show_send. apply together_reset. show_send. apply together_nil.
  - vm_compute. reflexivity.
  - repeat constructor; vm_compute; congruence.
Qed.

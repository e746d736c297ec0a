(** Property C108: the AES client and a device that speaks the protocol. *)
From Verif Require Import Base Base_Lemmas Crypto_Model Crypto_Proofs Aes_Model Aes_Spec Aes_Proofs AesPeer_Spec AesPeer_Proofs.
From Verif Require Klap_Model Aes_Props.
Open Scope Z_scope.

(** While nothing goes wrong, sending through the transport is calling the device directly: the
    same answers, the same effects, in the same order, over any number of sessions, logins, expiries
    and resets. *)
Theorem aes_transparent : forall enc_block dec_block json_loads open_key login_text S app accepts welcome refusal
    d es t d' outs,
  Aes_Props.cipher_ok enc_block dec_block ->
  speaks json_loads S app welcome refusal -> knows login_text accepts ->
  together enc_block dec_block json_loads open_key login_text S app accepts welcome refusal (init, d) es (t, d') outs ->
  all_healthy S es ->
  dv_state d' = fst (directly json_loads S app (dv_state d) es) /\
  map snd outs = snd (directly json_loads S app (dv_state d) es).
Proof.
  intros enc_block dec_block json_loads open_key login_text S app accepts welcome refusal d es t d' outs (H1 & H2) Hj Hk HT Hh.
  refine (proj2 (together_alive enc_block dec_block json_loads open_key login_text S app accepts welcome refusal
            H1 H2 Hj _ _ _ _ _ HT _ Hk Hh)).
  intros N. now destruct N.
Qed.
Print Assumptions aes_transparent.

(** Whatever goes wrong (requests and answers lost, sessions forgotten, logins refused, clocks
    anywhere), one send has the effect of the request at most once, and an answer it returns is the
    device's answer to that very request. *)
Theorem aes_at_most_once : forall enc_block dec_block json_loads open_key login_text S app accepts welcome refusal
    d es y outs,
  Aes_Props.cipher_ok enc_block dec_block ->
  speaks json_loads S app welcome refusal ->
  together enc_block dec_block json_loads open_key login_text S app accepts welcome refusal (init, d) es y outs ->
  Forall (fun o : bytes * S * S * res json => let '(m, s, s1, r) := o in
    let (s2, answer) := app s m in
    (s1 = s /\ exists e, r = Err e) \/
    (s1 = s2 /\ (r = understood json_loads answer \/ exists e, r = Err e))) outs.
Proof.
  intros enc_block dec_block json_loads open_key login_text S app accepts welcome refusal d es y outs (H1 & H2) Hj HT.
  destruct (together_linked enc_block dec_block json_loads open_key login_text S app accepts welcome refusal
            H1 H2 Hj _ _ _ _ _ HT) as (_ & HF).
  { intros N. now destruct N. }
  eapply Forall_impl; [|exact HF]. intros [[[m s] s1] r] H. destruct (app s m) as [s2 answer]. exact H.
Qed.
Print Assumptions aes_at_most_once.

(** After any trouble, a reset (which every retry of a query makes) is enough: while nothing new
    goes wrong, everything after it is as if the device was called directly. *)
Theorem aes_recovers : forall enc_block dec_block json_loads open_key login_text S app accepts welcome refusal
    d before after t d' outs,
  Aes_Props.cipher_ok enc_block dec_block ->
  speaks json_loads S app welcome refusal -> knows login_text accepts ->
  together enc_block dec_block json_loads open_key login_text S app accepts welcome refusal
    (init, d) (before ++ HReset :: after) (t, d') outs ->
  all_healthy S after ->
  exists t0 d0 outs0 outs1,
    together enc_block dec_block json_loads open_key login_text S app accepts welcome refusal
      (init, d) before (t0, d0) outs0 /\
    outs = outs0 ++ outs1 /\
    dv_state d' = fst (directly json_loads S app (dv_state d0) after) /\
    map snd outs1 = snd (directly json_loads S app (dv_state d0) after).
Proof.
  intros enc_block dec_block json_loads open_key login_text S app accepts welcome refusal d before after t d' outs
    (H1 & H2) Hj Hk HT Hh.
  destruct (together_split _ _ _ _ _ _ _ _ _ _ _ _ _ _ _ _ HT) as (t0 & d0 & o0 & o1 & A & B & ->).
  exists t0, d0, o0, o1. split; [exact A|]. split; [reflexivity|].
  inversion B; subst.
  match goal with HX : together _ _ _ _ _ _ _ _ _ _ (reset t0, d0) _ _ _ |- _ =>
    refine (proj2 (together_alive enc_block dec_block json_loads open_key login_text S app accepts welcome refusal
            H1 H2 Hj _ _ _ _ _ HX _ Hk Hh)) end.
  intros N. now destruct N.
Qed.
Print Assumptions aes_recovers.

(** ** An example: a device that adds up what it is sent, and knows only the default login *)
Definition count_app (s : nat) (m : bytes) : nat * bytes := ((s + length m)%nat, repeat "x"%char (s + length m)).
Definition toy_welcome (tk : string) : bytes := "T"%char :: list_ascii_of_string tk.
Definition toy_refusal : bytes := ["R"%char].
Definition toy_json (b : bytes) : option json :=
  match b with
  | "T"%char :: tk => Some (JObj [("error_code", JInt 0); ("result", JObj [("token", JStr (string_of_list_ascii tk))])]%string)
  | "R"%char :: _ => Some (JObj [("error_code", JInt (-1501))]%string)
  | _ => Some (JInt (Z.of_nat (length b)))
  end.
Definition toy_login (default : bool) : bytes := if default then lit "default" else lit "mine".
Definition toy_accepts (m : bytes) : bool := Nat.eqb (length m) 7.
Definition toy_open (j : json) : res bytes := match j with JStr s => Ok (lit s) | _ => Err PyTypeError end.

Example toy_speaks : speaks toy_json nat count_app toy_welcome toy_refusal.
Proof.
  split; [|split].
  - intros s m. cbn [count_app snd]. destruct (s + length m)%nat; eexists; reflexivity.
  - intros tk. cbn. now rewrite string_of_list_ascii_of_string.
  - reflexivity.
Qed.
Example toy_knows : knows toy_login toy_accepts /\ toy_accepts (toy_login false) = false.
Proof. split; [right|]; reflexivity. Qed.
Example toy_cipher : Aes_Props.cipher_ok (fun _ b => b) (fun _ b => b).
Proof. split; auto. Qed.

Notation t_send := (send (fun _ b => b) (fun _ b => b) toy_json toy_open toy_login).
Notation t_pass := (on_pass (fun _ b => b) (fun _ b => b) nat count_app toy_accepts toy_welcome toy_refusal).

(** What the device answers to the posts, put into the world. *)
Fixpoint feed (h : choice) (w : world) (b : bool) (d : device nat) (p : list post) : world :=
  match p with
  | [] => w
  | PHandshake :: p =>
      let k := if b then h_shake2 h else h_shake h in
      let (d1, r) := on_handshake nat k d in
      let hs o := mkHs r (hs_cookie o) (hs_timeout o) (hs_now o) in
      feed h (if b then mkW (w_now w) (w_hs w) (w_login w) (hs (w_hs2 w)) (w_login2 w) (w_req w)
              else mkW (w_now w) (hs (w_hs w)) (w_login w) (w_hs2 w) (w_login2 w) (w_req w)) b d1 p
  | PLogin def tok ck pl :: p =>
      let (d1, r) := t_pass (if def then h_login2 h else h_login h) tok ck pl d in
      feed h (if def then mkW (w_now w) (w_hs w) (w_login w) (w_hs2 w) r (w_req w)
              else mkW (w_now w) (w_hs w) r (w_hs2 w) (w_login2 w) (w_req w)) true d1 p
  | PRequest tok ck pl :: p =>
      let (d1, r) := t_pass (h_request h) tok ck pl d in
      feed h (mkW (w_now w) (w_hs w) (w_login w) (w_hs2 w) (w_login2 w) r) b d1 p
  end.
Fixpoint again {A} (n : nat) (f : A -> A) (x : A) : A := match n with O => x | Datatypes.S n => again n f (f x) end.
Definition arranged (h : choice) (now : Z) (t : aes) (d : device nat) (m : bytes) : world :=
  let hs k := mkHs (Err KKasa) (Some (k_cookie k)) (Klap_Model.Timeout (k_life k)) (now + 1) in
  again 6 (fun w => feed h w false d (log (fst (t_send w m (cleared t)))))
    (mkW now (hs (h_shake h)) (Err KKasa) (hs (h_shake2 h)) (Err KKasa) (Err KKasa)).
Definition fine (now : Z) (k : string) : choice :=
  let s k' := mkShake (lit "0123456789abcdef0123456789ABCDEF") (JStr "0123456789abcdef0123456789ABCDEF") k' 7200 now Answered in
  let p := mkPass (now + 2) "tok" Answered in
  mkChoice (s k) p (s (k ++ "2")%string) p p.

Definition d0 : device nat := mkDev [] 5%nat.
Definition w1 := Eval vm_compute in arranged (fine 0 "a") 0 init d0 (lit "four").
Definition t1 := Eval vm_compute in fst (t_send w1 (lit "four") init).
Definition k0 : bytes * bytes := (lit "0123456789abcdef", lit "0123456789ABCDEF").
Definition d1 : device nat := Eval vm_compute in
  mkDev [mkD "a2" k0 (Some "tok"%string) 7200; mkD "a" k0 None 7200] 9%nat.
Definition w2 := Eval vm_compute in arranged (fine 10 "b") 10 t1 d1 (lit "xy").
Definition w3 := Eval vm_compute in arranged (fine 10 "b") 10 t1 (mkDev [] 9%nat) (lit "xy").
Definition t3 := Eval vm_compute in fst (t_send w3 (lit "xy") (cleared t1)).
Definition w4 := Eval vm_compute in arranged (fine 20 "c") 20 (reset t3) (mkDev [] 9%nat) (lit "xy").

Ltac show_served := repeat (first [apply served_nil | eapply served_hs; [vm_compute; reflexivity|]
  | eapply served_login; [vm_compute; reflexivity|] | eapply served_req; [vm_compute; reflexivity|]]).
Ltac show_send := eapply together_send; [vm_compute; reflexivity|show_served|vm_compute; repeat split|].
Notation t_together := (together (fun _ b => b) (fun _ b => b) toy_json toy_open toy_login nat count_app toy_accepts toy_welcome toy_refusal).

(** A login refused, a second handshake with the default login, and two requests in that session. *)
Example aes_together_ex : exists y outs,
  t_together (init, d0) [HSend (fine 0 "a") w1 (lit "four"); HSend (fine 10 "b") w2 (lit "xy")] y outs
  /\ outs = [(lit "four", 5%nat, 9%nat, Ok (JInt 9)); (lit "xy", 9%nat, 11%nat, Ok (JInt 11))]
  /\ all_healthy nat [HSend (fine 0 "a") w1 (lit "four"); HSend (fine 10 "b") w2 (lit "xy")]
  /\ length (log t1) = 5%nat.
Proof.
  do 2 eexists. split; [|split; [|split]].
  - show_send. show_send. apply together_nil.
  - vm_compute. reflexivity.
  - repeat constructor; vm_compute; congruence.
  - reflexivity.
Qed.
(** The device restarts in between: a session timeout without effect, and after the reset success. *)
Example aes_recovers_ex : exists y outs,
  t_together (init, d0) ([HSend (fine 0 "a") w1 (lit "four"); HForget (fun _ => false); HSend (fine 10 "b") w3 (lit "xy")] ++
                         HReset :: [HSend (fine 20 "c") w4 (lit "xy")]) y outs
  /\ outs = [(lit "four", 5%nat, 9%nat, Ok (JInt 9)); (lit "xy", 9%nat, 9%nat, Err (KRetry (Some 9999)));
             (lit "xy", 9%nat, 11%nat, Ok (JInt 11))]
  /\ all_healthy nat [HSend (fine 20 "c") w4 (lit "xy")].
Proof.
  do 2 eexists. split; [|split].
  - cbn [List.app]. show_send. apply together_forget. show_send. apply together_reset. show_send. apply together_nil.
  - vm_compute. reflexivity.
  - repeat constructor; vm_compute; congruence.
Qed.

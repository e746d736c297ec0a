(** Property C109: the encrypted camera client and a camera that speaks the protocol. *)
From Verif Require Import Base Base_Lemmas Crypto_Model Crypto_Proofs Cam_Model Cam_Spec Cam_Proofs CamPeer_Spec CamPeer_Proofs.
From Verif Require Klap_Model Aes_Props.
Open Scope string_scope.
Open Scope list_scope.
Open Scope Z_scope.

(** While nothing goes wrong, sending through the transport is calling the camera directly. *)
Theorem cam_transparent : forall enc_block dec_block json_loads md5_hex sha256_hex sha256 str_int str_json wrap cfg
    user pass S app d es t d' outs,
  Aes_Props.cipher_ok enc_block dec_block -> (forall b, length (sha256 b) = 32%nat) ->
  (forall s, str_json (JStr s) = s) ->
  speaks json_loads S app -> knows md5_hex sha256_hex cfg user pass ->
  together enc_block dec_block json_loads md5_hex sha256_hex sha256 str_int str_json wrap cfg user pass S app
    (init cfg, d) es (t, d') outs ->
  all_healthy md5_hex sha256_hex cfg S es ->
  dv_state d' = fst (directly json_loads S app (dv_state d) es) /\
  map snd outs = snd (directly json_loads S app (dv_state d) es).
Proof.
  intros enc_block dec_block json_loads md5_hex sha256_hex sha256 str_int str_json wrap cfg user pass S app d es t d' outs
    (H1 & H2) Hs Hst Hj Hk HT Hh.
  refine (together_alive enc_block dec_block json_loads md5_hex sha256_hex sha256 str_int str_json wrap cfg user pass S app
            H1 H2 Hs Hst Hj (proj1 Hk) _ _ _ _ _ HT (init_alive _ _ _ _ _) Hk Hh).
Qed.
Print Assumptions cam_transparent.

(** Whatever goes wrong, one send has the effect of the request at most once, and an answer it
    returns is the camera's answer to that very request. *)
Theorem cam_at_most_once : forall enc_block dec_block json_loads md5_hex sha256_hex sha256 str_int str_json wrap cfg
    user pass S app d es y outs,
  Aes_Props.cipher_ok enc_block dec_block -> (forall b, length (sha256 b) = 32%nat) ->
  (forall s, str_json (JStr s) = s) ->
  speaks json_loads S app -> user <> "" ->
  together enc_block dec_block json_loads md5_hex sha256_hex sha256 str_int str_json wrap cfg user pass S app
    (init cfg, d) es y outs ->
  Forall (fun o : bytes * S * S * res json => let '(m, s, s1, r) := o in
    let (s2, answer) := app s m in
    (s1 = s /\ exists e, r = Err e) \/
    (s1 = s2 /\ (r = understood json_loads answer \/ exists e, r = Err e))) outs.
Proof.
  intros enc_block dec_block json_loads md5_hex sha256_hex sha256 str_int str_json wrap cfg user pass S app d es y outs
    (H1 & H2) Hs Hst Hj Hu HT.
  destruct (together_linked enc_block dec_block json_loads md5_hex sha256_hex sha256 str_int str_json wrap cfg user pass S app
            H1 H2 Hs Hst Hj Hu _ _ _ _ _ HT (init_linked _ _ _ _)) as (_ & HF).
  eapply Forall_impl; [|exact HF]. intros [[[m s] s1] r] H. destruct (app s m) as [s2 answer]. exact H.
Qed.
Print Assumptions cam_at_most_once.

(** After any trouble, a reset (which every retry of a query makes) is enough. *)
Theorem cam_recovers : forall enc_block dec_block json_loads md5_hex sha256_hex sha256 str_int str_json wrap cfg
    user pass S app d before after t d' outs,
  Aes_Props.cipher_ok enc_block dec_block -> (forall b, length (sha256 b) = 32%nat) ->
  (forall s, str_json (JStr s) = s) ->
  speaks json_loads S app -> knows md5_hex sha256_hex cfg user pass ->
  together enc_block dec_block json_loads md5_hex sha256_hex sha256 str_int str_json wrap cfg user pass S app
    (init cfg, d) (before ++ HReset :: after) (t, d') outs ->
  all_healthy md5_hex sha256_hex cfg S after ->
  exists t0 d0 outs0 outs1,
    together enc_block dec_block json_loads md5_hex sha256_hex sha256 str_int str_json wrap cfg user pass S app
      (init cfg, d) before (t0, d0) outs0 /\
    outs = outs0 ++ outs1 /\
    dv_state d' = fst (directly json_loads S app (dv_state d0) after) /\
    map snd outs1 = snd (directly json_loads S app (dv_state d0) after).
Proof.
  intros enc_block dec_block json_loads md5_hex sha256_hex sha256 str_int str_json wrap cfg user pass S app d before after t d' outs
    (H1 & H2) Hs Hst Hj Hk HT Hh.
  destruct (together_split _ _ _ _ _ _ _ _ _ _ _ _ _ _ _ _ _ _ _ _ HT) as (t0 & d0 & o0 & o1 & A & B & ->).
  exists t0, d0, o0, o1. split; [exact A|]. split; [reflexivity|].
  inversion B; subst.
  destruct (together_linked enc_block dec_block json_loads md5_hex sha256_hex sha256 str_int str_json wrap cfg user pass S app
            H1 H2 Hs Hst Hj (proj1 Hk) _ _ _ _ _ A (init_linked _ _ _ _)) as (HL & _).
  match goal with HX : together _ _ _ _ _ _ _ _ _ _ _ _ _ _ (reset t0, d0) _ _ _ |- _ =>
    refine (together_alive enc_block dec_block json_loads md5_hex sha256_hex sha256 str_int str_json wrap cfg user pass S app
            H1 H2 Hs Hst Hj (proj1 Hk) _ _ _ _ _ HX _ Hk Hh) end.
  exact (reset_alive _ _ _ _ _ _ _ HL).
Qed.
Print Assumptions cam_recovers.

(** ** An example: a camera that adds up what it is sent, and knows only the default user name *)
Definition count_app (s : nat) (m : bytes) : nat * bytes := ((s + length m)%nat, repeat "x"%char (s + length m)).
Definition toy_json (b : bytes) : option json := Some (JInt (Z.of_nat (length b))).
Definition toy_md5 (b : bytes) : string := ("M" ++ string_of_list_ascii b)%string.
Definition toy_hex (b : bytes) : string := ("S" ++ string_of_list_ascii b)%string.
Definition toy_sha (b : bytes) : bytes := firstn 32 (b ++ repeat "0"%char 32).
Definition toy_str (j : json) : string := match j with JStr s => s | _ => "" end.
Definition toy_int (z : Z) : string := string_of_list_ascii (repeat "1"%char (Z.to_nat z)).
Definition toy_cfg : config := mkCfg (Some ("me", "pw")) None.
Definition toy_pass : string := toy_md5 (lit "pw").

Example toy_speaks : speaks toy_json nat count_app.
Proof. intros s m. eexists. reflexivity. Qed.
Example toy_knows : knows toy_md5 toy_hex toy_cfg "admin" toy_pass /\ user_name toy_cfg = Some "me".
Proof. split; [|reflexivity]. split; [discriminate|]. split; right; reflexivity. Qed.
Example toy_oracles : Aes_Props.cipher_ok (fun _ b => b) (fun _ b => b) /\ (forall b, length (toy_sha b) = 32%nat) /\
  (forall s, toy_str (JStr s) = s).
Proof.
  split; [split; auto|]. split; [|reflexivity]. intros b. unfold toy_sha. rewrite firstn_length, app_length, repeat_length. lia.
Qed.

Notation t_send := (send (fun _ b => b) (fun _ b => b) toy_json toy_md5 toy_hex toy_sha toy_int toy_str (fun b => b) toy_cfg).
Notation t_secure := (on_secure (fun _ b => b) (fun _ b => b) toy_hex toy_int (fun b => b) toy_pass nat count_app).

(** What the camera answers to the posts, put into the world. *)
Fixpoint feed (h : choice) (w : world) (d : device nat) (p : list post) : world :=
  match p with
  | [] => w
  | PHello def u n :: p =>
      let (d1, r) := on_hello toy_hex "admin" toy_pass nat (if def then h_hello2 h else h_hello h) u n d in
      feed h (if def then mkW (w_n1 w) (w_n2 w) (w_hello w) (w_plain w) r (w_plain2 w) (w_proof w) (w_req w)
              else mkW (w_n1 w) (w_n2 w) r (w_plain w) (w_hello2 w) (w_plain2 w) (w_proof w) (w_req w)) d1 p
  | PProof u n dg :: p =>
      let (d1, r) := on_proof toy_hex toy_sha "admin" toy_pass nat (h_proof h) u n dg d in
      feed h (mkW (w_n1 w) (w_n2 w) (w_hello w) (w_plain w) (w_hello2 w) (w_plain2 w) r (w_req w)) d1 p
  | PSecure k pl q tag :: p =>
      let (d1, r) := t_secure (h_request h) k pl q tag d in
      feed h (mkW (w_n1 w) (w_n2 w) (w_hello w) (w_plain w) (w_hello2 w) (w_plain2 w) (w_proof w) r) d1 p
  | _ :: p => feed h w d p
  end.
Fixpoint again {A} (n : nat) (f : A -> A) (x : A) : A := match n with O => x | Datatypes.S n => again n f (f x) end.
Definition arranged (h : choice) (t : cam) (d : device nat) (m : bytes) : world :=
  let bad := Err KKasa in
  again 6 (fun w => feed h w d (log (fst (t_send w m (cleared t))))) (mkW "n1" "n2" bad bad bad bad bad bad).
Definition fine (k : string) : choice :=
  mkChoice (mkGreeting "A" Answered) Answered (mkGreeting "B" Answered) Answered (mkGrant k 7 Answered) Answered.

Definition d0 : device nat := mkDev None [] 5%nat.
Definition w1 := Eval vm_compute in arranged (fine "a") (init toy_cfg) d0 (lit "four").
Definition t1 := Eval vm_compute in fst (t_send w1 (lit "four") (init toy_cfg)).
Definition d1 : device nat := Eval vm_compute in
  match sess t1 with Some s => mkDev None [mkD "a" s "n2" 8] 9%nat | None => d0 end.
Definition w2 := Eval vm_compute in arranged (fine "b") t1 d1 (lit "xy").
Definition w3 := Eval vm_compute in arranged (fine "b") t1 (mkDev None [] 9%nat) (lit "xy").
Definition t3 := Eval vm_compute in fst (t_send w3 (lit "xy") (cleared t1)).
Definition w4 := Eval vm_compute in arranged (fine "c") (reset t3) (mkDev None [] 9%nat) (lit "xy").

Ltac show_served := repeat (first [apply served_nil | eapply served_hello; [vm_compute; reflexivity|]
  | eapply served_proof; [vm_compute; reflexivity|] | eapply served_secure; [vm_compute; reflexivity|]]).
Ltac show_send := eapply together_send; [vm_compute; reflexivity|show_served|].
Ltac show_healthy := repeat constructor; vm_compute; congruence.
Notation t_together := (together (fun _ b => b) (fun _ b => b) toy_json toy_md5 toy_hex toy_sha toy_int toy_str (fun b => b) toy_cfg
  "admin" toy_pass nat count_app).

(** The user name is unknown, the default user name works, and two requests go in that session. *)
Example cam_together_ex : exists y outs,
  t_together (init toy_cfg, d0) [HSend (fine "a") w1 (lit "four"); HSend (fine "b") w2 (lit "xy")] y outs
  /\ outs = [(lit "four", 5%nat, 9%nat, Ok (JInt 9)); (lit "xy", 9%nat, 11%nat, Ok (JInt 11))]
  /\ all_healthy toy_md5 toy_hex toy_cfg nat [HSend (fine "a") w1 (lit "four"); HSend (fine "b") w2 (lit "xy")]
  /\ length (log t1) = 4%nat.
Proof.
  do 2 eexists. split; [|split; [|split]].
  - show_send. show_send. apply together_nil.
  - vm_compute. reflexivity.
  - show_healthy.
  - reflexivity.
Qed.
(** The camera restarts in between. *)
Example cam_recovers_ex : exists y outs,
  t_together (init toy_cfg, d0) ([HSend (fine "a") w1 (lit "four"); HForget (fun _ => false); HSend (fine "b") w3 (lit "xy")] ++
                         HReset :: [HSend (fine "c") w4 (lit "xy")]) y outs
  /\ outs = [(lit "four", 5%nat, 9%nat, Ok (JInt 9)); (lit "xy", 9%nat, 9%nat, Err (KRetry (Some (-40401))));
             (lit "xy", 9%nat, 11%nat, Ok (JInt 11))]
  /\ all_healthy toy_md5 toy_hex toy_cfg nat [HSend (fine "c") w4 (lit "xy")].
Proof.
  do 2 eexists. split; [|split].
  - cbn [List.app]. show_send. apply together_forget. show_send. apply together_reset. show_send. apply together_nil.
  - vm_compute. reflexivity.
  - show_healthy.
Qed.

(** Property C114: whole queries over the three other transports. *)
From Verif Require Import Base Base_Lemmas Py Crypto_Model Retry_Model Smart_Model CamQuery_Model Stack_Spec Stack_Proofs Stack2_Spec Stack2_Peers.
From Verif Require Klap_Model Ssl_Model SslPeer_Spec SslPeer_Proofs SslPeer_Props Xor_Model Xor_Proofs XorPeer_Spec XorPeer_Proofs XorPeer_Props
  Linkie_Model Linkie_Props LinkiePeer_Spec LinkiePeer_Proofs LinkiePeer_Props.
Open Scope string_scope.
Open Scope list_scope.
Open Scope Z_scope.

(** A vacuum's client with its device: the client is new, or was reset after any history. *)
Definition ssl_fresh json_loads S app accepts (x : Ssl_Model.ssl * SslPeer_Spec.device S) : Prop :=
  exists d es t o, SslPeer_Spec.together json_loads S app accepts (Ssl_Model.init, d) es (t, snd x) o /\
    (fst x = Ssl_Model.init \/ fst x = Ssl_Model.reset t).
(** A legacy client with its device, after any history. *)
Definition xor_fresh json_loads S app (x : Xor_Model.transport * S) : Prop :=
  exists s es o, XorPeer_Spec.together json_loads S app (Xor_Model.init, s) es x o.

(** ** Vacuums: while nothing goes wrong with the network, the sessions and the device, a program
    that makes queries has the results, the log and the effects it would have if the device was a
    function it calls. *)
Theorem whole_ssl_smart : forall json_loads S app accepts encode script x b qs w' rs y o,
  SslPeer_Spec.knows accepts ->
  ssl_fresh json_loads S app accepts x ->
  ask_all (smart_ask (stack_send _ _ S _ _ ssl_client encode as_dict script)
             (stack_reset _ _ S Ssl_Model.reset))
    (mkW (mkStack (fst x) 0 []) b []) qs = (w', rs) ->
  SslPeer_Spec.together json_loads S app accepts
    x (ssl_happenings (k_trace (wdev w'))) y o ->
  SslPeer_Spec.all_healthy S (ssl_happenings (k_trace (wdev w'))) ->
  exists v', ask_all (smart_ask (direct_send _ S _ _ encode as_dict script app (SslPeer_Spec.understood json_loads)) (fun y => y))
    (mkW (SslPeer_Spec.dv_state (snd x), 0%nat) b []) qs = (v', rs) /\
  fst (wdev v') = SslPeer_Spec.dv_state (snd y) /\ wlog v' = wlog w'.
Proof.
  intros json_loads S app accepts encode script x b qs w' rs y o Hin
    (d & es & t & o0 & HT & Hx) Hq Hr Hh.
  assert (HA : SslPeer_Proofs.alive S (fst x) (snd x)) by (destruct Hx as [-> | ->]; apply (SslPeer_Proofs.fresh_alive S t)).
  refine (smart_transparent _ _ _ _ ssl_client Ssl_Model.reset script app
    (SslPeer_Spec.understood json_loads) SslPeer_Spec.dv_state
    (ssl_runs json_loads S app accepts) _ _ _ _ _ x _ _ y o Hr true _
    encode b qs w' rs eq_refl Hq eq_refl).
  - apply ssl_nil.
  - apply ssl_app.
  - apply ssl_send.
  - apply ssl_reset.
  - apply ssl_det.
  - intros. eapply ssl_once; eassumption.
  - intros _ es0 f c0 m y1 o1 y0 r HF R1 R2. eapply ssl_direct; eassumption.
Qed.
Print Assumptions whole_ssl_smart.

(** Legacy devices on their TCP connection. *)
Theorem whole_xor_iot : forall json_loads S app script x qs w' rs y o,
  XorPeer_Spec.fits S app ->
  xor_fresh json_loads S app x ->
  iot_all (stack_send _ _ S _ _ (xor_client json_loads) plain (@Ok json) script)
    (stack_reset _ _ S Xor_Model.reset) (mkStack (fst x) 0 []) qs = (w', rs) ->
  XorPeer_Spec.together json_loads S app
    x (xor_happenings (k_trace w')) y o ->
  XorPeer_Spec.all_healthy S (xor_happenings (k_trace w')) ->
  exists v', iot_all (direct_send _ S _ _ plain (@Ok json) script app (XorPeer_Spec.understood json_loads)) (fun y => y)
    (snd x, 0%nat) qs = (v', rs) /\
  fst v' = snd y.
Proof.
  intros json_loads S app script x qs w' rs y o Hf 
    (d & es & o0 & HT) Hq Hr Hh.
  destruct (XorPeer_Proofs.together_once json_loads S app Hf _ _ _ _ HT Xor_Proofs.Inv_init) as (HI & _).
  refine (iwhole_transparent _ _ _ _ (xor_client json_loads) Xor_Model.reset script app
    (XorPeer_Spec.understood json_loads) (fun s => s)
    (xor_runs json_loads S app) _ _ _ _ _ x _ _ y o Hr true _
    qs w' rs eq_refl Hq eq_refl).
  - apply xor_nil.
  - apply xor_app.
  - apply xor_send.
  - apply xor_reset.
  - apply xor_det.
  - intros. eapply xor_once; eassumption.
  - intros _ es0 f c0 m y1 o1 y0 r HF R1 R2. eapply xor_direct; eassumption.
Qed.
Print Assumptions whole_xor_iot.

(** Legacy cameras. *)
Theorem whole_linkie_iot : forall b64d json_loads S app script x qs w' rs y o,
  Linkie_Props.reads_base64 b64d ->
  iot_all (stack_send _ _ S _ _ (linkie_client b64d json_loads) plain (@Ok json) script)
    (stack_reset _ _ S linkie_reset) (mkStack tt 0 []) qs = (w', rs) ->
  LinkiePeer_Spec.together b64d json_loads S app
    x (linkie_happenings (k_trace w')) y o ->
  LinkiePeer_Spec.all_healthy S (linkie_happenings (k_trace w')) ->
  exists v', iot_all (direct_send _ S _ _ plain (@Ok json) script app (LinkiePeer_Spec.understood json_loads)) (fun y => y)
    (x, 0%nat) qs = (v', rs) /\
  fst v' = y.
Proof.
  intros b64d json_loads S app script x qs w' rs y o Hb Hq Hr Hh.
  refine (iwhole_transparent _ _ _ _ (linkie_client b64d json_loads) linkie_reset script app
    (LinkiePeer_Spec.understood json_loads) (fun s => s)
    (linkie_runs b64d json_loads S app) _ _ _ _ _ (tt, x) _ _ (tt, y) o Hr true _
    qs w' rs eq_refl Hq eq_refl).
  - apply linkie_nil.
  - apply linkie_app.
  - apply linkie_send.
  - apply linkie_resets.
  - apply linkie_det.
  - intros. eapply linkie_once; eassumption.
  - intros _ es0 f c0 m y1 o1 y0 r HF R1 R2. eapply linkie_direct; eassumption.
Qed.
Print Assumptions whole_linkie_iot.

(** ** Whatever goes wrong, and after any history: every message has taken effect at most once and in
    order, and a query that returns a result has as its last attempt exactly the run that calls the
    device directly, from the state the earlier messages left; nothing comes after it. *)
Theorem whole_ssl_smart_once : forall json_loads S app accepts encode script d es x o0 b qs q rc w1 rs w' tr r y o,
  SslPeer_Spec.together json_loads S app accepts (Ssl_Model.init, d) es x o0 ->
  ask_all (smart_ask (stack_send _ _ S _ _ ssl_client encode as_dict script)
             (stack_reset _ _ S Ssl_Model.reset))
    (mkW (mkStack (fst x) 0 []) b []) qs = (w1, rs) ->
  smart_ask (stack_send _ _ S _ _ ssl_client encode as_dict script)
    (stack_reset _ _ S Ssl_Model.reset) q rc w1 = (w', tr, r) ->
  SslPeer_Spec.together json_loads S app accepts
    x (ssl_happenings (k_trace (wdev w'))) y o ->
  effects _ S app (SslPeer_Spec.dv_state (snd x)) (k_trace (wdev w')) (SslPeer_Spec.dv_state (snd y)) /\
  forall a, r = Ok a -> exists before after s b' l v',
    k_trace (wdev w') = before ++ after /\ effects _ S app (SslPeer_Spec.dv_state (snd x)) before s /\
    smart_execute_query (direct_send _ S _ _ encode as_dict script app (SslPeer_Spec.understood json_loads)) q (mkW (s, sends before) b' l) = (v', Ok a) /\
    wdev v' = (SslPeer_Spec.dv_state (snd y), sends (k_trace (wdev w'))).
Proof.
  intros json_loads S app accepts encode script d es x o0 b qs q rc w1 rs w' tr r y o HT Hqs Hq Hr.
  refine (smart_once _ _ _ _ ssl_client Ssl_Model.reset script app
    (SslPeer_Spec.understood json_loads) SslPeer_Spec.dv_state
    (ssl_runs json_loads S app accepts) _ _ _ _ _ _ _ _ y o Hr false _
    encode b qs q rc w1 rs w' tr r Hqs Hq eq_refl).
  - apply ssl_nil.
  - apply ssl_app.
  - apply ssl_send.
  - apply ssl_reset.
  - apply ssl_det.
  - intros. eapply ssl_once; eassumption.
  - discriminate.
Qed.
Print Assumptions whole_ssl_smart_once.

(** The same for legacy devices on TCP. *)
Theorem whole_xor_iot_once : forall json_loads S app script d es x o0 qs m rc w1 rs w' tr r y o,
  XorPeer_Spec.fits S app ->
  XorPeer_Spec.together json_loads S app (Xor_Model.init, d) es x o0 ->
  iot_all (stack_send _ _ S _ _ (xor_client json_loads) plain (@Ok json) script)
    (stack_reset _ _ S Xor_Model.reset) (mkStack (fst x) 0 []) qs = (w1, rs) ->
  iot_query (fun d => stack_send _ _ S _ _ (xor_client json_loads) plain (@Ok json) script d m)
    (stack_reset _ _ S Xor_Model.reset) rc w1 = (w', tr, r) ->
  XorPeer_Spec.together json_loads S app
    x (xor_happenings (k_trace w')) y o ->
  effects _ S app (snd x) (k_trace w') (snd y) /\
  forall a, r = Ok a -> exists before after s v',
    k_trace w' = before ++ after /\ effects _ S app (snd x) before s /\
    direct_send _ S _ _ plain (@Ok json) script app (XorPeer_Spec.understood json_loads) (s, sends before) m = (v', Ok a) /\
    v' = (snd y, sends (k_trace w')).
Proof.
  intros json_loads S app script d es x o0 qs m rc w1 rs w' tr r y o Hf HT Hqs Hq Hr.
  destruct (XorPeer_Proofs.together_once json_loads S app Hf _ _ _ _ HT Xor_Proofs.Inv_init) as (HI & _).
  refine (iwhole_once _ _ _ _ (xor_client json_loads) Xor_Model.reset script app
    (XorPeer_Spec.understood json_loads) (fun s => s)
    (xor_runs json_loads S app) _ _ _ _ _ _ _ _ y o Hr false _
    qs m rc w1 rs w' tr r Hqs Hq eq_refl).
  - apply xor_nil.
  - apply xor_app.
  - apply xor_send.
  - apply xor_reset.
  - apply xor_det.
  - intros. eapply xor_once; eassumption.
  - discriminate.
Qed.
Print Assumptions whole_xor_iot_once.

(** The same for legacy cameras. *)
Theorem whole_linkie_iot_once : forall b64d json_loads S app script x qs m rc w1 rs w' tr r y o,
  Linkie_Props.reads_base64 b64d ->
  iot_all (stack_send _ _ S _ _ (linkie_client b64d json_loads) plain (@Ok json) script)
    (stack_reset _ _ S linkie_reset) (mkStack tt 0 []) qs = (w1, rs) ->
  iot_query (fun d => stack_send _ _ S _ _ (linkie_client b64d json_loads) plain (@Ok json) script d m)
    (stack_reset _ _ S linkie_reset) rc w1 = (w', tr, r) ->
  LinkiePeer_Spec.together b64d json_loads S app
    x (linkie_happenings (k_trace w')) y o ->
  effects _ S app ( x) (k_trace w') ( y) /\
  forall a, r = Ok a -> exists before after s v',
    k_trace w' = before ++ after /\ effects _ S app ( x) before s /\
    direct_send _ S _ _ plain (@Ok json) script app (LinkiePeer_Spec.understood json_loads) (s, sends before) m = (v', Ok a) /\
    v' = (y, sends (k_trace w')).
Proof.
  intros b64d json_loads S app script x qs m rc w1 rs w' tr r y o Hb Hqs Hq Hr.
  refine (iwhole_once _ _ _ _ (linkie_client b64d json_loads) linkie_reset script app
    (LinkiePeer_Spec.understood json_loads) (fun s => s)
    (linkie_runs b64d json_loads S app) _ _ _ _ _ (tt, x) _ _ (tt, y) o Hr false _
    qs m rc w1 rs w' tr r Hqs Hq eq_refl).
  - apply linkie_nil.
  - apply linkie_app.
  - apply linkie_send.
  - apply linkie_resets.
  - apply linkie_det.
  - intros. eapply linkie_once; eassumption.
  - discriminate.
Qed.
Print Assumptions whole_linkie_iot_once.

(** ** Examples: devices that add up what they are sent. *)
Definition ex_app (s : nat) (m : bytes) : nat * bytes :=
  (Nat.min 100 (s + length m), repeat "x"%char (Nat.min 100 (s + length m))).
Definition ex_obj (n : nat) : json := JObj [("error_code", JInt 0); ("result", JObj [("n", JInt (Z.of_nat n))])].
Definition ex_json (b : bytes) : option json := Some (ex_obj (length b)).
Definition ex_text (n : nat) (r : request) : bytes := match r with Single m _ => Klap_Model.lit m | Batch _ => Klap_Model.lit "batch" end.
Notation lit := Klap_Model.lit.
Section ExSsl.
Import Ssl_Model SslPeer_Spec SslPeer_Props.
Fixpoint xs_feed (h : choice) (w : world) (d : device nat) (p : list post) : world :=
  match p with
  | [] => w
  | PLogin def tok :: p =>
      let (d1, r) := on_login nat toy_accepts (if def then h_login2 h else h_login h) def d in
      xs_feed h (if def then mkW (w_now w) (w_login w) (w_login_at w) r (w_login2_at w) (w_req w)
              else mkW (w_now w) r (w_login_at w) (w_login2 w) (w_login2_at w) (w_req w)) d1 p
  | PRequest tok m :: p =>
      let (d1, r) := on_request ex_json nat ex_app (h_request h) tok (lit m) d in
      xs_feed h (mkW (w_now w) (w_login w) (w_login_at w) (w_login2 w) (w_login2_at w) r) d1 p
  end.
Definition xs_arranged (h : choice) (now : Z) (t : ssl) (d : device nat) (m : bytes) : world :=
  again 4 (fun w => xs_feed h w d (log (fst (send w (string_of_list_ascii m) (cleared t)))))
    (mkW now (Err KKasa) (now + 1) (Err KKasa) (now + 1) (Err KKasa)).
Definition xs_w1 := Eval vm_compute in xs_arranged (fine 0 "a") 0 init d0 (lit "four").
Definition xs_t1 := Eval vm_compute in fst (send xs_w1 "four" init).
Definition xs_w2 := Eval vm_compute in xs_arranged (fine 10 "b") 10 xs_t1 (mkDev (dv_sessions d1) 10%nat) (lit "xy").
Definition xs_w3 := Eval vm_compute in xs_arranged (fine 10 "b") 10 xs_t1 (mkDev [] 10%nat) (lit "xy").
Definition xs_w4 := Eval vm_compute in xs_arranged (fine 20 "c") 20 init (mkDev [] 10%nat) (lit "xy").
Definition xs_script (n : nat) : (nat -> nat) * (option (string -> bool) * choice * world) :=
  match n with O => (fun s => s, (None, fine 0 "a", xs_w1)) | _ => (S, (None, fine 10 "b", xs_w2)) end.
(** The device restarts before the second query. *)
Definition xs_restart (n : nat) : (nat -> nat) * (option (string -> bool) * choice * world) :=
  match n with
  | O => (fun s => s, (None, fine 0 "a", xs_w1))
  | 1%nat => (S, (Some (fun _ => false), fine 10 "b", xs_w3))
  | _ => (fun s => s, (None, fine 20 "c", xs_w4))
  end.
Notation xs_together := (together ex_json nat ex_app toy_accepts).
Example whole_ssl_smart_ex :
  ssl_fresh ex_json nat ex_app toy_accepts (init, d0) /\ exists w' y o,
  ask_all (smart_ask (stack_send _ _ nat _ _ ssl_client ex_text as_dict xs_script) (stack_reset _ _ nat reset))
    (Smart_Model.mkW (mkStack init 0 []) 5 []) [([("four", JNull)], 3); ([("xy", JNull)], 3)] =
  (w', [([Exec], Ok [("four", RJson (JObj [("n", JInt 9)]))]); ([Exec], Ok [("xy", RJson (JObj [("n", JInt 12)]))])]) /\
  xs_together (init, d0) (ssl_happenings (k_trace (wdev w'))) y o /\
  all_healthy nat (ssl_happenings (k_trace (wdev w'))) /\ dv_state (snd y) = 12%nat.
Proof.
  split; [exists d0, [], init, []; split; [constructor|now left]|].
  do 3 eexists. split; [vm_compute; reflexivity|]. cbn [wdev k_trace ssl_happenings flat_map List.app]. split; [|split].
  - apply together_device. show_send. apply together_device. show_send. apply together_nil.
  - repeat constructor; vm_compute; congruence.
  - reflexivity.
Qed.
(** The second query is refused without effect, the client resets, tries again and gets the answer. *)
Example whole_ssl_smart_once_ex : exists w1 rs w' y o,
  ask_all (smart_ask (stack_send _ _ nat _ _ ssl_client ex_text as_dict xs_restart) (stack_reset _ _ nat reset))
    (Smart_Model.mkW (mkStack init 0 []) 5 []) [([("four", JNull)], 3)] = (w1, rs) /\
  smart_ask (stack_send _ _ nat _ _ ssl_client ex_text as_dict xs_restart) (stack_reset _ _ nat reset) [("xy", JNull)] 3 w1 =
    (w', [Exec; Reset; Sleep; Exec], Ok [("xy", RJson (JObj [("n", JInt 12)]))]) /\
  xs_together (init, d0) (ssl_happenings (k_trace (wdev w'))) y o /\ dv_state (snd y) = 12%nat.
Proof.
  do 5 eexists. split; [vm_compute; reflexivity|]. split; [vm_compute; reflexivity|].
  cbn [wdev k_trace ssl_happenings flat_map List.app]. split.
  - apply together_device. show_send. apply together_device. apply together_forget. show_send.
    apply together_reset. apply together_device. show_send. apply together_nil.
  - reflexivity.
Qed.
End ExSsl.
Section ExXor.
Import Xor_Model XorPeer_Spec XorPeer_Props.
Definition xx_script (n : nat) : (nat -> nat) * (connect_fate * exec_fate * bool * bytes) :=
  match n with O => (fun s => s, (COk, XOk, true, answers 9)) | _ => (S, (COk, XOk, true, answers 12)) end.
(** The answer to the second request breaks off after the device acted on it. *)
Definition xx_broken (n : nat) : (nat -> nat) * (connect_fate * exec_fate * bool * bytes) :=
  match n with
  | O => (fun s => s, (COk, XOk, true, answers 9))
  | 1%nat => (S, (COk, XFail FException 6 true, true, answers 12))
  | _ => (fun s => s, (COk, XOk, true, answers 14))
  end.
Ltac xx_send := eapply together_send; [vm_compute; reflexivity|vm_compute; reflexivity|].
Example whole_xor_iot_ex : fits nat ex_app /\ xor_fresh ex_json nat ex_app (init, 5%nat) /\ exists w' y o,
  iot_all (stack_send _ _ nat _ _ (xor_client ex_json) plain (@Ok json) xx_script) (stack_reset _ _ nat reset)
    (mkStack init 0 []) [(lit "four", 3); (lit "xy", 3)] = (w', [([Exec], Ok (ex_obj 9)); ([Exec], Ok (ex_obj 12))]) /\
  together ex_json nat ex_app (init, 5%nat) (xor_happenings (k_trace w')) y o /\
  all_healthy nat (xor_happenings (k_trace w')) /\ snd y = 12%nat.
Proof.
  split; [exact toy_fits|]. split; [exists 5%nat, [], []; constructor|].
  do 3 eexists. split; [vm_compute; reflexivity|]. cbn [k_trace xor_happenings flat_map List.app]. split; [|split].
  - apply together_device. xx_send. apply together_device. xx_send. apply together_nil.
  - repeat constructor.
  - reflexivity.
Qed.
(** The retry sends the request again: an answer lost on the way costs a second effect. *)
Example whole_xor_iot_once_ex : exists w1 rs w' y o,
  iot_all (stack_send _ _ nat _ _ (xor_client ex_json) plain (@Ok json) xx_broken) (stack_reset _ _ nat reset)
    (mkStack init 0 []) [(lit "four", 3)] = (w1, rs) /\
  iot_query (fun d => stack_send _ _ nat _ _ (xor_client ex_json) plain (@Ok json) xx_broken d (lit "xy")) (stack_reset _ _ nat reset) 3 w1 =
    (w', [Exec; Reset; Exec], Ok (ex_obj 14)) /\
  together ex_json nat ex_app (init, 5%nat) (xor_happenings (k_trace w')) y o /\ snd y = 14%nat.
Proof.
  do 5 eexists. split; [vm_compute; reflexivity|]. split; [vm_compute; reflexivity|].
  cbn [k_trace xor_happenings flat_map List.app]. split.
  - apply together_device. xx_send. apply together_device. xx_send. apply together_reset. apply together_device. xx_send. apply together_nil.
  - reflexivity.
Qed.
End ExXor.
Section ExLinkie.
Import Linkie_Model LinkiePeer_Spec LinkiePeer_Props.
Definition xl_script (n : nat) : (nat -> nat) * (fate * res (Z * bytes)) :=
  match n with O => (fun s => s, (Answered, ok 9)) | _ => (S, (Answered, ok 12)) end.
Definition xl_lost (n : nat) : (nat -> nat) * (fate * res (Z * bytes)) :=
  match n with
  | O => (fun s => s, (Answered, ok 9))
  | 1%nat => (S, (NotArrived KTimeout, Err KTimeout))
  | _ => (fun s => s, (Answered, ok 12))
  end.
Ltac xl_send := eapply together_send; [vm_compute; reflexivity|eapply served_post; [vm_compute; reflexivity|apply served_nil]|].
Example whole_linkie_iot_ex : exists w' y o,
  iot_all (stack_send _ _ nat _ _ (linkie_client b64decode ex_json) plain (@Ok json) xl_script) (stack_reset _ _ nat linkie_reset)
    (mkStack tt 0 []) [(lit "four", 3); (lit "xy", 3)] = (w', [([Exec], Ok (ex_obj 9)); ([Exec], Ok (ex_obj 12))]) /\
  together b64decode ex_json nat ex_app 5%nat (linkie_happenings (k_trace w')) y o /\
  all_healthy nat (linkie_happenings (k_trace w')) /\ y = 12%nat.
Proof.
  do 3 eexists. split; [vm_compute; reflexivity|]. cbn [k_trace linkie_happenings flat_map List.app]. split; [|split].
  - apply together_device. xl_send. apply together_device. xl_send. apply together_nil.
  - repeat constructor.
  - reflexivity.
Qed.
Example whole_linkie_iot_once_ex : exists w1 rs w' y o,
  iot_all (stack_send _ _ nat _ _ (linkie_client b64decode ex_json) plain (@Ok json) xl_lost) (stack_reset _ _ nat linkie_reset)
    (mkStack tt 0 []) [(lit "four", 3)] = (w1, rs) /\
  iot_query (fun d => stack_send _ _ nat _ _ (linkie_client b64decode ex_json) plain (@Ok json) xl_lost d (lit "xy")) (stack_reset _ _ nat linkie_reset) 3 w1 =
    (w', [Exec; Reset; Exec], Ok (ex_obj 12)) /\
  together b64decode ex_json nat ex_app 5%nat (linkie_happenings (k_trace w')) y o /\ y = 12%nat.
Proof.
  do 5 eexists. split; [vm_compute; reflexivity|]. split; [vm_compute; reflexivity|].
  cbn [k_trace linkie_happenings flat_map List.app]. split.
  - apply together_device. xl_send. apply together_device. xl_send. apply together_reset. apply together_device. xl_send. apply together_nil.
  - reflexivity.
Qed.
End ExLinkie.

(** Commands of the modules of legacy devices (C150). *)
From Coq Require Import Lia.
From Verif Require Import Base Base_Lemmas Py Iot_Model Service_Model Service_Spec.
Open Scope string_scope.
Open Scope list_scope.
Open Scope Z_scope.

(** ** C150 *)
Lemma service_context o m svc : service o m = Some svc -> svc <> "context".
Proof. destruct o, m; cbn; intro H; try discriminate H; injection H as <-; discriminate. Qed.
Lemma obeys_call p x : exists a, (match snd (call_of p) with Some a => a | None => JObj [] end) = JObj a /\ obeys (fst (call_of p)) a x = done p x.
Proof. destruct p; try (eexists; split; reflexivity); destruct b; eexists; split; reflexivity. Qed.
Lemma same_socket_spec a b : same_socket a b = true <-> a = b.
Proof.
  destruct a, b; cbn; split; intro H; try discriminate; try reflexivity.
  - apply String.eqb_eq in H. congruence.
  - injection H as ->. apply seqb_refl.
Qed.
Lemma taken h o m svc p : service o m = Some svc ->
  forall s v, takes h (create_request svc (fst (call_of p)) (snd (call_of p)) (child_of o)) s v =
    if same_socket s (socket_of o) && String.eqb v svc then done p (h s v) else h s v.
Proof.
  intros Hs s v. pose proof (service_context _ _ _ Hs) as N. destruct (obeys_call p (h s v)) as (a & Ea & Hp).
  assert (B : forall r, dget svc r = Some (JObj [(fst (call_of p), JObj a)]) -> (forall k, k <> svc -> k <> "context" -> dget k r = None) ->
    addressee r = socket_of o -> takes h (JObj r) s v = if same_socket s (socket_of o) && String.eqb v svc then done p (h s v) else h s v).
  { intros r Hr Hk Ha. cbn [takes]. rewrite Ha. destruct (same_socket s (socket_of o)); [|reflexivity]. cbn [andb].
    destruct (String.eqb_spec v "context") as [->|Nc].
    - cbn [negb]. destruct (String.eqb_spec "context" svc); [congruence|reflexivity].
    - cbn [negb]. destruct (String.eqb_spec v svc) as [->|Nv]; [rewrite Hr; cbn [fold_left fst snd]; exact Hp|].
      rewrite (Hk v Nv Nc). reflexivity. }
  unfold create_request. rewrite Ea.
  assert (P : forall k, k <> svc -> String.eqb k svc = false) by (intros k H; apply String.eqb_neq, H).
  destruct o; cbn [child_of map]; apply B; unfold addressee; cbn [dget socket_of]; rewrite ?seqb_refl; try reflexivity;
    try (intros k Hk Hc; rewrite ?(P k Hk); try reflexivity; apply String.eqb_neq in Hc; rewrite Hc; reflexivity);
    try (destruct (String.eqb_spec "context" svc); [congruence|reflexivity]).
  destruct (String.eqb_spec svc "context"); [congruence|reflexivity].
Qed.

(** Each module of an object speaks to the service that devices of its family have for it. *)
Theorem module_service : forall o m svc, service o m = Some svc <-> offers o m /\ svc = device_service (is_light o) m.
Proof.
  intros o m svc. split.
  - intro H. destruct o, m; cbn in H; try discriminate H; injection H as <-; split; try reflexivity; cbn; eauto; try discriminate; intros; discriminate.
  - intros [Ho ->]. destruct o, m; cbn in *; try reflexivity; exfalso; try congruence.
    + destruct Ho as [H|[H|[i H]]]; discriminate H.
    + destruct Ho as [H|[H|[i H]]]; discriminate H.
    + exact (Ho _ eq_refl).
Qed.
Print Assumptions module_service.

(** The device's answer to a command: what it says of the service, and there of the command *)
Definition answers (svc cmd : string) (body : dict json) (a : res json) : Prop :=
  exists top inner, a = Ok (JObj top) /\ dget svc top = Some (JObj inner) /\
    (forall v, dget "err_code" inner = Some v -> v = JInt 0) /\ dget cmd inner = Some (JObj body).
(** The service as a whole is refused: "module not support" *)
Definition refuses (svc : string) (a : res json) : Prop :=
  exists top inner z, a = Ok (JObj top) /\ dget svc top = Some (JObj inner) /\ dget "err_code" inner = Some (JInt z) /\ z <> 0.
(** The answer does not speak of the service *)
Definition ignores (svc : string) (a : res json) : Prop := exists top, a = Ok (JObj top) /\ dget svc top = None.

Lemma bad_none d : dget "err_code" d = None -> err_code_bad (JObj d) = Ok false.
Proof. intro H. unfold err_code_bad. cbn [jcontains]. unfold dmem. rewrite H. reflexivity. Qed.
Lemma bad_some d z : dget "err_code" d = Some (JInt z) -> err_code_bad (JObj d) = Ok (negb (z =? 0)).
Proof. intro H. unfold err_code_bad. cbn [jcontains jitem]. unfold dmem, dindex. rewrite H. reflexivity. Qed.
Lemma dget_ddel_key k k' (d : dict json) : dget k (ddel k' d) = if String.eqb k k' then None else dget k d.
Proof.
  induction d as [|[q v] d IH]; [destruct (String.eqb k k'); reflexivity|]. cbn [ddel dget].
  destruct (String.eqb_spec k' q) as [<-|N].
  - rewrite IH. destruct (String.eqb k k'); reflexivity.
  - cbn [dget]. destruct (String.eqb_spec k q) as [->|M]; [|exact IH].
    destruct (String.eqb_spec q k'); [congruence|reflexivity].
Qed.

(** A command of a module sends one request.  A device that takes it changes what the command is for, in the
    service of that module, for the device itself or the socket it was given to, and nothing else.  The
    command succeeds with the device's answer, less the error code; it fails if the device could not be
    asked, does not speak of the service, refuses it, or reports an error. *)
Theorem module_command : forall reply o m svc p h log, belongs p m -> m <> Cloud -> service o m = Some svc ->
  exists req r, command reply o svc p log = (log ++ [req], r) /\
    (forall s v, takes h req s v = if same_socket s (socket_of o) && String.eqb v svc then done p (h s v) else h s v) /\
    (forall e, reply req = Err e -> is_exception e = true -> r = Err KKasa) /\
    (ignores svc (reply req) -> r = Err KKasa) /\
    (refuses svc (reply req) -> r = Err KKasa) /\
    (forall d z, answers svc (fst (call_of p)) d (reply req) -> dget "err_code" d = Some (JInt z) -> z <> 0 -> r = Err KKasa) /\
    (forall d, answers svc (fst (call_of p)) d (reply req) -> dget "err_code" d = Some (JInt 0) ->
       exists d', r = Ok (JObj d') /\ forall k, dget k d' = if String.eqb k "err_code" then None else dget k d).
Proof.
  intros reply o m svc p h log Hb Hm Hs. assert (C : is_cloud p = false) by (destruct p; try reflexivity; cbn in Hb; congruence).
  unfold command. destruct (call_of p) as [meth a] eqn:E. rewrite C. eexists _, _. split; [reflexivity|].
  split; [intros s v; pose proof (taken h o m svc p Hs s v) as T; rewrite E in T; exact T|].
  split; [intros e He Hx; rewrite He; cbn [query_helper]; rewrite Hx; reflexivity|].
  split; [intros (top & -> & Ht); unfold query_helper; cbn [jcontains]; unfold dmem; rewrite Ht; reflexivity|].
  split.
  { intros (top & inner & z & -> & Ht & Hi & Hz). unfold query_helper. cbn [jcontains jitem]. unfold dmem, dindex. rewrite Ht. cbn [bind negb].
    rewrite (bad_some _ _ Hi). destruct (Z.eqb_spec z 0); [contradiction|reflexivity]. }
  assert (Q : forall d z, answers svc meth d (reply (create_request svc meth a (child_of o))) -> dget "err_code" d = Some (JInt z) ->
    query_helper svc meth (reply (create_request svc meth a (child_of o))) = if z =? 0 then Ok (JObj (ddel "err_code" d)) else Err KKasa).
  { intros d z (top & inner & -> & Ht & Hi & Hc) Hd. unfold query_helper. cbn [jcontains jitem]. unfold dmem, dindex. rewrite Ht. cbn [bind negb].
    assert (B : err_code_bad (JObj inner) = Ok false).
    { destruct (dget "err_code" inner) as [v|] eqn:Ev; [|exact (bad_none _ Ev)]. rewrite (Hi v eq_refl) in Ev. exact (bad_some _ _ Ev). }
    rewrite B. cbn [bind jcontains jitem]. unfold dmem, dindex. rewrite Hc. cbn [bind negb]. rewrite (bad_some _ _ Hd). cbn [bind].
    destruct (z =? 0); cbn [negb]; [|reflexivity]. cbn [jcontains]. unfold dmem. rewrite Hd. reflexivity. }
  cbn [fst]. split; intros d.
  - intros z Ha Hd Hz. rewrite (Q d z Ha Hd). destruct (Z.eqb_spec z 0); [contradiction|reflexivity].
  - intros Ha Hd. rewrite (Q d 0 Ha Hd). eexists. split; [reflexivity|]. intro k. apply dget_ddel_key.
Qed.
Print Assumptions module_command.

(** Commands to a device and its sockets, one after another *)
Definition order : Type := owner * module * op.
Definition given (q : order) : Prop := let '(o, m, p) := q in belongs p m /\ m <> Cloud /\ service o m <> None.
Definition effect (h : home) (q : order) : home :=
  let '(o, m, p) := q in fun s v =>
    if same_socket s (socket_of o) && match service o m with Some svc => String.eqb v svc | None => false end then done p (h s v) else h s v.
Fixpoint commands (reply : json -> res json) (l : list order) (log : list json) : list json :=
  match l with
  | [] => log
  | (o, m, p) :: l => commands reply l (match service o m with Some svc => fst (command reply o svc p log) | None => log end)
  end.
Definition agree (h h' : home) : Prop := forall s v, h s v = h' s v.
Lemma takes_agree h h' r : agree h h' -> agree (takes h r) (takes h' r).
Proof. intros A s v. unfold takes. destruct r; try apply A. rewrite (A s v). reflexivity. Qed.
Lemma fold_takes_agree l : forall h h', agree h h' -> agree (fold_left takes l h) (fold_left takes l h').
Proof. induction l as [|r l IH]; intros h h' A; [exact A|]. cbn [fold_left]. apply IH, takes_agree, A. Qed.
Lemma commands_log reply l : forall log, Forall given l -> exists reqs, commands reply l log = log ++ reqs /\ List.length reqs = List.length l /\
  forall h h', agree h h' -> agree (fold_left takes reqs h) (fold_left effect l h').
Proof.
  induction l as [|[[o m] p] l IH]; intros log Hl; [exists []; rewrite app_nil_r; repeat split; intros h h' A; exact A|].
  apply Forall_cons_iff in Hl as [(Hb & Hm & Hs) Hl]. destruct (service o m) as [svc|] eqn:E; [|contradiction].
  destruct (module_command reply o m svc p (fun _ _ => mkPart false [] [] [] 0 None "") log Hb Hm E) as (req & r & Hc & _).
  cbn [commands]. rewrite E, Hc. cbn [fst]. destruct (IH (log ++ [req]) Hl) as (reqs & E1 & E2 & E3).
  exists (req :: reqs). rewrite E1, <- app_assoc. split; [reflexivity|]. split; [cbn; now rewrite E2|].
  intros h h' A. cbn [fold_left]. apply E3. intros s v.
  destruct (module_command reply o m svc p h log Hb Hm E) as (req' & r' & Hc' & Ht & _).
  rewrite Hc in Hc'. assert (Er : req = req') by (apply (f_equal fst) in Hc'; cbn in Hc'; apply app_inj_tail in Hc'; tauto). subst req'.
  rewrite Ht. cbn [effect]. rewrite E, (A s v). reflexivity.
Qed.
(** Any history of commands leaves the device as their effects, in that order, would, whatever it answers. *)
Theorem module_commands : forall reply l h, Forall given l ->
  List.length (commands reply l []) = List.length l /\ agree (fold_left takes (commands reply l []) h) (fold_left effect l h).
Proof.
  intros reply l h Hl. destruct (commands_log reply l [] Hl) as (reqs & -> & En & Ea). split; [exact En|]. apply Ea. intros s v. reflexivity.
Qed.
Print Assumptions module_commands.

Lemma delete_each o m svc ids : service o m = Some svc -> forall h,
  rule_ids (fold_left effect (map (fun i => (o, m, DeleteRule i)) ids) h (socket_of o) svc) = filter (fun i => negb (smem i ids)) (rule_ids (h (socket_of o) svc)) /\
  forall s v, ~ (s = socket_of o /\ v = svc) -> fold_left effect (map (fun i => (o, m, DeleteRule i)) ids) h s v = h s v.
Proof.
  intro E. induction ids as [|i ids IH]; intro h.
  - split; [|reflexivity]. cbn [map fold_left]. induction (rule_ids (h (socket_of o) svc)) as [|x l IHl]; [reflexivity|].
    cbn [filter smem existsb negb]. f_equal. exact IHl.
  - cbn [map fold_left]. destruct (IH (effect h (o, m, DeleteRule i))) as [A B]. split.
    + rewrite A. cbn [effect]. rewrite E, seqb_refl, (proj2 (same_socket_spec _ _) eq_refl). cbn [andb done rule_ids].
      induction (rule_ids (h (socket_of o) svc)) as [|x l IHl]; [reflexivity|]. cbn [filter smem existsb].
      unfold smem in *. cbn [existsb]. destruct (String.eqb x i); cbn [negb orb filter]; [exact IHl|].
      destruct (existsb (String.eqb x) ids); cbn [negb]; [exact IHl|now rewrite IHl].
    + intros s v N. rewrite (B s v N). cbn [effect]. rewrite E. destruct (same_socket s (socket_of o)) eqn:Es; [|reflexivity].
      apply same_socket_spec in Es. destruct (String.eqb_spec v svc); [tauto|reflexivity].
Qed.
(** Deleting one by one every rule a service has leaves it none, and every other service and socket its own. *)
Theorem rules_deleted : forall reply o m svc ids h, (m = Schedule \/ m = Antitheft \/ m = Countdown) -> service o m = Some svc ->
  (forall i, In i (rule_ids (h (socket_of o) svc)) -> In i ids) ->
  let h' := fold_left takes (commands reply (map (fun i => (o, m, DeleteRule i)) ids) []) h in
  rule_ids (h' (socket_of o) svc) = [] /\ forall s v, ~ (s = socket_of o /\ v = svc) -> h' s v = h s v.
Proof.
  intros reply o m svc ids h Hm E Hi h'.
  assert (G : Forall given (map (fun i => (o, m, DeleteRule i)) ids)).
  { apply Forall_forall. intros q Hq. apply in_map_iff in Hq as (i & <- & _). split; [exact Hm|]. split; [destruct Hm as [->|[->| ->]]; discriminate|congruence]. }
  destruct (module_commands reply _ h G) as [_ A]. destruct (delete_each o m svc ids E h) as [B C]. split.
  - unfold h'. rewrite A, B. clear - Hi. induction (rule_ids (h (socket_of o) svc)) as [|x l IHl]; [reflexivity|]. cbn [filter].
    rewrite (proj2 (smem_In x ids)) by (apply Hi; now left). cbn [negb]. apply IHl. intros i I. apply Hi. now right.
  - intros s v N. unfold h'. rewrite A. exact (C s v N).
Qed.
Print Assumptions rules_deleted.

(** Commands of the cloud module send nothing: whatever the device, binding it to an account, removing it
    from its account or choosing its server succeeds, with a request as result, and leaves it as it was. *)
Definition cloud_commands_work : Prop := forall reply o svc p h, belongs p Cloud -> service o Cloud = Some svc ->
  let (log, r) := command reply o svc p [] in (exists j, r = Ok j) ->
  forall s v, fold_left takes log h s v = if same_socket s (socket_of o) && String.eqb v svc then done p (h s v) else h s v.
Theorem cloud_commands_refuted : ~ cloud_commands_work.
Proof.
  intro H. specialize (H (fun _ => Err KTimeout) OPlug "cnCloud" CloudDisconnect (fun _ _ => mkPart false [] [] [] 0 (Some "me@example.com") "") eq_refl eq_refl).
  cbn in H. specialize (H (ex_intro _ _ eq_refl) None "cnCloud"). cbn in H. discriminate H.
Qed.
Print Assumptions cloud_commands_refuted.
Theorem cloud_commands_send_nothing : forall reply o svc p log, belongs p Cloud -> service o Cloud = Some svc ->
  exists req, command reply o svc p log = (log, Ok req) /\
    forall h s v, takes h req s v = if same_socket s (socket_of o) && String.eqb v svc then done p (h s v) else h s v.
Proof.
  intros reply o svc p log Hb Hs. assert (C : is_cloud p = true) by (destruct p; try reflexivity; cbn in Hb; try discriminate Hb; destruct Hb as [H|[H|H]]; discriminate H).
  unfold command. destruct (call_of p) as [meth a] eqn:E. rewrite C. eexists. split; [reflexivity|].
  intros h s v. pose proof (taken h o Cloud svc p Hs s v) as T. rewrite E in T. exact T.
Qed.
Print Assumptions cloud_commands_send_nothing.

(** ** Cases *)
Definition a_home : home := fun s v =>
  if same_socket s (Some "8006E1") && String.eqb v "schedule" then mkPart true ["A1"; "B2"] [5; 7] [] 0 None ""
  else if same_socket s None && String.eqb v "schedule" then mkPart true ["A1"] [3] [] 0 None "" else mkPart false [] [] [] 0 None "".
Definition fine (svc cmd : string) : json -> res json := fun _ => Ok (JObj [(svc, JObj [(cmd, JObj [("err_code", JInt 0)])])]).
Example module_command_ex :
  let '(log, r) := command (fine "schedule" "delete_rule") (OSocket "8006E1") "schedule" (DeleteRule "A1") [] in
  let h := fold_left takes log a_home in
  belongs (DeleteRule "A1") Schedule /\ service (OSocket "8006E1") Schedule = Some "schedule" /\
  answers "schedule" "delete_rule" [("err_code", JInt 0)] (fine "schedule" "delete_rule" JNull) /\
  r = Ok (JObj []) /\ rule_ids (h (Some "8006E1") "schedule") = ["B2"] /\ runtime (h (Some "8006E1") "schedule") = [5; 7] /\ h None "schedule" = a_home None "schedule".
Proof.
  repeat split; try (now left). eexists _, _. split; [reflexivity|]. split; [reflexivity|]. split; [intros v H; discriminate H|reflexivity].
Qed.
Example module_refused_ex :
  let f := fun _ : json => Ok (JObj [("smartlife.iot.LAS", JObj [("err_code", JInt (-1)); ("err_msg", JStr "module not support")])]) in
  refuses "smartlife.iot.LAS" (f JNull) /\ snd (command f OSwitch "smartlife.iot.LAS" (AmbientLimit 20) []) = Err KKasa.
Proof. split; [|reflexivity]. eexists _, _, (-1). repeat split; discriminate. Qed.
Example rules_deleted_ex :
  let h := fold_left takes (commands (fine "schedule" "delete_rule") (map (fun i => (OSocket "8006E1", Schedule, DeleteRule i)) ["B2"; "A1"]) []) a_home in
  rule_ids (h (Some "8006E1") "schedule") = [] /\ rule_ids (h None "schedule") = ["A1"].
Proof. split; reflexivity. Qed.
Example module_commands_ex :
  Forall given [(OStrip, Schedule, SetEnabled false); (OSocket "8006E1", Usage, EraseUsage); (OSocket "8006E1", Energy, EraseEnergy)].
Proof. repeat constructor; try discriminate; now left. Qed.

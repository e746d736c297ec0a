(** Proofs for [Whole_Props]. *)
From Verif Require Import Base Base_Lemmas Py Codes_Model Retry_Model Smart_Model Smart_Spec Smart_Proofs Smart_Paging_Proofs Smart_Multi_Proofs.
From Verif Require Import Stack_Spec Smod_Model Smod_Spec Whole_Model Whole_Spec.
Open Scope string_scope.
Open Scope list_scope.
Open Scope Z_scope.

(** ** Programs and lists of queries *)
Section Follow.
Context {A R : Type}.
(** The queries [qs] with the results [rs] lead the program to [r] *)
Inductive leads : prog A R -> list (A * Z) -> list (list act * res (dict rval)) -> R -> Prop :=
| leads_ret r : leads (Ret r) [] [] r
| leads_query q n k qs rs tr a r : leads (k a) qs rs r -> leads (Query q n k) ((q, n) :: qs) ((tr, a) :: rs) r.
Lemma perform_leads {D} (one : A -> Z -> world D -> world D * list act * res (dict rval)) p : forall w w' r,
  perform one p w = (w', r) -> exists qs rs, ask_all one w qs = (w', rs) /\ leads p qs rs r.
Proof.
  induction p as [r0|q n k IH]; intros w w' r H; cbn [perform] in H.
  - injection H as <- <-. exists [], []. split; [reflexivity|constructor].
  - destruct (one q n w) as [[w1 tr] a] eqn:E. destruct (IH a _ _ _ H) as (qs & rs & H1 & H2).
    exists ((q, n) :: qs), ((tr, a) :: rs). split; [|now constructor]. cbn [ask_all]. now rewrite E, H1.
Qed.
Lemma leads_perform {D} (one : A -> Z -> world D -> world D * list act * res (dict rval)) p qs rs r : leads p qs rs r ->
  forall w w', ask_all one w qs = (w', rs) -> perform one p w = (w', r).
Proof.
  induction 1 as [r|q n k qs rs tr a r H IH]; intros w w' E; cbn [ask_all perform] in *.
  - now injection E as <-.
  - destruct (one q n w) as [[w1 tr1] a1]. destruct (ask_all one w1 qs) as [w2 rs2] eqn:E2. injection E as <- <- <- <-. now apply IH.
Qed.
(** What holds of lists of queries holds of programs *)
Lemma perform_transfer {D E} (one : A -> Z -> world D -> world D * list act * res (dict rval))
    (two : A -> Z -> world E -> world E * list act * res (dict rval)) (w w' : world D) (v : world E) (Q : world E -> Prop) (p : prog A R) r :
  perform one p w = (w', r) ->
  (forall qs rs, ask_all one w qs = (w', rs) -> exists v', ask_all two v qs = (v', rs) /\ Q v') ->
  exists v', perform two p v = (v', r) /\ Q v'.
Proof.
  intros H G. destruct (perform_leads _ _ _ _ _ H) as (qs & rs & H1 & H2). destruct (G _ _ H1) as (v' & H3 & H4).
  exists v'. split; [|exact H4]. exact (leads_perform _ _ _ _ _ H2 _ _ H3).
Qed.
End Follow.

(** ** Sessions are histories *)
Definition net_of (l : list (res (dict reply))) : net := fun i _ => nth i l (Err Cancelled).
Section Histories.
Variable par : string -> json.
Context {D R : Type}.
Variable one : dict json -> Z -> world D -> world D * list act * res (dict rval).
Notation perform := (@perform D (dict json) R one).
Lemma alone_net req : forall (k : res (dict reply) -> prog (dict json) R) w out, perform (alone par req k) w = out ->
    exists l w1, forall n i, (forall j ks, n (i + j)%nat ks = nth j l (Err Cancelled)) -> perform (k (one_by_one n i req)) w1 = out.
Proof.
  induction req as [|x req IH]; intros k w out H; cbn [alone] in H.
  - exists [], w. intros n i _. exact H.
  - cbn [Whole_Model.perform] in H. destruct (one [(x, par x)] RETRIES w) as [[w1 tr] r] eqn:E.
    set (a := match r with Ok r => Ok (keep r) | Err e => Err e end).
    destruct r as [r|e].
    + destruct (IH _ _ _ H) as (l & w2 & G). exists (a :: l), w2. intros n i Hn. cbn [one_by_one].
      pose proof (Hn O [x]) as H0. rewrite Nat.add_0_r in H0. rewrite H0. cbn [nth a bind].
      apply G. intros j ks. replace (S i + j)%nat with (i + S j)%nat by lia. rewrite Hn. reflexivity.
    + destruct (is_exception e) eqn:Ee.
      * destruct (IH _ _ _ H) as (l & w2 & G). exists (a :: l), w2. intros n i Hn. cbn [one_by_one].
        pose proof (Hn O [x]) as H0. rewrite Nat.add_0_r in H0. rewrite H0. cbn [nth a]. rewrite Ee. cbn [bind].
        apply G. intros j ks. replace (S i + j)%nat with (i + S j)%nat by lia. rewrite Hn. reflexivity.
      * exists [a], w1. intros n i Hn. cbn [one_by_one].
        pose proof (Hn O [x]) as H0. rewrite Nat.add_0_r in H0. rewrite H0. cbn [nth a]. rewrite Ee. cbn [bind]. exact H.
Qed.
Lemma ask_for_net req (k : res (dict reply) -> prog (dict json) R) w out : perform (ask_for par req k) w = out ->
  exists l w1, forall n, (forall j ks, n (S j) ks = nth j l (Err Cancelled)) -> perform (k (ask n req)) w1 = out.
Proof.
  unfold ask_for. cbn [Whole_Model.perform]. destruct (one (with_params par req) RETRIES w) as [[w1 tr] r] eqn:E. intros H.
  destruct r as [r|e]; [|destruct (is_exception e) eqn:Ee].
  - exists [Ok (keep r)], w1. intros n Hn. unfold ask. rewrite (Hn O). exact H.
  - destruct (alone_net _ _ _ _ H) as (l & w2 & G). exists (Err e :: l), w2. intros n Hn. unfold ask. rewrite (Hn O). cbn [nth]. rewrite Ee.
    apply G. intros j ks. apply (Hn (S j)).
  - exists [Err e], w1. intros n Hn. unfold ask. rewrite (Hn O). cbn [nth]. rewrite Ee. exact H.
Qed.
Lemma update_modules_net first now d (k : dev * report * res unit -> prog (dict json) R) w out : perform (update_modules par first now d k) w = out ->
  exists l w1, forall n, (forall j ks, n (S j) ks = nth j l (Err Cancelled)) -> perform (k (modular_update n first now d)) w1 = out.
Proof. unfold update_modules. intros H. destruct (ask_for_net _ _ _ _ H) as (l & w1 & G). exists l, w1. intros n Hn. exact (G n Hn). Qed.
Lemma update_object_net init now d (k : dev * report * res unit -> prog (dict json) R) w out : perform (update_object par init now d k) w = out ->
  exists n w1, perform (k (update n init now d)) w1 = out.
Proof.
  unfold update_object, update. destruct (started d).
  - intros H. destruct (update_modules_net _ _ _ _ _ _ H) as (l & w1 & G). exists (net_of (Err Cancelled :: l)), w1. now apply G.
  - cbn [Whole_Model.perform]. destruct (one initial_query RETRIES w) as [[w1 tr] r] eqn:E. intros H. destruct r as [r|e].
    2: { exists (fun _ _ => Err e), w1. exact H. }
    assert (S1 : forall l, net_of (Ok (keep r) :: l) 0%nat ["component_nego"; "get_device_info"; "get_connect_cloud_state"] = Ok (keep r)) by reflexivity.
    destruct (try_get "get_device_info" (keep r)) as [i|e] eqn:T.
    2: { exists (net_of [Ok (keep r)]), w1. unfold negotiate. rewrite S1, T. exact H. }
    destruct (init (keep r)) as [l0|e] eqn:I.
    2: { exists (net_of [Ok (keep r)]), w1. unfold negotiate. rewrite S1, T, I. exact H. }
    destruct (update_modules_net _ _ _ _ _ _ H) as (l & w2 & G). exists (net_of (Ok (keep r) :: l)), w2.
    unfold negotiate. rewrite S1, T, I. rewrite <- (G (net_of (Ok (keep r) :: l)) (fun _ _ => eq_refl)).
    now destruct (modular_update _ true now _) as [[d' rp] o].
Qed.
Lemma session_run us : forall d (k : dev * list outcome -> prog (dict json) R) w out, perform (session par us d k) w = out ->
  exists es os w1, Forall2 as_event us es /\ run d es = (fst os, map as_obs (snd os)) /\ perform (k os) w1 = out.
Proof.
  induction us as [|u us IH]; intros d k w out H; cbn [session] in H.
  - exists [], (d, []), w. repeat split; [constructor|exact H].
  - destruct u as [init now|x q].
    + destruct (update_object_net _ _ _ _ _ _ H) as (n & w1 & H1). destruct (update n init now d) as [[d1 r] o] eqn:U.
      destruct (IH _ _ _ _ H1) as (es & [d2 os] & w2 & F & Hr & Hp). exists (EUpdate n init now :: es), (d2, DidUpdate (negb (started d)) now r o :: os), w2.
      split; [constructor; [constructor|exact F]|]. split; [|exact Hp]. cbn [run step]. rewrite U, Hr. reflexivity.
    + cbn [Whole_Model.perform] in H. destruct (one q RETRIES w) as [[w1 tr] r].
      destruct (IH _ _ _ _ H) as (es & [d2 os] & w2 & F & Hr & Hp). exists (ESetter x :: es), (d2, DidSet x r :: os), w2.
      split; [constructor; [constructor|exact F]|]. split; [|exact Hp]. cbn [run step]. rewrite Hr. reflexivity.
Qed.
End Histories.

(** ** The batch size stays *)
Section Batch.
Context {D : Type}.
Definition keeps {A} (m : M (world D) A) : Prop := forall w w' a, m w = (w', Ok a) -> wbatch w' = wbatch w.
Lemma keeps_bind {A B} (m : M (world D) A) (f : A -> M (world D) B) : keeps m -> (forall a, keeps (f a)) -> keeps (mbind m f).
Proof.
  intros Hm Hf w w' b H. unfold mbind in H. destruct (m w) as [w1 [a|e]] eqn:E; [|discriminate H].
  rewrite (Hf _ _ _ _ H). exact (Hm _ _ _ E).
Qed.
Lemma keeps_lift {A} (r : res A) : keeps (mlift r).
Proof. intros w w' a H. unfold mlift in H. now injection H as <- _. Qed.
Lemma keeps_ret {A} (a : A) : keeps (mret a).
Proof. intros w w' b H. unfold mret in H. now injection H as <- _. Qed.
Lemma keeps_fail {A} e : keeps (@mfail _ A e).
Proof. intros w w' b H. discriminate H. Qed.
Variable dev_send : D -> Smart_Model.request -> D * res (dict json).
Lemma keeps_send r : keeps (send dev_send r).
Proof. intros w w' a H. apply send_inv in H. destruct H as (d & _ & ->). reflexivity. Qed.
Hint Resolve keeps_bind keeps_lift keeps_ret keeps_fail keeps_send : keepsdb.
Lemma keeps_single m p : keeps (single_query dev_send m p).
Proof. unfold single_query. apply keeps_bind; [auto with keepsdb|]. intros. apply keeps_bind; auto with keepsdb. Qed.
Lemma keeps_pages next : (forall m p k, keeps (next m p k)) -> forall m p name sum fuel l, keeps (page_loop next fuel m p name sum l).
Proof.
  intros Hn m p name sum. induction fuel as [|fuel IH]; intros l; cbn [page_loop]; destruct (_ <? _); auto with keepsdb.
  apply keeps_bind; [auto|]. intros nb. apply keeps_bind; [auto with keepsdb|]. intros v.
  destruct (negb (truthy v)); [auto with keepsdb|]. apply keeps_bind; auto with keepsdb.
Qed.
Lemma keeps_lists next : (forall m p k, keeps (next m p k)) -> forall m p j, keeps (handle_response_lists next m p j).
Proof.
  intros Hn m p j. unfold handle_response_lists. apply keeps_bind; [auto with keepsdb|].
  intros has. destruct (negb has); [auto with keepsdb|].
  destruct j; auto with keepsdb. destruct (dget "sum" d) as [s|]; auto with keepsdb.
  assert (G : keeps match first_list_key d with
    | Some name => match dget name d with
       | Some (JArr l) => match as_int s with
           | Some n => do! l' <- page_loop next (Z.to_nat (n - Z.of_nat (length l))) m p name n l;;
                       mret (JObj (dset name (JArr l') d))
           | None => mfail PyTypeError end
       | _ => mfail PyTypeError end
    | None => mfail PyRuntime end).
  { destruct (first_list_key d) as [name|]; auto with keepsdb.
    destruct (dget name d) as [[]|]; auto with keepsdb.
    destruct (as_int s); auto with keepsdb.
    apply keeps_bind; auto with keepsdb. now apply keeps_pages. }
  destruct s; auto with keepsdb.
Qed.
Variable handle : string -> json -> json -> M (world D) json.
Hypothesis Hhandle : forall m p j, keeps (handle m p j).
Lemma keeps_unbatched b reqs : forall acc, keeps (unbatched dev_send b reqs acc).
Proof. induction reqs as [|[m p] reqs IH]; intros acc; cbn [unbatched]; auto with keepsdb. Qed.
Lemma keeps_store requests b r acc : keeps (store_response handle requests b r acc).
Proof.
  unfold store_response. destruct r; auto with keepsdb. destruct (negb _); auto with keepsdb.
  destruct (match dget "method" d with Some v => v | None => JNull end); auto with keepsdb.
  apply keeps_bind; [auto with keepsdb|]. intros [c|]; auto with keepsdb.
  apply keeps_bind; [|auto with keepsdb]. destruct (truthy _); auto with keepsdb.
Qed.
Lemma keeps_stores requests b rs : forall acc, keeps (store_responses handle requests b rs acc).
Proof. induction rs as [|r rs IH]; intros acc; cbn [store_responses]; auto with keepsdb. apply keeps_bind; [apply keeps_store|auto]. Qed.
Lemma keeps_check resp : keeps (@check_batch D resp).
Proof.
  intros w w' a. unfold check_batch. destruct (handle_response_error_code resp true) as [|e]; [intros H; now injection H as <- _|].
  destruct e; cbn [is_device_error]; try discriminate; unfold mbind, get_batch; destruct code; try discriminate; destruct (_ && _); discriminate.
Qed.
Lemma keeps_batches requests b bs : forall acc, keeps (send_batches dev_send handle requests b bs acc).
Proof.
  induction bs as [|x bs IH]; intros acc; cbn [send_batches]; auto with keepsdb.
  apply keeps_bind; [auto with keepsdb|]; intros. apply keeps_bind; [apply keeps_check|]; intros.
  apply keeps_bind; [auto with keepsdb|]; intros. apply keeps_bind; [auto with keepsdb|]; intros.
  apply keeps_bind; [auto with keepsdb|]; intros. apply keeps_bind; [apply keeps_stores|auto].
Qed.
Lemma keeps_missing b reqs : forall acc, keeps (query_missing dev_send b reqs acc).
Proof.
  induction reqs as [|[m p] reqs IH]; intros acc; cbn [query_missing]; auto with keepsdb. destruct (dmem m acc); auto.
  apply keeps_bind; [auto with keepsdb|]; intros. apply keeps_bind; [auto with keepsdb|]; intros. auto.
Qed.
End Batch.
Lemma keeps_execute {D} (dev_send : D -> Smart_Model.request -> D * res (dict json)) requests : keeps (smart_execute_query dev_send requests).
Proof.
  assert (Hh : forall m p j, keeps (handle_response_lists (smart_next_page dev_send) m p j)) by (apply keeps_lists; intros; apply keeps_single).
  assert (G : forall requests, keeps (execute_multiple_query dev_send (handle_response_lists (smart_next_page dev_send)) requests)).
  { intros rq w w' a. unfold execute_multiple_query. unfold mbind at 1, get_batch at 1. destruct (wbatch w =? 1).
    - apply keeps_unbatched.
    - revert w w' a. change (keeps (fun w : world D => mbind (send_batches dev_send (handle_response_lists (smart_next_page dev_send)) rq (length rq =? 1)%nat (batches rq (wbatch w)) [])
        (query_missing dev_send (length rq =? 1)%nat rq) w)). intros w w' a H. revert H. apply keeps_bind; [now apply keeps_batches|intros; apply keeps_missing]. }
  destruct requests as [|[m p] [|kv rest]]; try apply G.
  unfold smart_execute_query. apply keeps_bind; [apply keeps_single|]. intros j. apply keeps_bind; [|intros; apply keeps_ret].
  destruct (truthy j); [apply Hh|apply keeps_ret].
Qed.

(** ** Truthful devices *)
Section Honest.
Context {D : Type}.
Variable dev_send : D -> Smart_Model.request -> D * res (dict json).
Variable ans : string -> option json -> answer.
Hypothesis Hh : honest dev_send ans.
Hypothesis Hl : live dev_send.
Hypothesis Hc : complete dev_send.
Variable treset : D -> D.
Notation ask1 := (smart_ask dev_send treset).
Lemma ask_ok requests w w' r : smart_execute_query dev_send requests w = (w', Ok r) -> exists tr, ask1 requests RETRIES w = (w', tr, Ok r).
Proof. intros H. exists [Exec]. unfold smart_ask, smart_query. change (Z.to_nat (RETRIES + 1)) with 4%nat. cbn [smart_loop]. now rewrite H. Qed.
Lemma forced m : In m force_single_request \/ m = "" -> In m ["getConnectStatus"; "scanApList"; ""].
Proof. intros [[F|[F|[]]]|F]; cbn; auto. Qed.
Lemma ask_many requests val w : dwf requests -> length requests <> 1%nat -> 2 <= wbatch w ->
  (forall m p, dget m requests = Some p -> known ans m p (val m)) ->
  exists w' tr r, ask1 requests RETRIES w = (w', tr, Ok r) /\ wbatch w' = wbatch w /\ dwf r /\
    forall m, dget m r = if dmem m requests then Some (val m) else None.
Proof.
  intros Hw Hn Hb Hk.
  destruct (smart_succeeds_lemma dev_send ans Hh requests Hw val Hl w ltac:(lia) Hn (fun m p E _ => proj1 (Hk m p E))) as (w' & r & E).
  destruct (smart_exact_paged_lemma dev_send ans Hh requests Hw val w w' r Hb Hn Hc (fun m p E F => proj2 (Hk m p E) (forced m F)) (fun m p E _ => proj1 (Hk m p E)) E) as (W & G).
  destruct (ask_ok _ _ _ _ E) as (tr & A). exists w', tr, r. split; [exact A|]. split; [exact (keeps_execute _ _ _ _ _ E)|]. now split.
Qed.
Lemma single_ok k p j w : whole ans k (eff_params p) (RJson j) -> exists w', smart_execute_query dev_send [(k, p)] w = (w', Ok [(k, RJson j)]).
Proof.
  intros Hw. assert (A : exists j0, ans k (eff_params p) = AResult j0).
  { inversion Hw as [v Hs|]; subst; [|eauto]. inversion Hs; subst; eauto. }
  destruct A as (j0 & A). destruct (single_live dev_send ans Hh Hl k p w j0 A) as (w1 & E).
  assert (X : exists w' r, smart_execute_query dev_send [(k, p)] w = (w', Ok r)).
  { unfold smart_execute_query. rewrite (mbind_ok _ _ _ _ _ E). destruct (truthy j0) eqn:T.
    - destruct (handle_lists_live dev_send ans Hh Hl k (eff_params p) p (RJson j) j0 w1 Hw A T) as (w2 & j2 & H2).
      rewrite (mbind_ok _ _ _ _ _ H2). unfold mret. eauto.
    - unfold mbind, mret. eauto. }
  destruct X as (w' & r & X). destruct (smart_single_lemma dev_send ans k p _ w w' r Hh Hw X) as (-> & _). eauto.
Qed.
Lemma single_bad k p c w : whole ans k (eff_params p) (RCode c) -> exists w' e, smart_execute_query dev_send [(k, p)] w = (w', Err e) /\
  is_exception e = true /\ wbatch w' = wbatch w.
Proof.
  intros Hw. assert (A : exists c0, ans k (eff_params p) = AError c0).
  { inversion Hw as [v Hs|]; subst. inversion Hs; subst; eauto. }
  destruct A as (c0 & A). unfold smart_execute_query, single_query, mbind, send.
  destruct (Hl (wdev w) (Single k (eff_params p))) as (d' & reply & E). rewrite E.
  pose proof (Hh _ _ _ _ E) as Hr. cbn in Hr. rewrite A in Hr. destruct Hr as (H0 & Hr). unfold mlift.
  rewrite (code_classification_lemma _ _ Hr).
  pose proof (reports_true (AError c0) reply (conj H0 Hr)) as (e & Re & De). rewrite (code_classification_lemma _ _ Hr) in Re. rewrite Re.
  exists (mkW d' (wbatch w) (wlog w ++ [Single k (eff_params p)])), e. split; [reflexivity|]. split; [now destruct e|reflexivity].
Qed.
Lemma loop_bad {A} (exec : M (world D) A) b : (forall w, wbatch w = b -> exists w' e, exec w = (w', Err e) /\ is_exception e = true /\ wbatch w' = b) ->
  forall n r rc w, wbatch w = b -> exists w' tr e, smart_loop exec (on_dev treset) n r rc w = (w', tr, Err e) /\ is_exception e = true /\ wbatch w' = b.
Proof.
  intros H. induction n as [|n IH]; intros r rc w Hb; cbn [smart_loop]; [do 3 eexists; eauto|].
  destruct (H w Hb) as (w1 & e & E & X & B). rewrite E.
  assert (T : wbatch (on_dev treset w1) = b) by exact B.
  destruct e; try discriminate X; cbn [is_kasa];
    try (destruct (r >=? rc)); try (do 3 eexists; split; [reflexivity|split; [reflexivity|assumption]]);
    (destruct (IH (r + 1) rc w1 B) as (w2 & tr & e2 & E2 & X2 & B2) || idtac);
    (destruct (IH (r + 1) rc (on_dev treset w1) T) as (w3 & tr3 & e3 & E3 & X3 & B3));
    rewrite ?E2, ?E3; do 3 eexists; split; try reflexivity; split; assumption.
Qed.
Lemma ask_one k p v w : whole ans k (eff_params p) v -> exists w' tr a, ask1 [(k, p)] RETRIES w = (w', tr, a) /\ wbatch w' = wbatch w /\
  match v with RJson j => a = Ok [(k, RJson j)] | RCode _ => exists e, a = Err e /\ is_exception e = true end.
Proof.
  intros Hw. destruct v as [j|c].
  - destruct (single_ok k p j w Hw) as (w' & E). destruct (ask_ok _ _ _ _ E) as (tr & A). exists w', tr, (Ok [(k, RJson j)]).
    split; [exact A|]. split; [exact (keeps_execute _ _ _ _ _ E)|reflexivity].
  - destruct (loop_bad (smart_execute_query dev_send [(k, p)]) (wbatch w)) with (n := Z.to_nat (RETRIES + 1)) (r := 0) (rc := RETRIES) (w := w) as (w' & tr & e & E & X & B).
    + intros w0 H0. destruct (single_bad k p c w0 Hw) as (w' & e & E & X & B). rewrite H0 in B. eauto.
    + reflexivity.
    + exists w', tr, (Err e). split; [exact E|]. split; [exact B|]. eauto.
Qed.
Lemma keys_with_params par req : dkeys (with_params par req) = req.
Proof. unfold dkeys, with_params. rewrite map_map. cbn [fst]. apply map_id. Qed.
Lemma dget_with_params par req k p : dget k (with_params par req) = Some p -> In k req /\ p = par k.
Proof.
  intros H. apply dget_In in H. unfold with_params in H. apply in_map_iff in H. destruct H as (x & E & I). now injection E as -> <-.
Qed.
Lemma dget_keep k d : dget k (keep d) = option_map kept (dget k d).
Proof. induction d as [|[x v] d IH]; [reflexivity|]. cbn [keep map fst snd dget]. now destruct (String.eqb k x). Qed.
Lemma keys_keep d : dkeys (keep d) = dkeys d.
Proof. unfold dkeys, keep. rewrite map_map. reflexivity. Qed.
Lemma dmem_keys {A} k (d : dict A) : dmem k d = true <-> In k (dkeys d).
Proof.
  unfold dmem. split.
  - destruct (dget k d) as [v|] eqn:E; [|discriminate]. intros _. apply dget_In in E. unfold dkeys. apply in_map_iff. now exists (k, v).
  - intros H. destruct (dget k d) as [v|] eqn:E; [reflexivity|]. exfalso. induction d as [|[x v] d IH]; [exact H|]. cbn [dget dkeys map fst] in *.
    destruct (String.eqb k x) eqn:Q; [discriminate E|]. destruct H as [->|H]; [rewrite String.eqb_refl in Q; discriminate Q|]. exact (IH H E).
Qed.
Section Req.
Variable par : string -> json.
Variable val : string -> rval.
Context {R : Type}.
Lemma ask_for_honest req (k : res (dict reply) -> prog (dict json) R) w : NoDup req -> 2 <= wbatch w ->
  (forall x, In x req -> known ans x (par x) (val x)) ->
  exists w1 resp, wbatch w1 = wbatch w /\ dwf resp /\ (forall x, dget x resp = if in_dec string_dec x req then Some (shown req (val x)) else None) /\
    perform ask1 (ask_for par req k) w = perform ask1 (k (Ok resp)) w1.
Proof.
  intros Hn Hb Hk.
  assert (Hwf : dwf (with_params par req)) by (unfold dwf; now rewrite keys_with_params).
  assert (Hk2 : forall m p, dget m (with_params par req) = Some p -> known ans m p (val m)).
  { intros m p E. destruct (dget_with_params _ _ _ _ E) as (I & ->). auto. }
  assert (Hlen : length (with_params par req) = length req) by (unfold with_params; apply map_length).
  assert (CC : (length req = 1 \/ length req <> 1)%nat) by lia.
  destruct CC as [E|NE].
  - destruct req as [|x [|y req]]; try discriminate E. clear E. destruct (Hk x (or_introl eq_refl)) as (Hw & _).
    destruct (ask_one x (par x) (val x) w Hw) as (w1 & tr & a & E1 & B1 & V). unfold ask_for. cbn [perform with_params map]. rewrite E1.
    destruct (val x) as [j|c] eqn:V0.
    + rewrite V. exists w1, (keep [(x, RJson j)]). split; [exact B1|]. split; [constructor; [intros []|constructor]|]. split; [|reflexivity].
      intros y. cbn [keep map fst snd kept dget]. destruct (in_dec string_dec y [x]) as [[<- |[]]|N].
      * rewrite String.eqb_refl, V0. reflexivity.
      * destruct (String.eqb y x) eqn:Q; [apply String.eqb_eq in Q; subst; exfalso; apply N; now left|reflexivity].
    + destruct V as (e & -> & X). rewrite X. cbn [alone perform].
      destruct (ask_one x (par x) (RCode c) w1 ltac:(exact Hw)) as (w2 & tr2 & a2 & E2 & B2 & (e2 & -> & X2)). rewrite E2, X2. cbn [bind].
      exists w2, [(x, RErr INTERNAL)]. split; [congruence|]. split; [constructor; [intros []|constructor]|]. split; [|reflexivity].
      intros y. cbn [dget]. destruct (in_dec string_dec y [x]) as [[<- |[]]|N].
      * rewrite String.eqb_refl, V0. reflexivity.
      * destruct (String.eqb y x) eqn:Q; [apply String.eqb_eq in Q; subst; exfalso; apply N; now left|reflexivity].
  - destruct (ask_many (with_params par req) val w Hwf ltac:(congruence) Hb Hk2) as (w1 & tr & r & E1 & B1 & W & G).
    exists w1, (keep r). split; [exact B1|]. split; [unfold dwf; rewrite keys_keep; exact W|]. split; [|unfold ask_for; cbn [perform]; now rewrite E1].
    intros x. rewrite dget_keep, G. destruct (in_dec string_dec x req) as [I|N].
    + assert (M : dmem x (with_params par req) = true) by (apply dmem_keys; now rewrite keys_with_params). rewrite M. cbn [option_map]. f_equal.
      unfold shown, kept. destruct (val x); [reflexivity|]. destruct req as [|a [|b req]]; [reflexivity| now contradiction NE |reflexivity].
    + destruct (dmem x (with_params par req)) eqn:M; [|reflexivity]. exfalso. apply N. apply dmem_keys in M. now rewrite keys_with_params in M.
Qed.
End Req.
End Honest.

Lemma add_keys_nodup q : forall req, NoDup req -> NoDup (add_keys req q).
Proof.
  unfold add_keys. induction q as [|x q IH]; intros req H; cbn [fold_left]; [exact H|]. apply IH.
  destruct (smem x req) eqn:E; [exact H|].
  assert (N : ~ In x req) by (intros I; apply smem_In in I; congruence).
  clear - H N. induction req as [|y req IH]; cbn; [repeat constructor; intros []|]. inversion H; subst. constructor.
  - intros I. apply in_app_or in I. destruct I as [I|[<-|[]]]; [auto|]. apply N. now left.
  - apply IH; [assumption|]. intros I. apply N. now right.
Qed.
Lemma request_nodup l : NoDup (Smod_Model.request l).
Proof.
  unfold Smod_Model.request. assert (G : forall l req, NoDup req -> NoDup (fold_left (fun req (mb : smod * bool) => if snd mb then add_keys req (m_query (fst mb)) else req) l req)).
  { induction l0 as [|[m b] l0 IH]; intros req H; cbn [fold_left fst snd]; [exact H|]. apply IH. destruct b; [now apply add_keys_nodup|exact H]. }
  apply G. constructor.
Qed.
Lemma try_get_json k (d : dict reply) i : i <> JNull -> dget k d = Some (RVal i) -> try_get k d = Ok i.
Proof. intros N E. unfold try_get. rewrite E. now destruct i. Qed.
Lemma try_get_inv k (d : dict reply) i : try_get k d = Ok i -> dget k d = Some (RVal i) /\ i <> JNull.
Proof. unfold try_get. destruct (dget k d) as [[j|c]|]; try discriminate. destruct j; try discriminate; intros H; injection H as <-; split; try reflexivity; discriminate. Qed.
Lemma shown_json req v i : shown req v = RVal i <-> v = RJson i.
Proof. destruct v as [j|c]; cbn; [split; intros H; now injection H as ->|]. destruct req as [|a [|b req]]; split; discriminate. Qed.

Lemma json_eq_null (i : json) : i = JNull \/ i <> JNull.
Proof. destruct i; [now left|..]; right; discriminate. Qed.
Section Shows.
Context {D : Type}.
Variable dev_send : D -> Smart_Model.request -> D * res (dict json).
Variable ans : string -> option json -> answer.
Hypothesis Hh : honest dev_send ans.
Hypothesis Hl : live dev_send.
Hypothesis Hc : complete dev_send.
Variable treset : D -> D.
Notation ask1 := (smart_ask dev_send treset).
Variable par : string -> json.
Variable val : string -> rval.
Notation gdi := "get_device_info".
Lemma modules_honest first now d (k : dev * report * res unit -> prog (dict json) (dev * report * res unit)) w w' out :
  2 <= wbatch w -> dwf (lu d) ->
  perform ask1 (update_modules par first now d k) w = (w', out) ->
  (forall x r o, exists r', k (x, r, o) = Ret (x, r', o) /\ requested r' = requested r) ->
  (forall req x, requested (snd (fst out)) = Some req -> In x req -> known ans x (par x) (val x)) ->
  exists req, requested (snd (fst out)) = Some req /\ NoDup req /\ wbatch w' = wbatch w /\ dwf (lu (fst (fst out))) /\
    started (fst (fst out)) = started d /\
    (forall x, dget x (lu (fst (fst out))) = then_shown req val (fun x => dget x (lu d)) x) /\
    ((exists i, (if first then dget gdi (lu (fst (fst out))) = Some (RVal i) else In gdi req /\ val gdi = RJson i) /\ i <> JNull /\ snd out = Ok tt /\ info (fst (fst out)) = i) \/
     ((forall i, (if first then dget gdi (lu (fst (fst out))) = Some (RVal i) else In gdi req /\ val gdi = RJson i) -> i = JNull) /\ snd out <> Ok tt)).
Proof.
  intros Hb Hd H Hk Hv. set (l := planned (hub_child d) first now (mods d)) in *.
  set (req := Smod_Model.request (map (fun x => (fst (fst x), snd x)) l)).
  assert (Rq : requested (snd (fst out)) = Some req).
  { destruct (update_modules_net par _ first now d k w (w', out) H) as (ls & w1 & G).
    specialize (G (net_of (Err Cancelled :: ls)) (fun _ _ => eq_refl)).
    destruct (modular_update (net_of (Err Cancelled :: ls)) first now d) as [[d1 r1] o1] eqn:U.
    destruct (Hk d1 r1 o1) as (r2 & K & Kr). rewrite K in G. cbn [perform] in G.
    pose proof (f_equal snd G) as G2. cbn [snd] in G2. rewrite <- G2. cbn [fst snd requested]. rewrite Kr.
    unfold modular_update in U. fold l in U. fold req in U.
    destruct (ask _ req) as [resp|e]; [destruct (try_get _ _)|]; injection U as _ <- _; reflexivity. }
  unfold update_modules in H. fold l in H. fold req in H.
  match type of H with perform _ (ask_for _ _ ?kk) _ = _ => set (k1 := kk) in H end.
  destruct (ask_for_honest dev_send ans Hh Hl Hc treset par val req k1 w (request_nodup _) Hb (fun x I => Hv req x Rq I)) as (w1 & resp & B & W & G & E).
  rewrite E in H. exists req. split; [exact Rq|]. split; [apply request_nodup|]. unfold k1 in H. clear E k1.
  assert (GU : forall x, dget x (dupdate (lu d) resp) = then_shown req val (fun x => dget x (lu d)) x).
  { intros x. rewrite dget_dupdate_wf by exact W. unfold then_shown. rewrite G. now destruct (in_dec string_dec x req). }
  cbn [lu set_mods set_lu info set_info] in H.
  destruct (try_get gdi (if first then dupdate (lu d) resp else resp)) as [i|e] eqn:T;
    (match type of H with perform _ (k (?x, ?r, ?o)) _ = _ => destruct (Hk x r o) as (r2 & K & _) end); rewrite K in H; cbn [perform] in H;
    pose proof (f_equal fst H) as Hw1; pose proof (f_equal snd H) as Ho; cbn [fst snd] in Hw1, Ho; rewrite <- Ho; cbn [fst snd lu set_mods set_lu info set_info started].
  - split; [congruence|]. split; [now apply dwf_dupdate|]. split; [reflexivity|]. split; [exact GU|]. left. exists i. apply try_get_inv in T. destruct T as (T & N).
    split; [|auto]. destruct first; [exact T|]. rewrite G in T. destruct (in_dec string_dec gdi req) as [I|_]; [|discriminate T]. split; [exact I|].
    injection T as T. now apply shown_json in T.
  - split; [congruence|]. split; [now apply dwf_dupdate|]. split; [reflexivity|]. split; [exact GU|]. right. split; [|discriminate].
    intros i Hi. destruct (json_eq_null i) as [Z|Z]; [exact Z|]. exfalso.
    assert (X : try_get gdi (if first then dupdate (lu d) resp else resp) = Ok i).
    { apply try_get_json; [exact Z|]. destruct first; [exact Hi|]. destruct Hi as (I & V). rewrite G. destruct (in_dec string_dec gdi req) as [_|N]; [|contradiction]. f_equal. now apply shown_json. }
    congruence.
Qed.
End Shows.

(** Proofs for [WholeCam_Props]. *)
From Verif Require Import Base Base_Lemmas Py Codes_Model Retry_Model Smart_Model Smart_Spec Smart_Proofs Smart_Paging_Proofs Smart_Multi_Proofs.
From Verif Require Import CamQuery_Model CamQuery_Spec CamQuery_Proofs CamQuery_Props Stack_Spec Smod_Model Smod_Spec Smod_Props Whole_Model Whole_Spec Whole_Proofs.
From Verif Require Import WholeCam_Model WholeCam_Spec.
Open Scope string_scope.
Open Scope list_scope.
Open Scope Z_scope.

(** ** The batch size stays *)
Section Batch.
Context {D : Type}.
Variable smart_send : D -> Smart_Model.request -> D * res (dict json).
Variable plain_send : D -> dict json -> D * res (dict json).
Lemma keeps_multiple handle requests : (forall m p j, keeps (handle m p j)) -> keeps (execute_multiple_query smart_send handle requests).
Proof.
  intros Hh w w' a. unfold execute_multiple_query. unfold mbind at 1, get_batch at 1. destruct (wbatch w =? 1).
  - apply keeps_unbatched.
  - intros H. revert H. apply (keeps_bind (send_batches smart_send handle requests (length requests =? 1)%nat (batches requests (wbatch w)) [])
      (query_missing smart_send (length requests =? 1)%nat requests)); [now apply keeps_batches|intros; apply keeps_missing].
Qed.
Lemma keeps_single_plain s : keeps (run_single plain_send s).
Proof.
  unfold run_single. apply keeps_bind; [|intros; apply keeps_lift]. intros w w' a H.
  destruct (plain_send (wdev w) (s_request s)) as [d r]. injection H as <- _. reflexivity.
Qed.
Lemma keeps_cam handle r : (forall m p j, keeps (handle m p j)) -> keeps (cam_execute smart_send plain_send handle r).
Proof.
  intros Hh. destruct r as [m|[|[m v] rest]]; cbn [cam_execute]; [apply keeps_single_plain|apply keeps_fail|].
  destruct (_ && _); [|now apply keeps_multiple]. apply keeps_bind; [apply keeps_lift|intros; apply keeps_single_plain].
Qed.
Lemma keeps_page m p k : keeps (cam_next_page smart_send plain_send m p k).
Proof.
  unfold cam_next_page. destruct p as [| | | | | |[|[module x] rest]]; try apply keeps_fail.
  apply keeps_bind; [apply keeps_cam; intros; apply keeps_ret|]. intros r. apply keeps_bind; [apply keeps_lift|].
  intros [j|c]; [apply keeps_ret|apply keeps_fail].
Qed.
Lemma keeps_cam_query r : keeps (cam_execute_query smart_send plain_send r).
Proof. apply keeps_cam. intros. apply keeps_lists. intros. apply keeps_page. Qed.
End Batch.

(** ** One method *)
Section One.
Context {D : Type}.
Variable smart_send : D -> Smart_Model.request -> D * res (dict json).
Variable plain_send : D -> dict json -> D * res (dict json).
Variable ans : string -> option json -> answer.
Hypothesis Hh : honest smart_send ans.
Hypothesis Hl : live smart_send.
Lemma one_bad m q c w : ~ In m own_format -> wbatch w <> 1 -> ans m (eff_params q) = AError c ->
  exists w', cam_execute_query smart_send plain_send (QDict [(m, q)]) w = (w', Err (failure c)) /\ wbatch w' = wbatch w.
Proof.
  intros Hp Hb Ha. unfold cam_execute_query. rewrite (exec_one _ _ _ _ _ _ Hp).
  unfold execute_multiple_query. unfold mbind at 1, get_batch at 1. apply Z.eqb_neq in Hb. rewrite Hb. cbn [length Nat.eqb].
  set (h := handle_response_lists _).
  assert (S : forall rs b, (forall x, In x b -> In x (multi_requests [(m, q)])) -> Forall (response_ok ans b) rs -> forall w0,
     store_responses h [(m, q)] true rs [] w0 = (w0, Ok []) \/ store_responses h [(m, q)] true rs [] w0 = (w0, Err (failure c))).
  { intros rs b Hlb HF w0. induction HF as [|x rs Hx HF IH]; [left; reflexivity|]. cbn [store_responses].
    destruct Hx as (o & -> & [Hu|(m' & p' & Hi & [Hn1 Hn2] & Hr)]).
    - assert (E : store_response h [(m, q)] true (JObj o) [] w0 = (w0, Ok [])).
      { unfold store_response. destruct Hu as [Hu|[Hu|Hu]]; rewrite Hu; reflexivity. }
      rewrite (mbind_ok _ _ _ _ _ E). exact IH.
    - right. apply Hlb, In_multi_requests in Hi. destruct Hi as (q' & [Hq|[]] & -> & _). injection Hq as <- <-.
      rewrite Ha in Hr. unfold mbind at 1, store_response. rewrite Hn2.
      assert (Ht : truthy (JStr m) = true) by (cbn; apply negb_true_iff; now apply String.eqb_neq).
      rewrite Ht. cbn [negb]. unfold mbind, mlift. rewrite (failure_raised _ _ Hr). reflexivity. }
  assert (B : forall bs, (forall b x, In b bs -> In x b -> In x (multi_requests [(m, q)])) -> forall w0,
     exists w1, wbatch w1 = wbatch w0 /\ (send_batches smart_send h [(m, q)] true bs [] w0 = (w1, Ok []) \/ send_batches smart_send h [(m, q)] true bs [] w0 = (w1, Err (failure c)))).
  { induction bs as [|b bs IH]; intros Hbs w0; cbn [send_batches]; [unfold mret; eauto|].
    unfold mbind at 1 7, send at 1 2. destruct (Hl (wdev w0) (Batch b)) as (d & reply & Hd). rewrite Hd.
    pose proof (Hh _ _ _ _ Hd) as (He & rr & rs & Hr1 & Hr2 & HF).
    assert (K : forall (f : unit -> M (world D) (dict rval)) w2, mbind (check_batch reply) f w2 = f tt w2).
    { intros f w2. unfold mbind, check_batch. rewrite (code_classification_lemma _ _ He). reflexivity. }
    rewrite !K. clear K. unfold mbind at 1 5, mlift at 1 4, dindex. rewrite Hr1.
    unfold mbind at 1 4, mlift at 1 3. cbn [jitem]. unfold dindex. rewrite Hr2.
    unfold mbind at 1 3, mlift at 1 2. cbn [jiter].
    destruct (S rs b (fun x => Hbs b x (or_introl eq_refl)) HF (mkW d (wbatch w0) (wlog w0 ++ [Batch b]))) as [E|E].
    - rewrite (mbind_ok _ _ _ _ _ E). destruct (IH (fun b' x I => Hbs b' x (or_intror I)) (mkW d (wbatch w0) (wlog w0 ++ [Batch b]))) as (w1 & W & X). exists w1. split; [exact W|exact X].
    - unfold mbind. rewrite E. exists (mkW d (wbatch w0) (wlog w0 ++ [Batch b])). split; [reflexivity|auto]. }
  destruct (B (batches [(m, q)] (wbatch w)) ltac:(intros; eapply batch_incl; eauto) w) as (w1 & W & [E|E]).
  - rewrite (mbind_ok _ _ _ _ _ E). cbn [query_missing dmem dget]. unfold mbind at 1, send at 1.
    destruct (Hl (wdev w1) (Single m (eff_params q))) as (d & reply & Hd). rewrite Hd.
    pose proof (Hh _ _ _ _ Hd) as Hr. cbn in Hr. rewrite Ha in Hr. unfold mbind, mlift. rewrite (failure_raised _ _ Hr).
    eexists. split; [reflexivity|]. exact W.
  - unfold mbind. rewrite E. eauto.
Qed.
Hypothesis Hx : explicit smart_send.
Notation page := (cam_next_page smart_send plain_send).
Lemma lists_live m q v j w : cam_whole ans m q v -> ~ In m force_single_request -> ans m (eff_params q) = AResult j -> truthy j = true ->
  exists w' j', handle_response_lists page m (if truthy q then q else JNull) j w = (w', Ok j').
Proof.
  intros Hv Hf Ha Ht. destruct Hv as [v Hs|module x rest d name l L Hq Hd Hwf' Hsi Hsum Hfl [n Hn'] Hs Hp].
  - destruct Hs as [c Hc|j0 Hj Hns Hobj]; [congruence|]. rewrite Hj in Ha. injection Ha as ->.
    destruct Hobj as [->|[d ->]]; [discriminate|]. unfold handle_response_lists.
    unfold mbind, mlift. cbn [jcontains]. unfold dmem. rewrite (Hns d eq_refl). cbn. unfold mret. eauto.
  - rewrite Hd in Ha. injection Ha as <-. subst q. cbn [truthy]. unfold handle_response_lists.
    unfold mbind at 1, mlift at 1. cbn [jcontains]. unfold dmem.
    destruct (dget "start_index" d); [|contradiction]. cbn [negb].
    rewrite Hsum. destruct (first_list_key_spec _ _ _ Hwf' Hfl) as [-> Hg]. rewrite Hg. cbn [as_int].
    assert (Hk : exists k, (k <= length L)%nat /\ l = firstn k L).
    { destruct (Nat.le_gt_cases n (length L)); [eauto|]. exists (length L). split; [lia|]. now rewrite Hn', firstn_all, firstn_all2 by lia. }
    destruct Hk as (k & Hk & ->).
    destruct (cam_loop_live smart_send plain_send ans Hh Hl Hx m module x rest name L Hp Hf Hs (Z.to_nat (Z.of_nat (length L) - Z.of_nat (length (firstn k L)))) k w Hk) as (w' & l' & Hpg).
    rewrite (mbind_ok _ _ _ _ _ Hpg). unfold mret. eauto.
Qed.
Lemma one_good m q v j w : ~ In m own_format -> ~ In m force_single_request -> wbatch w <> 1 -> cam_whole ans m q v -> ans m (eff_params q) = AResult j ->
  exists w' r, cam_execute_query smart_send plain_send (QDict [(m, q)]) w = (w', Ok r).
Proof.
  intros Hp Hf Hb Hv Ha. unfold cam_execute_query. rewrite (exec_one _ _ _ _ _ _ Hp).
  unfold execute_multiple_query. unfold mbind at 1, get_batch at 1. apply Z.eqb_neq in Hb. rewrite Hb. cbn [length Nat.eqb].
  set (h := handle_response_lists _).
  assert (B : forall bs, (forall b x, In b bs -> In x b -> In x (multi_requests [(m, q)])) -> forall acc w,
    exists w' r, send_batches smart_send h [(m, q)] true bs acc w = (w', Ok r)).
  { induction bs as [|b bs IH]; intros Hbs acc w0; cbn [send_batches]; [unfold mret; eauto|].
    unfold mbind at 1, send at 1. destruct (Hl (wdev w0) (Batch b)) as (d & reply & Hd).
    rewrite Hd. pose proof (Hh _ _ _ _ Hd) as (He & rr & rs & Hr1 & Hr2 & HF).
    unfold mbind at 1, check_batch. rewrite (code_classification_lemma _ _ He). cbn [kind_of exn_of_kind]. unfold mret at 1.
    unfold mbind at 1, mlift at 1, dindex at 1. rewrite Hr1.
    unfold mbind at 1, mlift at 1. cbn [jitem]. unfold dindex. rewrite Hr2.
    unfold mbind at 1, mlift at 1. cbn [jiter].
    assert (S : forall acc w, exists w' r, store_responses h [(m, q)] true rs acc w = (w', Ok r)).
    { pose proof (Hbs b) as Hlb. specialize (fun x => Hlb x (or_introl eq_refl)). 
      clear - HF Ha Hlb Hv Hf Hh Hl Hx h.
      induction HF as [|x rs Hxx HF IH]; intros acc w; cbn [store_responses]; [unfold mret; eauto|].
      assert (E : exists w' r, store_response h [(m, q)] true x acc w = (w', Ok r)).
      { destruct Hxx as (o & -> & [Hu|(m' & p' & Hi & [Hn1 Hn2] & Hr)]); unfold store_response.
        - destruct Hu as [Hu|[Hu|Hu]]; rewrite Hu; cbn; unfold mret; eauto.
        - rewrite Hn2. assert (Ht : truthy (JStr m') = true) by (cbn; apply negb_true_iff; now apply String.eqb_neq).
          rewrite Ht. cbn [negb]. apply Hlb, In_multi_requests in Hi. destruct Hi as (q' & [Hq|[]] & -> & _). injection Hq as <- <-.
          rewrite Ha in Hr. pose proof (reports_true _ _ Hr) as Hc. cbn in Hc. unfold mbind at 1, mlift at 1. rewrite Hc.
          rewrite (reports_result _ _ Hr). destruct (truthy j) eqn:Tj; [|unfold mbind, mret; eauto].
          cbn [dget]. rewrite String.eqb_refl.
          destruct (lists_live m q v j w Hv Hf Ha Tj) as (w2 & j2 & E2). fold h in E2.
          match goal with |- context [h m ?z j] => replace z with (if truthy q then q else JNull) by reflexivity end.
          rewrite (mbind_ok _ _ _ _ _ E2). unfold mret. eauto. }
      destruct E as (w1 & r1 & E). rewrite (mbind_ok _ _ _ _ _ E). apply IH. }
    destruct (S acc (mkW d (wbatch w0) (wlog w0 ++ [Batch b]))) as (w1 & r1 & E1).
    rewrite (mbind_ok _ _ _ _ _ E1). apply IH. intros; eapply Hbs; eauto. now right. }
  destruct (B (batches [(m, q)] (wbatch w)) ltac:(intros; eapply batch_incl; eauto) [] w) as (w1 & r1 & E1).
  rewrite (mbind_ok _ _ _ _ _ E1). cbn [query_missing]. destruct (dmem m r1) eqn:Em; [unfold mret; eauto|].
  unfold mbind at 1, send at 1. destruct (Hl (wdev w1) (Single m (eff_params q))) as (d & reply & Hd). rewrite Hd.
  pose proof (Hh _ _ _ _ Hd) as Hr. cbn in Hr. rewrite Ha in Hr. pose proof (reports_true _ _ Hr) as Ht. cbn in Ht.
  unfold mbind, mlift. rewrite Ht. unfold mret. eauto.
Qed.
End One.

(** ** Truthful cameras *)
Lemma has_one {A} k (v : A) y : dget y [(k, v)] = if String.eqb y k then Some v else None.
Proof. reflexivity. Qed.
Section Honest.
Context {D : Type}.
Variable dev_send : D -> Smart_Model.request + dict json -> D * res (dict json).
Variable ans : string -> option json -> answer.
Notation smart := (fun d r => dev_send d (inl r)).
Hypothesis Hh : honest smart ans.
Hypothesis Hl : live smart.
Hypothesis Hc : complete smart.
Hypothesis Hx : explicit smart.
Variable treset : D -> D.
Notation ask1 := (cam_ask dev_send treset).
Notation exec := (cam_execute_query smart (fun d r => dev_send d (inr r))).
Lemma cam_ok q w w' r : exec q w = (w', Ok r) -> exists tr, ask1 q RETRIES w = (w', tr, Ok r).
Proof. intros H. exists [Exec]. unfold cam_ask, smart_query. change (Z.to_nat (RETRIES + 1)) with 4%nat. cbn [smart_loop]. now rewrite H. Qed.
Lemma not_forced k : ~ In k ["getConnectStatus"; "scanApList"; ""] -> ~ In k force_single_request /\ k <> "".
Proof. intros N. split; [intros [F|[F|[]]]; apply N; cbn; auto|intros ->; apply N; cbn; auto]. Qed.
Lemma cam_many req val w : dwf req -> (2 <= length req)%nat -> 2 <= wbatch w ->
  (forall m p, dget m req = Some p -> cam_known ans m p (val m p)) ->
  exists w' tr r, ask1 (QDict req) RETRIES w = (w', tr, Ok r) /\ wbatch w' = wbatch w /\ dwf r /\
    forall m, dget m r = option_map (val m) (dget m req).
Proof.
  intros Hw Hn Hb Hk. set (val' := fun m => match dget m req with Some p => val m p | None => RCode 0 end).
  assert (K : forall m p, dget m req = Some p -> ~ In m force_single_request /\ m <> "" /\ cam_whole ans m p (val' m)).
  { intros m p E. destruct (Hk m p E) as (N & _ & V). destruct (not_forced _ N). unfold val'. rewrite E. auto. }
  destruct (cam_succeeds_lemma smart (fun d r => dev_send d (inr r)) ans Hh Hl Hx req val' w Hw Hn ltac:(lia) (fun m p E _ => proj2 (proj2 (K m p E)))) as (w' & r & E).
  assert (Hne : req <> []) by (intros ->; cbn in Hn; lia).
  assert (H1 : forall m, dkeys req = [m] -> ~ In m own_format).
  { intros m Q. exfalso. apply (f_equal (@length string)) in Q. unfold dkeys in Q. rewrite map_length in Q. cbn in Q. lia. }
  destruct (cam_answers_complete _ _ _ ans Hh Hc req Hw Hne H1 val' w w' r Hb K E) as (W & G).
  destruct (cam_ok _ _ _ _ E) as (tr & A). exists w', tr, r. split; [exact A|]. split; [exact (keeps_cam_query _ _ _ _ _ _ E)|]. split; [exact W|].
  intros m. rewrite G. unfold dmem, val'. now destruct (dget m req).
Qed.
Lemma failure_exception c : is_exception (failure c) = true.
Proof. unfold failure. now destruct (kind_of c). Qed.
Lemma cam_one k p v w : 2 <= wbatch w -> cam_known ans k p v ->
  exists w' tr a, ask1 (QDict [(k, p)]) RETRIES w = (w', tr, a) /\ wbatch w' = wbatch w /\
    match v with RJson j => a = Ok [(k, RJson j)] | RCode _ => exists e, a = Err e /\ is_exception e = true end.
Proof.
  intros Hb (N & O & V). destruct (not_forced _ N) as (F & NE).
  destruct (ans k (eff_params p)) as [j|c] eqn:A.
  - destruct (one_good smart (fun d r => dev_send d (inr r)) ans Hh Hl Hx k p v j w O F ltac:(lia) V A) as (w' & r & E).
    assert (Hw : dwf [(k, p)]) by (repeat constructor; intros []).
    destruct (cam_answers_complete _ _ (fun d r => dev_send d (inr r)) ans Hh Hc [(k, p)] Hw ltac:(discriminate) ltac:(intros m Q; injection Q as <-; exact O) (fun _ => v) w w' r Hb) as (W & G).
    { intros m q Q. rewrite has_one in Q. destruct (String.eqb_spec m k) as [->|]; [|discriminate Q]. injection Q as <-. auto. }
    { exact E. }
    assert (R : r = [(k, v)]).
    { destruct r as [|[k1 v1] [|[k2 v2] r]].
      - specialize (G k). unfold dmem in G. rewrite has_one, String.eqb_refl in G. discriminate G.
      - pose proof (G k1) as G1. unfold dmem in G1. rewrite !has_one in G1. rewrite String.eqb_refl in G1.
        destruct (String.eqb_spec k1 k) as [->|]; [|discriminate G1]. now injection G1 as ->.
      - exfalso. pose proof (G k1) as G1. pose proof (G k2) as G2. unfold dmem in G1, G2. rewrite has_one in G1, G2. cbn [dget] in G1, G2. rewrite String.eqb_refl in G1.
        destruct (String.eqb_spec k1 k) as [->|]; [|discriminate G1].
        assert (X : k2 <> k) by (intros ->; inversion W as [|? ? W1 _]; apply W1; left; reflexivity).
        apply String.eqb_neq in X. rewrite X, String.eqb_refl in G2. discriminate G2. }
    destruct (cam_ok _ _ _ _ E) as (tr & Q). exists w', tr, (Ok r). split; [exact Q|]. split; [exact (keeps_cam_query _ _ _ _ _ _ E)|].
    destruct v as [j'|c]; [now rewrite R|]. exfalso. inversion V as [v0 S|]; subst. inversion S; subst; congruence.
  - assert (X : exists c', v = RCode c').
    { inversion V as [v0 S|]; subst; [|congruence]. inversion S; subst; [eauto|congruence]. }
    destruct X as (c' & ->).
    destruct (loop_bad treset (exec (QDict [(k, p)])) (wbatch w)) with (n := Z.to_nat (RETRIES + 1)) (r := 0) (rc := RETRIES) (w := w) as (w' & tr & e & E & X & B).
    + intros w0 H0. destruct (one_bad smart (fun d r => dev_send d (inr r)) ans Hh Hl k p c w0 O ltac:(lia) A) as (w' & E & B). exists w', (failure c).
      split; [exact E|]. split; [apply failure_exception|congruence].
    + reflexivity.
    + exists w', tr, (Err e). split; [exact E|]. split; [exact B|]. eauto.
Qed.

Lemma cam_nothing w : exists w' tr, ask1 (QDict []) RETRIES w = (w', tr, Err PyRuntime) /\ wbatch w' = wbatch w.
Proof.
  unfold cam_ask, smart_query. change (Z.to_nat (RETRIES + 1)) with 4%nat. cbn [smart_loop].
  unfold cam_execute_query, cam_execute, mfail. cbn. eauto.
Qed.
Context {R : Type}.
Variable val : string -> json -> rval.
Lemma c_ask_for_honest req (k : res (dict reply) -> prog cam_request R) w : dwf req -> 2 <= wbatch w ->
  (forall m p, dget m req = Some p -> cam_known ans m p (val m p)) ->
  exists w1 resp, wbatch w1 = wbatch w /\ dwf resp /\ (forall x, dget x resp = has_after req val (fun _ => None) x) /\
    perform ask1 (c_ask_for req k) w = perform ask1 (k (Ok resp)) w1.
Proof.
  intros Hw Hb Hk. destruct req as [|[x p] [|kv rest]] eqn:Q.
  - destruct (cam_nothing w) as (w1 & tr & E & B). exists w1, []. split; [exact B|]. split; [constructor|]. split; [reflexivity|].
    unfold c_ask_for. cbn [perform]. rewrite E. reflexivity.
  - assert (V : cam_known ans x p (val x p)) by (apply Hk; rewrite has_one, String.eqb_refl; reflexivity).
    destruct (cam_one x p (val x p) w Hb V) as (w1 & tr & a & E1 & B1 & G). unfold c_ask_for. cbn [perform]. rewrite E1.
    assert (T : forall v y, dget y [(x, v)] = has_after [(x, p)] val (fun _ => None) y <-> (y = x -> v = shown [x] (val x p))).
    { intros v y. unfold has_after. rewrite !has_one. destruct (String.eqb_spec y x) as [->|N]; [|now split].
      split; [intros H _; now injection H|intros H; now rewrite (H eq_refl)]. }
    destruct (val x p) as [j|c] eqn:V0.
    + rewrite G. exists w1, [(x, RVal j)]. split; [exact B1|]. split; [repeat constructor; intros []|]. split; [|reflexivity].
      intros y. apply T. reflexivity.
    + destruct G as (e & -> & X). rewrite X. cbn [c_alone perform]. rewrite <- B1 in Hb.
      destruct (cam_one x p (RCode c) w1 Hb V) as (w2 & tr2 & a2 & E2 & B2 & (e2 & -> & X2)). rewrite E2, X2. cbn [bind].
      exists w2, [(x, RErr INTERNAL)]. split; [congruence|]. split; [repeat constructor; intros []|]. split; [|reflexivity].
      intros y. apply T. reflexivity.
  - rewrite <- Q in *. assert (L : (2 <= length req)%nat) by (rewrite Q; cbn; lia).
    destruct (cam_many req val w Hw L Hb Hk) as (w1 & tr & r & E & B & W & G). exists w1, (keep r). split; [exact B|].
    split; [unfold dwf; rewrite keys_keep; exact W|]. split; [|unfold c_ask_for; cbn [perform]; now rewrite E].
    intros y. rewrite dget_keep, G. unfold has_after. destruct (dget y req) as [q|] eqn:Y; [|reflexivity]. cbn [option_map]. f_equal.
    assert (NK : forall z, dkeys req <> [z]) by (rewrite Q; destruct kv; discriminate).
    unfold shown, kept. destruct (val y q); [reflexivity|]. destruct (dkeys req) as [|a [|b l]]; [reflexivity|exfalso; now apply (NK a)|reflexivity].
Qed.
End Honest.

(** ** The information *)
Lemma fold_names (b : dict json) : forall acc : dict json, dwf acc ->
  let m := fold_left (fun acc (kv : string * json) => dset (match dget (fst kv) mappings with Some x => x | None => fst kv end) (snd kv) acc) b acc in
  dwf m /\ (forall n v, dget n m = Some v -> (exists k, In (k, v) b /\ common_name k = n) \/ dget n acc = Some v) /\
  (forall n, dget n acc <> None \/ (exists k v, In (k, v) b /\ common_name k = n) -> dget n m <> None).
Proof.
  induction b as [|[k v] b IH]; intros acc Ha m.
  - unfold m. cbn. split; [exact Ha|]. split; [auto|]. intros n [H|(k & v & [] & _)]. exact H.
  - cbn [fold_left fst snd] in m. change (match dget k mappings with Some x => x | None => k end) with (common_name k) in m.
    destruct (IH (dset (common_name k) v acc) (dwf_dset _ _ _ Ha)) as (W & G1 & G2). fold m in W, G1, G2. split; [exact W|]. split.
    + intros n v0 E. destruct (G1 n v0 E) as [(k0 & I & C)|H]; [left; exists k0; split; [now right|exact C]|].
      rewrite dget_dset in H. destruct (String.eqb_spec n (common_name k)) as [->|N]; [|now right]. injection H as <-. left. exists k. split; [now left|reflexivity].
    + intros n H. apply G2. rewrite dget_dset. destruct (String.eqb_spec n (common_name k)) as [->|N]; [left; discriminate|].
      destruct H as [H|(k0 & v0 & [I|I] & C)]; [now left| |right; eauto]. injection I as <- <-. now contradiction N.
Qed.
Lemma map_info_same y b : dget "basic_info" y = Some (JObj b) -> exists i, map_info (JObj y) = Ok i /\ (dwf b -> same_info b i).
Proof.
  intros E. unfold map_info. cbn [jitem]. unfold dindex. rewrite E. cbn [bind].
  destruct (fold_names b [] (dwf_nil (A := json))) as (W & G1 & G2).
  match type of W with dwf ?f => set (m := f) in * end. exists (JObj m). split; [reflexivity|]. intros Hb. exists m. split; [reflexivity|]. split; [exact W|].
  assert (G1' : forall n v, dget n m = Some v -> exists k, dget k b = Some v /\ common_name k = n).
  { intros n v H. destruct (G1 n v H) as [(k & I & C)|H0]; [|discriminate H0]. exists k. split; [now apply In_dget|exact C]. }
  split; [exact G1'|]. intros k v H. destruct (dget (common_name k) m) as [v'|] eqn:M.
  - exists v'. split; [reflexivity|]. intros U. destruct (G1' _ _ M) as (k' & K & C). assert (X : k' = k) by (apply U; [congruence|exact C]). subst. congruence.
  - exfalso. apply (G2 (common_name k)); [|exact M]. right. exists k, v. split; [now apply dget_In|reflexivity].
Qed.
Lemma internal_gives resp b : gives (dget "getDeviceInfo" resp) b -> exists i, internal_info resp = Ok i /\ (dwf b -> same_info b i).
Proof.
  intros (x & y & E & E1 & E2). unfold internal_info, try_get. rewrite E. cbn [bind jitem]. unfold dindex at 1. rewrite E1. cbn [bind]. now apply map_info_same.
Qed.
Lemma internal_inv resp i : internal_info resp = Ok i -> exists b, gives (dget "getDeviceInfo" resp) b.
Proof.
  unfold internal_info. destruct (try_get "getDeviceInfo" resp) as [j|e] eqn:T; [|discriminate]. apply try_get_inv in T. destruct T as (T & _).
  cbn [bind]. destruct j as [| | | | | |x]; try discriminate. cbn [jitem]. unfold dindex at 1. destruct (dget "device_info" x) as [di|] eqn:E1; [|discriminate].
  cbn [bind]. unfold map_info. destruct di as [| | | | | |y]; try discriminate. cbn [jitem]. unfold dindex. destruct (dget "basic_info" y) as [bi|] eqn:E2; [|discriminate].
  cbn [bind]. destruct bi as [| | | | | |b]; try discriminate. intros _. exists b, x, y. auto.
Qed.
Lemma gives_tells ks v b : gives (Some (shown ks v)) b <-> tells v b.
Proof.
  split; intros (x & y & E & E1).
  - injection E as E. apply shown_json in E. exists x, y. auto.
  - exists x, y. split; [|exact E1]. f_equal. now apply shown_json.
Qed.

(** ** Updates *)
Lemma c_request_wf l : dwf (c_request l).
Proof.
  unfold c_request. assert (G : forall l (req : dict json), dwf req -> dwf (fold_left (fun req (x : cmod * mstate * bool) => if snd x then dupdate req (c_query (fst (fst x))) else req) l req)).
  { induction l0 as [|x l0 IH]; intros req H; cbn [fold_left]; [exact H|]. apply IH. destruct (snd x); [now apply dwf_dupdate|exact H]. }
  apply G, dwf_nil.
Qed.
Section Shows.
Context {D : Type}.
Variable dev_send : D -> Smart_Model.request + dict json -> D * res (dict json).
Variable ans : string -> option json -> answer.
Notation smart := (fun d r => dev_send d (inl r)).
Variable treset : D -> D.
Notation ask1 := (cam_ask dev_send treset).
Lemma c_alone_some {R} req : forall (k : res (dict reply) -> prog cam_request R) w, exists a w1, perform ask1 (c_alone req k) w = perform ask1 (k a) w1.
Proof.
  induction req as [|[x p] req IH]; intros k w; cbn [c_alone]; [eauto|]. cbn [perform].
  destruct (ask1 (QDict [(x, p)]) RETRIES w) as [[w1 tr] r].
  destruct (match r with Ok r => _ | Err e => _ end) as [v|e]; [|eauto].
  destruct (IH (fun rest => k (let! rest := rest in Ok ((x, v) :: rest))) w1) as (a & w2 & E). eauto.
Qed.
Lemma c_ask_some {R} req (k : res (dict reply) -> prog cam_request R) w : exists a w1, perform ask1 (c_ask_for req k) w = perform ask1 (k a) w1.
Proof.
  unfold c_ask_for. cbn [perform]. destruct (ask1 (QDict req) RETRIES w) as [[w1 tr] [r|e]]; [eauto|]. destruct (is_exception e); [apply c_alone_some|eauto].
Qed.
Lemma c_update_request first now d w w' out : perform ask1 (c_update_modules first now d Ret) w = (w', out) ->
  snd (fst out) = Some (c_request (c_planned first now (k_mods d))).
Proof.
  unfold c_update_modules. match goal with |- context [c_ask_for ?r ?k] => destruct (c_ask_some r k w) as (a & w1 & E) end. rewrite E. cbn [perform].
  intros H. injection H as _ <-. destruct a as [resp|e]; [|reflexivity]. destruct (internal_info _); reflexivity.
Qed.
Hypothesis Hh : honest smart ans.
Hypothesis Hl : live smart.
Hypothesis Hc : complete smart.
Hypothesis Hx : explicit smart.
Variable val : string -> json -> rval.
Lemma c_modules_honest first now d w w' out :
  2 <= wbatch w -> dwf (k_lu d) ->
  perform ask1 (c_update_modules first now d Ret) w = (w', out) ->
  (forall req m p, snd (fst out) = Some req -> dget m req = Some p -> cam_known ans m p (val m p)) ->
  exists req, snd (fst out) = Some req /\ dwf req /\ wbatch w' = wbatch w /\ dwf (k_lu (fst (fst out))) /\
    k_started (fst (fst out)) = k_started d /\ k_comps (fst (fst out)) = k_comps d /\
    (forall x, dget x (k_lu (fst (fst out))) = has_after req val (fun x => dget x (k_lu d)) x) /\
    (let src := if first then dget "getDeviceInfo" (k_lu (fst (fst out))) else has_after req val (fun _ => None) "getDeviceInfo" in
     (snd out = Ok tt <-> exists b, gives src b) /\ (snd out = Ok tt -> forall b, gives src b -> dwf b -> same_info b (k_info (fst (fst out))))).
Proof.
  intros Hb Hd H Hv. set (l := c_planned first now (k_mods d)). set (req := c_request l).
  assert (Rq : snd (fst out) = Some req) by (exact (c_update_request _ _ _ _ _ _ H)).
  unfold c_update_modules in H. fold l in H. fold req in H.
  match type of H with perform _ (c_ask_for _ ?kk) _ = _ => set (k1 := kk) in H end.
  destruct (c_ask_for_honest dev_send ans Hh Hl Hc Hx treset val req k1 w (c_request_wf l) Hb (fun m p => Hv req m p Rq)) as (w1 & resp & B & W & G & E).
  rewrite E in H. exists req. split; [exact Rq|]. split; [apply c_request_wf|]. unfold k1 in H. clear E k1. cbn [perform] in H.
  assert (GU : forall x, dget x (dupdate (k_lu d) resp) = has_after req val (fun x => dget x (k_lu d)) x).
  { intros x. rewrite dget_dupdate_wf by exact W. unfold has_after. rewrite G. unfold has_after. now destruct (dget x req). }
  pose proof (f_equal fst H) as Hw1. pose proof (f_equal snd H) as Ho. cbn [fst snd] in Hw1, Ho. rewrite <- Ho. clear H Ho.
  cbn [k_lu with_mods with_lu] in *. set (src := if first then dupdate (k_lu d) resp else resp).
  assert (S : dget "getDeviceInfo" src = if first then dget "getDeviceInfo" (dupdate (k_lu d) resp) else has_after req val (fun _ => None) "getDeviceInfo").
  { unfold src. destruct first; [reflexivity|apply G]. }
  destruct (internal_info src) as [i|e] eqn:I; cbn [fst snd k_lu with_mods with_lu with_info k_started k_comps k_info].
  - split; [congruence|]. split; [now apply dwf_dupdate|]. do 2 (split; [reflexivity|]). split; [exact GU|]. cbv zeta. rewrite <- S. split.
    + split; [intros _; exact (internal_inv _ _ I)|reflexivity].
    + intros _ b Gb Wb. destruct (internal_gives _ _ Gb) as (i' & I' & X). rewrite I in I'. injection I' as <-. auto.
  - split; [congruence|]. split; [now apply dwf_dupdate|]. do 2 (split; [reflexivity|]). split; [exact GU|]. cbv zeta. rewrite <- S. split.
    + split; [discriminate|]. intros (b & Gb). destruct (internal_gives _ _ Gb) as (i' & I' & _). congruence.
    + discriminate.
Qed.
End Shows.
Lemma parse_lists str int l comps : Forall2 (fun c n => exists o name version z, c = JObj o /\ dget "name" o = Some name /\ str name = n /\
    dget "version" o = Some version /\ int version = Ok z) l comps -> parse str int l = Ok comps.
Proof.
  induction 1 as [|c n l comps (o & name & version & z & -> & E1 & <- & E2 & E3) H IH]; [reflexivity|]. cbn [parse jitem]. unfold dindex. rewrite E1, E2. cbn [bind].
  rewrite E3. cbn [bind]. rewrite IH. reflexivity.
Qed.
Lemma components_lists str int resp ks v comps : dget "getAppComponentList" resp = Some (shown ks v) -> lists str int v comps -> components str int resp = Ok comps.
Proof.
  intros E (x & y & l & -> & E1 & E2 & F). unfold components. rewrite E. cbn [shown jitem]. unfold dindex. rewrite E1. cbn [bind jitem]. unfold dindex. rewrite E2. cbn [bind jiter].
  now apply parse_lists.
Qed.

From Verif Require Import Base Base_Lemmas Py Codes_Model Smart_Model Smart_Spec Smart_Proofs
  Smart_Paging_Proofs Retry_Model.
From Coq Require Import Lia.
Open Scope Z_scope.

(** ** Splitting into batches *)
Lemma concat_slices {A} (s : nat) (l : list A) : forall n k,
  concat (map (fun i => firstn s (skipn (i * s) l)) (seq k n)) =
  firstn (n * s) (skipn (k * s) l).
Proof.
  induction n as [|n IH]; intros k; cbn [seq map concat].
  - reflexivity.
  - rewrite IH. cbn [Nat.mul].
    replace (s + k * s)%nat with (k * s + s)%nat by lia.
    generalize (k * s)%nat as a. intros a.
    replace (skipn (a + s) l) with (skipn s (skipn a l)).
    + apply firstn_skipn_join.
    + clear. revert l. induction a as [|a IHa]; intros [|y l]; cbn; auto.
      now rewrite skipn_nil.
Qed.

Lemma slice_nat {A} (k : nat) (step : Z) (l : list A) : 0 < step ->
  slice (Z.of_nat k * step) step l = firstn (Z.to_nat step) (skipn (k * Z.to_nat step) l).
Proof.
  intros H. unfold slice. f_equal. f_equal.
  rewrite Z2Nat.inj_mul by lia. now rewrite Nat2Z.id.
Qed.

Lemma concat_batches requests step : 0 < step ->
  concat (batches requests step) = multi_requests requests.
Proof.
  intros H. unfold batches, batch_starts.
  destruct (step <=? 0) eqn:E; [apply Z.leb_le in E; lia|].
  rewrite map_map.
  rewrite (map_ext _ (fun k => firstn (Z.to_nat step) (skipn (k * Z.to_nat step) (multi_requests requests)))).
  2:{ intros k. now apply slice_nat. }
  rewrite concat_slices. cbn [Nat.mul skipn]. apply firstn_all2.
  assert (Hlen : (length (multi_requests requests) <= length requests)%nat).
  { unfold multi_requests. rewrite map_length. clear. induction requests as [|[m p] r IH]; [cbn; lia|].
    cbn [filter fst length]. destruct (negb (smem m force_single_request)); cbn [length]; lia. }
  set (e := Z.of_nat (length requests)). assert (Hpos : 0 <= e) by (unfold e; lia).
  assert (He : e <= (e + step - 1) / step * step).
  { pose proof (Z.div_mod (e + step - 1) step ltac:(lia)).
    pose proof (Z.mod_pos_bound (e + step - 1) step H). rewrite Z.mul_comm. lia. }
  assert (0 <= (e + step - 1) / step) by (apply Z.div_pos; lia).
  apply Nat2Z.inj_le. rewrite Nat2Z.inj_mul. rewrite !Z2Nat.id by lia. unfold e in *. lia.
Qed.

Lemma batch_size requests step b : In b (batches requests step) ->
  Z.of_nat (length b) <= Z.max step 0.
Proof.
  unfold batches. intros H. apply in_map_iff in H. destruct H as (i & <- & _).
  unfold slice. rewrite firstn_length. lia.
Qed.

Lemma In_firstn {A} (x : A) n l : In x (firstn n l) -> In x l.
Proof. revert l; induction n; intros [|y l]; cbn; intuition. Qed.
Lemma In_skipn {A} (x : A) n l : In x (skipn n l) -> In x l.
Proof. revert l; induction n; intros [|y l]; cbn; intuition. Qed.

Lemma batch_incl requests step b x : In b (batches requests step) -> In x b ->
  In x (multi_requests requests).
Proof.
  unfold batches. intros H Hx. apply in_map_iff in H. destruct H as (i & <- & _).
  unfold slice in Hx. apply In_firstn in Hx. now apply In_skipn in Hx.
Qed.

Lemma In_multi_requests m p requests : In (m, p) (multi_requests requests) <->
  exists q, In (m, q) requests /\ p = eff_params q /\ ~ In m force_single_request.
Proof.
  unfold multi_requests. rewrite in_map_iff. split.
  - intros ([m' q] & E & H). apply filter_In in H. destruct H as [H1 H2]. cbn [fst snd] in *.
    injection E as -> <-. exists q. split; [exact H1|]. split; [reflexivity|].
    apply negb_true_iff in H2. now apply smem_false.
  - intros (q & H1 & -> & H2). exists (m, q). split; [reflexivity|].
    apply filter_In. split; [exact H1|]. apply negb_true_iff. now apply smem_false.
Qed.

(** ** What is sent *)
Section Log.
Context {D : Type}.

Definition adds (P : request -> Prop) {A} (m : M (world D) A) : Prop :=
  forall w w' a, m w = (w', a) -> exists ext, wlog w' = wlog w ++ ext /\ Forall P ext.

Lemma adds_bind P {A B} (m : M (world D) A) (f : A -> M (world D) B) :
  adds P m -> (forall a, adds P (f a)) -> adds P (mbind m f).
Proof.
  intros Hm Hf w w' b H. unfold mbind in H. destruct (m w) as [w1 [a|e]] eqn:E.
  - destruct (Hm _ _ _ E) as (x1 & H1 & F1). destruct (Hf _ _ _ _ H) as (x2 & H2 & F2).
    exists (x1 ++ x2). rewrite H2, H1, app_assoc. split; [reflexivity|]. now apply Forall_app.
  - injection H as <- _. eauto.
Qed.
Lemma adds_nil P {A} (m : M (world D) A) : (forall w, wlog (fst (m w)) = wlog w) -> adds P m.
Proof. intros H w w' a E. exists []. rewrite app_nil_r. specialize (H w). now rewrite E in H. Qed.
Lemma adds_lift P {A} (r : res A) : adds P (mlift r).
Proof. now apply adds_nil. Qed.
Lemma adds_ret P {A} (a : A) : adds P (mret a).
Proof. now apply adds_nil. Qed.
Lemma adds_fail P {A} e : adds P (@mfail _ A e).
Proof. now apply adds_nil. Qed.

Variable dev_send : D -> request -> D * res (dict json).
Lemma adds_send (P : request -> Prop) r : P r -> adds P (send dev_send r).
Proof.
  intros Hr w w' a H. apply send_inv in H. destruct H as (d & _ & ->).
  exists [r]. cbn. split; [reflexivity|]. now constructor.
Qed.

Variable P : request -> Prop.
Hypothesis HP : forall m p, P (Single m p).

Hint Resolve adds_bind adds_lift adds_ret adds_fail adds_send : addsdb.

Lemma adds_single m p : adds P (single_query dev_send m p).
Proof. unfold single_query. apply adds_bind; [auto with addsdb|]. intros. apply adds_bind; auto with addsdb. Qed.

Lemma adds_pages next : (forall m p k, adds P (next m p k)) -> forall m p name sum fuel l,
  adds P (page_loop next fuel m p name sum l).
Proof.
  intros Hn m p name sum. induction fuel as [|fuel IH]; intros l; cbn [page_loop];
    destruct (_ <? _); auto with addsdb.
  apply adds_bind; [auto|]. intros nb. apply adds_bind; [auto with addsdb|]. intros v.
  destruct (negb (truthy v)); [auto with addsdb|].
  apply adds_bind; auto with addsdb.
Qed.

Lemma adds_lists next : (forall m p k, adds P (next m p k)) -> forall m p j,
  adds P (handle_response_lists next m p j).
Proof.
  intros Hn m p j. unfold handle_response_lists. apply adds_bind; [auto with addsdb|].
  intros has. destruct (negb has); [auto with addsdb|].
  destruct j; auto with addsdb. destruct (dget "sum" d) as [s|]; auto with addsdb.
  assert (G : adds P match first_list_key d with
    | Some name => match dget name d with
       | Some (JArr l) => match as_int s with
           | Some n => do! l' <- page_loop next (Z.to_nat (n - Z.of_nat (length l))) m p name n l;;
                       mret (JObj (dset name (JArr l') d))
           | None => mfail PyTypeError end
       | _ => mfail PyTypeError end
    | None => mfail PyRuntime end).
  { destruct (first_list_key d) as [name|]; auto with addsdb.
    destruct (dget name d) as [[]|]; auto with addsdb.
    destruct (as_int s); auto with addsdb.
    apply adds_bind; auto with addsdb. now apply adds_pages. }
  destruct s; auto with addsdb.
Qed.

Variable handle : string -> json -> json -> M (world D) json.
Hypothesis Hhandle : forall m p j, adds P (handle m p j).

Lemma adds_unbatched b reqs : forall acc, adds P (unbatched dev_send b reqs acc).
Proof.
  induction reqs as [|[m p] reqs IH]; intros acc; cbn [unbatched]; auto with addsdb.
Qed.

Lemma adds_store requests b r acc : adds P (store_response handle requests b r acc).
Proof.
  unfold store_response. destruct r; auto with addsdb.
  destruct (negb _); auto with addsdb.
  destruct (match dget "method" d with Some v => v | None => JNull end); auto with addsdb.
  apply adds_bind; [auto with addsdb|]. intros [c|]; auto with addsdb.
  apply adds_bind; [|auto with addsdb]. destruct (truthy _); auto with addsdb.
Qed.

Lemma adds_stores requests b rs : forall acc, adds P (store_responses handle requests b rs acc).
Proof.
  induction rs as [|r rs IH]; intros acc; cbn [store_responses]; auto with addsdb.
  apply adds_bind; [apply adds_store|auto].
Qed.

Lemma adds_check resp : adds P (@check_batch D resp).
Proof.
  apply adds_nil. intros w. unfold check_batch.
  destruct (handle_response_error_code resp true) as [|e]; [reflexivity|].
  destruct e; cbn [is_device_error]; try reflexivity;
    unfold mbind, get_batch; destruct code; try reflexivity;
    destruct (_ && _); reflexivity.
Qed.

Lemma adds_batches requests b bs : Forall (fun x => P (Batch x)) bs ->
  forall acc, adds P (send_batches dev_send handle requests b bs acc).
Proof.
  induction bs as [|x bs IH]; intros HF acc; cbn [send_batches]; auto with addsdb.
  inversion HF; subst.
  apply adds_bind; [auto with addsdb|]; intros.
  apply adds_bind; [apply adds_check|]; intros.
  apply adds_bind; [auto with addsdb|]; intros.
  apply adds_bind; [auto with addsdb|]; intros.
  apply adds_bind; [auto with addsdb|]; intros.
  apply adds_bind; [apply adds_stores|auto].
Qed.

Lemma adds_missing b reqs : forall acc, adds P (query_missing dev_send b reqs acc).
Proof.
  induction reqs as [|[m p] reqs IH]; intros acc; cbn [query_missing]; auto with addsdb.
  destruct (dmem m acc); auto.
  apply adds_bind; [auto with addsdb|]; intros.
  apply adds_bind; [auto with addsdb|]; intros. auto.
Qed.
End Log.

(** Sizes of batches, and never a method that must be sent alone. *)
Definition batch_fine (step : Z) (r : request) : Prop :=
  match r with
  | Single _ _ => True
  | Batch l => Z.of_nat (length l) <= step /\
               forall m p, In (m, p) l -> ~ In m force_single_request
  end.

Lemma smart_log_lemma {D} dev_send requests (w w' : world D) a :
  smart_execute_query dev_send requests w = (w', a) ->
  exists ext, wlog w' = wlog w ++ ext /\ Forall (batch_fine (Z.max (wbatch w) 0)) ext.
Proof.
  intros H. set (P := batch_fine (Z.max (wbatch w) 0)) in *.
  assert (HP : forall m p, P (Single m p)) by (intros; exact I).
  assert (Hh : forall m p j, adds P (handle_response_lists (smart_next_page dev_send) m p j)).
  { apply adds_lists. intros. apply adds_single. exact HP. }
  assert (G : forall handle : string -> json -> json -> M (world D) json,
    (forall m p j, adds P (handle m p j)) ->
    execute_multiple_query dev_send handle requests w = (w', a) ->
    exists ext, wlog w' = wlog w ++ ext /\ Forall P ext).
  { intros handle Hhd. unfold execute_multiple_query. unfold mbind at 1, get_batch at 1.
    destruct (wbatch w =? 1).
    - intros HH. eapply adds_unbatched in HH; [exact HH|exact HP].
    - intros HH. revert HH. apply (adds_bind P).
      + apply adds_batches; auto. apply Forall_forall. intros b Hb. split.
        * now apply batch_size in Hb.
        * intros m p Hi. pose proof (batch_incl _ _ _ _ Hb Hi) as Hm.
          apply In_multi_requests in Hm. now destruct Hm as (_ & _ & _ & Hm).
      + intros acc. now apply adds_missing. }
  destruct requests as [|[m p] [|kv rest]]; try (apply (G _ Hh); exact H).
  revert H. unfold smart_execute_query. apply (adds_bind P); [now apply adds_single|].
  intros j. apply adds_bind; [|intros; apply adds_ret].
  destruct (truthy j); [apply Hh|apply adds_ret].
Qed.

(** On success every method that may be batched was in exactly one batch. *)
Definition quiet {D A} (m : M (world D) A) : Prop :=
  adds (fun r => match r with Single _ _ => True | Batch _ => False end) m.

Lemma quiet_batched ext :
  Forall (fun r => match r with Single _ _ => True | Batch _ => False end) ext -> batched ext = [].
Proof. induction 1 as [|[|] ? H]; cbn; auto. contradiction. Qed.

Lemma batched_app a b : batched (a ++ b) = batched a ++ batched b.
Proof. unfold batched. apply flat_map_app. Qed.

Lemma send_batches_batched {D} dev_send (handle : string -> json -> json -> M (world D) json) requests b :
  (forall m p j, quiet (handle m p j)) -> forall bs acc w w' r,
  send_batches dev_send handle requests b bs acc w = (w', Ok r) ->
  exists ext, wlog w' = wlog w ++ ext /\ batched ext = concat bs.
Proof.
  intros Hq. induction bs as [|x bs IH]; intros acc w w' r H; cbn [send_batches] in H.
  - apply mret_inv in H. destruct H as [-> _]. exists []. now rewrite app_nil_r.
  - minv H. apply send_inv in Hm. destruct Hm as (d & _ & ->).
    minv H. pose proof (adds_check (fun _ => False) _ _ _ _ Hm) as (e1 & He1 & F1).
    minv H. apply mlift_inv in Hm0. destruct Hm0 as [-> _].
    minv H. apply mlift_inv in Hm0. destruct Hm0 as [-> _].
    minv H. apply mlift_inv in Hm0. destruct Hm0 as [-> _].
    minv H. pose proof (adds_stores _ handle Hq _ _ _ _ _ _ _ Hm0) as (e2 & He2 & F2).
    apply IH in H. destruct H as (e3 & He3 & F3).
    destruct e1 as [|y e1]; [|inversion F1; contradiction]. rewrite app_nil_r in He1. cbn in He1.
    exists ([Batch x] ++ e2 ++ e3). split.
    + rewrite He3, He2, He1. now rewrite <- !app_assoc.
    + rewrite !batched_app, (quiet_batched _ F2), F3. cbn. now rewrite app_nil_r.
Qed.

Lemma smart_partition_lemma {D} dev_send requests (w w' : world D) r :
  length requests <> 1%nat -> 2 <= wbatch w ->
  smart_execute_query dev_send requests w = (w', Ok r) ->
  exists ext, wlog w' = wlog w ++ ext /\ batched ext = multi_requests requests.
Proof.
  intros Hl Hb H.
  assert (Hq : forall m p j, quiet (handle_response_lists (smart_next_page dev_send) m p j)).
  { apply adds_lists. intros. apply adds_single. intros; exact I. }
  assert (H' : execute_multiple_query dev_send
     (handle_response_lists (smart_next_page dev_send)) requests w = (w', Ok r)).
  { destruct requests as [|[m p] [|kv rest]]; try exact H. now cbn in Hl. }
  clear H. unfold execute_multiple_query in H'. unfold mbind at 1, get_batch at 1 in H'.
  destruct (wbatch w =? 1) eqn:E; [apply Z.eqb_eq in E; lia|].
  minv H'. apply (send_batches_batched _ _ _ _ Hq) in Hm. destruct Hm as (e1 & He1 & F1).
  eapply (adds_missing dev_send (fun r => match r with Single _ _ => True | Batch _ => False end)) in H';
    [|intros; exact I].
  destruct H' as (e2 & He2 & F2).
  exists (e1 ++ e2). split; [now rewrite He2, He1, app_assoc|].
  rewrite batched_app, (quiet_batched _ F2), F1, app_nil_r. apply concat_batches. lia.
Qed.

(** ** Every method answered, for an arbitrary device *)
Section Any.
Context {D : Type}.
Variable dev_send : D -> request -> D * res (dict json).

Lemma missing_covers b requests : forall acc w w' r,
  query_missing dev_send b requests acc w = (w', Ok r) ->
  (forall m, In m (dkeys acc) -> In m (dkeys r)) /\
  (forall m, In m (dkeys requests) -> In m (dkeys r)) /\
  (forall m, In m (dkeys r) -> In m (dkeys acc) \/ In m (dkeys requests)) /\
  (forall m v, dget m acc = Some v -> dget m r = Some v) /\
  (dwf acc -> dwf r).
Proof.
  induction requests as [|[m p] reqs IH]; intros acc w w' r H; cbn [query_missing] in H.
  - apply mret_inv in H. destruct H as [_ <-]. cbn. intuition.
  - destruct (dmem m acc) eqn:E.
    + apply IH in H. destruct H as (H1 & H2 & H3 & H4 & H5). split; [exact H1|].
      split; [|split; [|split; [exact H4|exact H5]]].
      * intros x [<-|Hx]; [apply H1; now apply dmem_In|auto].
      * intros x Hx. cbn. destruct (H3 x Hx); auto.
    + minv H. minv H. apply IH in H. destruct H as (H1 & H2 & H3 & H4 & H5).
      split; [|split; [|split; [|split]]].
      * intros x Hx. apply H1. apply In_dkeys_dset. now right.
      * intros x [<-|Hx]; [apply H1; apply In_dkeys_dset; now left|auto].
      * intros x Hx. cbn. destruct (H3 x Hx) as [Hy|Hy]; [|auto].
        apply In_dkeys_dset in Hy. destruct Hy as [->|Hy]; auto.
      * intros x v Hv. apply H4. rewrite dget_dset_other; [exact Hv|].
        intros ->. unfold dmem in E. now rewrite Hv in E.
      * intros Hw. apply H5. now apply dwf_dset.
Qed.

Lemma stores_wf handle requests b rs : forall acc w w' r,
  @store_responses D handle requests b rs acc w = (w', Ok r) -> dwf acc -> dwf r.
Proof.
  induction rs as [|x rs IH]; intros acc w w' r H Hw; cbn [store_responses] in H.
  - apply mret_inv in H. now destruct H as [_ <-].
  - minv H. apply IH in H; [exact H|]. clear IH H. unfold store_response in Hm.
    destruct x; try discriminate.
    destruct (negb _); [apply mret_inv in Hm; now destruct Hm as [_ <-]|].
    destruct (match dget "method" d with Some v => v | None => JNull end); try discriminate.
    minv Hm. destruct a0.
    + apply mret_inv in Hm. destruct Hm as [_ <-]. now apply dwf_dset.
    + minv Hm. apply mret_inv in Hm. destruct Hm as [_ <-]. now apply dwf_dset.
Qed.

Lemma batches_wf handle requests b bs : forall acc w w' r,
  send_batches dev_send handle requests b bs acc w = (w', Ok r) -> dwf acc -> dwf r.
Proof.
  induction bs as [|x bs IH]; intros acc w w' r H Hw; cbn [send_batches] in H.
  - apply mret_inv in H. now destruct H as [_ <-].
  - do 6 minv H. apply IH in H; [exact H|]. now apply stores_wf in Hm4.
Qed.

Lemma multi_covers_lemma handle requests w w' r :
  wbatch w <> 1 -> execute_multiple_query dev_send handle requests w = (w', Ok r) ->
  dwf r /\ forall m, In m (dkeys requests) -> In m (dkeys r).
Proof.
  intros Hb H'. unfold execute_multiple_query in H'. unfold mbind at 1, get_batch at 1 in H'.
  apply Z.eqb_neq in Hb. rewrite Hb in H'. minv H'.
  apply missing_covers in H'. destruct H' as (_ & H2 & _ & _ & H5). split; [|exact H2].
  apply H5. apply batches_wf in Hm; [exact Hm|]. constructor.
Qed.
Lemma smart_covers_lemma requests w w' r :
  wbatch w <> 1 -> length requests <> 1%nat ->
  smart_execute_query dev_send requests w = (w', Ok r) ->
  dwf r /\ forall m, In m (dkeys requests) -> In m (dkeys r).
Proof.
  intros Hb Hl H. eapply multi_covers_lemma; [exact Hb|].
  destruct requests as [|[m p] [|kv rest]]; try exact H. now cbn in Hl.
Qed.
End Any.

Lemma exec_multi {D} dev_send requests (w : world D) : length requests <> 1%nat ->
  smart_execute_query dev_send requests w =
  execute_multiple_query dev_send (handle_response_lists (smart_next_page dev_send)) requests w.
Proof. destruct requests as [|[m p] [|kv rest]]; try reflexivity. now cbn. Qed.

(** ** Honest devices *)
Section Honest.
Context {D : Type}.
Variable dev_send : D -> request -> D * res (dict json).
Variable ans : string -> option json -> answer.
Hypothesis Hh : honest dev_send ans.
Variable requests : dict json.
Hypothesis Hwf : dwf requests.
(** The value each requested method should get. *)
Variable val : string -> rval.
(** What is done to a result before it is stored, and when a value is the one it gives. *)
Variable hrl : string -> json -> json -> M (world D) json.
Variable fits : string -> json -> rval -> Prop.
Hypothesis Hfits : forall m q v, fits m q v ->
  match ans m (eff_params q) with
  | AError c => v = RCode (reported_code c)
  | AResult j => (truthy j = false -> v = RJson j) /\
      forall w w' j', truthy j = true -> hrl m (if truthy q then q else JNull) j w = (w', Ok j') -> v = RJson j'
  end.

Definition good (acc : dict rval) : Prop :=
  dwf acc /\ forall m v, dget m acc = Some v -> In m (dkeys requests) /\ v = val m.

Lemma good_nil : good [].
Proof. split; [constructor|discriminate]. Qed.

Lemma good_dset acc m : good acc -> In m (dkeys requests) -> good (dset m (val m) acc).
Proof.
  intros [H1 H2] Hm. split; [now apply dwf_dset|]. intros k v Hv.
  rewrite dget_dset in Hv. destruct (String.eqb k m) eqn:E.
  - apply String.eqb_eq in E. subst. now injection Hv as <-.
  - auto.
Qed.

Definition whole_all : Prop := forall m p, dget m requests = Some p -> ~ In m force_single_request ->
  fits m p (val m).

Lemma In_keys m (p : json) : In (m, p) requests -> In m (dkeys requests).
Proof. intros H. unfold dkeys. apply in_map_iff. now exists (m, p). Qed.

Lemma reports_any a r b code : reports a r -> handle_response_error_code r b = Ok code ->
  code = match a with AResult _ => None | AError c => Some (reported_code c) end.
Proof.
  intros Hr H. destruct b.
  - pose proof (reports_true _ _ Hr) as Ht. destruct a as [j|c].
    + rewrite Ht in H. now injection H as <-.
    + destruct Ht as (e & He & _). congruence.
  - rewrite (reports_false _ _ Hr) in H. now injection H as <-.
Qed.

Lemma store_good o b m p acc w w' r :
  whole_all ->
  In (m, p) (multi_requests requests) -> named m o -> reports (ans m p) o -> good acc ->
  store_response hrl requests b (JObj o) acc w = (w', Ok r) ->
  good r /\ In m (dkeys r).
Proof.
  intros Hval Hi [Hn1 Hn2] Hr Hg H. unfold store_response in H. rewrite Hn2 in H.
  apply In_multi_requests in Hi. destruct Hi as (q & Hq & -> & Hf).
  assert (Ht : truthy (JStr m) = true).
  { cbn. apply negb_true_iff. now apply String.eqb_neq. }
  rewrite Ht in H. cbn [negb] in H. minv H. apply mlift_inv in Hm. destruct Hm as [-> Hc].
  apply (reports_any _ _ _ _ Hr) in Hc. subst a.
  assert (Hk : In m (dkeys requests)) by (eapply In_keys; eauto).
  pose proof (In_dget _ _ _ Hwf Hq) as Hd. pose proof (Hfits _ _ _ (Hval m q Hd Hf)) as Hw.
  destruct (ans m (eff_params q)) as [j|c] eqn:Ea.
  - minv H. rewrite (reports_result _ _ Hr), Hd in Hm.
    apply mret_inv in H. destruct H as [_ <-].
    assert (Hv : val m = RJson a).
    { destruct (truthy j) eqn:Ej.
      - eapply (proj2 Hw); [reflexivity|exact Hm].
      - apply mret_inv in Hm. destruct Hm as [_ <-]. now apply (proj1 Hw). }
    rewrite <- Hv. split; [now apply good_dset|]. apply In_dkeys_dset. now left.
  - apply mret_inv in H. destruct H as [_ <-].
    rewrite <- Hw. split; [now apply good_dset|]. apply In_dkeys_dset. now left.
Qed.

Lemma store_unnamed o b acc w w' r : unnamed o ->
  store_response hrl requests b (JObj o) acc w = (w', Ok r) -> r = acc /\ w' = w.
Proof.
  intros Hu H. unfold store_response in H.
  destruct Hu as [Hu|[Hu|Hu]]; rewrite Hu in H; cbn in H;
    apply mret_inv in H; destruct H; auto.
Qed.

Lemma store_keys b x acc w w' r : store_response hrl requests b x acc w = (w', Ok r) ->
  forall m, In m (dkeys acc) -> In m (dkeys r).
Proof.
  intros H m Hm0. unfold store_response in H. destruct x; try discriminate.
  destruct (negb _); [apply mret_inv in H; now destruct H as [_ <-]|].
  destruct (match dget "method" d with Some v => v | None => JNull end); try discriminate.
  minv H. destruct a.
  - apply mret_inv in H. destruct H as [_ <-]. apply In_dkeys_dset. now right.
  - minv H. apply mret_inv in H. destruct H as [_ <-]. apply In_dkeys_dset. now right.
Qed.

Definition response_ok (l : list (string * option json)) (x : json) : Prop :=
  exists o, x = JObj o /\
    (unnamed o \/ exists m p, In (m, p) l /\ named m o /\ reports (ans m p) o).

Lemma stores_good bb l rs : whole_all ->
  (forall x, In x l -> In x (multi_requests requests)) ->
  Forall (response_ok l) rs -> forall acc w w' r,
  good acc -> store_responses hrl requests bb rs acc w = (w', Ok r) ->
  good r /\ (forall m, In m (dkeys acc) -> In m (dkeys r)) /\
  (forall m o, In (JObj o) rs -> named m o -> In m (dkeys r)).
Proof.
  intros Hval Hl. induction 1 as [|x rs Hx HF IH]; intros acc w w' r Hg H; cbn [store_responses] in H.
  - apply mret_inv in H. destruct H as [_ <-]. split; [exact Hg|]. split; [auto|]. intros m o [].
  - minv H. pose proof (store_keys _ _ _ _ _ _ Hm) as Hk.
    destruct Hx as (o & -> & Ho).
    assert (Hga : good a /\ forall m, named m o -> In m (dkeys a)).
    { destruct Ho as [Hu|(m & p & Hi & Hn & Hr)].
      - pose proof (store_unnamed _ _ _ _ _ _ Hu Hm) as [-> _]. split; [exact Hg|].
        intros m [Hn1 Hn2]. exfalso. destruct Hu as [Hu|[Hu|Hu]]; rewrite Hu in Hn2; try discriminate.
        now injection Hn2 as <-.
      - destruct (store_good _ _ _ _ _ _ _ _ Hval (Hl _ Hi) Hn Hr Hg Hm) as [G1 G2].
        split; [exact G1|]. intros m' [_ Hm']. destruct Hn as [_ Hn]. rewrite Hn in Hm'.
        now injection Hm' as <-. }
    destruct Hga as [Hga Hnm]. destruct (IH _ _ _ _ Hga H) as (G1 & G2 & G3).
    split; [exact G1|]. split; [auto|].
    intros m o' [Ho'|Ho'] Hn; [|eauto]. injection Ho' as <-. auto.
Qed.

Lemma batches_good bb bs : whole_all ->
  (forall b x, In b bs -> In x b -> In x (multi_requests requests)) -> forall acc w w' r,
  good acc -> send_batches dev_send hrl requests bb bs acc w = (w', Ok r) ->
  good r /\ (forall m, In m (dkeys acc) -> In m (dkeys r)) /\
  (complete dev_send -> forall m p, In (m, p) (concat bs) -> m <> ""%string -> In m (dkeys r)).
Proof.
  intros Hval. induction bs as [|b bs IH]; intros Hl acc w w' r Hg H; cbn [send_batches] in H.
  - apply mret_inv in H. destruct H as [_ <-]. split; [exact Hg|]. split; [auto|]. intros _ m p [].
  - minv H. apply send_inv in Hm. destruct Hm as (d & Hd & ->).
    pose proof (Hh _ _ _ _ Hd) as (He & rr & rs & Hr1 & Hr2 & HF). 
    minv H. minv H. apply mlift_inv in Hm0. destruct Hm0 as [-> Hx]. unfold dindex in Hx.
    rewrite Hr1 in Hx. injection Hx as <-.
    minv H. apply mlift_inv in Hm0. destruct Hm0 as [-> Hx]. cbn [jitem] in Hx. unfold dindex in Hx.
    rewrite Hr2 in Hx. injection Hx as <-.
    minv H. apply mlift_inv in Hm0. destruct Hm0 as [-> Hx]. cbn [jiter] in Hx. injection Hx as <-.
    minv H.
    destruct (stores_good bb b rs Hval (fun x => Hl b x (or_introl eq_refl)) HF _ _ _ _ Hg Hm0) as (G1 & G2 & G3).
    destruct (IH (fun b' x H1 => Hl b' x (or_intror H1)) _ _ _ _ G1 H) as (K1 & K2 & K3).
    split; [exact K1|]. split; [auto|].
    intros Hc m p Hi Hne. cbn [concat] in Hi. apply in_app_or in Hi. destruct Hi as [Hi|Hi]; [|eauto].
    apply K2. destruct (Hc _ _ _ _ _ _ Hd Hr1 Hr2 _ _ Hi Hne) as (o & Ho & Hn). eauto.
Qed.

(** [v] is what the device says, as it stands. *)
Definition direct (m : string) (p : option json) (v : rval) : Prop :=
  match ans m p with AResult j => v = RJson j | AError c => v = RCode (reported_code c) end.
Lemma simple_direct m p v : simple ans m p v -> direct m p v.
Proof. intros [c Hc|j Hj _ _]; unfold direct; [rewrite Hc|rewrite Hj]; reflexivity. Qed.

Lemma single_value m p v resp bb code : direct m p v -> reports (ans m p) resp ->
  handle_response_error_code resp bb = Ok code ->
  match code with
  | Some c => RCode c
  | None => RJson (match dget "result" resp with Some v => v | None => JNull end)
  end = v.
Proof.
  intros Hs Hr Hc. apply (reports_any _ _ _ _ Hr) in Hc. subst code.
  unfold direct in Hs. destruct (ans m p); subst v; [|reflexivity]. now rewrite (reports_result _ _ Hr).
Qed.

Lemma missing_good bb reqs : (forall m p, In (m, p) reqs -> In (m, p) requests) -> forall acc w w' r,
  (forall m p, In (m, p) reqs -> ~ In m (dkeys acc) -> direct m (eff_params p) (val m)) ->
  good acc -> query_missing dev_send bb reqs acc w = (w', Ok r) -> good r.
Proof.
  induction reqs as [|[m p] reqs IH]; intros Hsub acc w w' r Hs Hg H; cbn [query_missing] in H.
  - apply mret_inv in H. now destruct H as [_ <-].
  - destruct (dmem m acc) eqn:E.
    + eapply IH; [| |exact Hg|exact H].
      * intros; apply Hsub; now right.
      * intros; apply Hs; [now right|assumption].
    + minv H. apply send_inv in Hm. destruct Hm as (d & Hd & ->).
      pose proof (Hh _ _ _ _ Hd) as Hr. cbn in Hr.
      minv H. apply mlift_inv in Hm. destruct Hm as [-> Hc].
      assert (Hn : ~ In m (dkeys acc)).
      { intros Hi. apply dmem_In in Hi. congruence. }
      rewrite (single_value _ _ _ _ _ _ (Hs m p (or_introl eq_refl) Hn) Hr Hc) in H.
      eapply IH; [| | |exact H].
      * intros; apply Hsub; now right.
      * intros m' p' Hi Hk. apply Hs; [now right|]. intros Hk'. apply Hk. apply In_dkeys_dset. now right.
      * apply good_dset; [exact Hg|]. eapply In_keys. apply Hsub. now left.
Qed.

Lemma good_exact r : good r -> (forall m, In m (dkeys requests) -> In m (dkeys r)) ->
  dwf r /\ (forall m, dget m r = if dmem m requests then Some (val m) else None).
Proof.
  intros [H1 H2] H3. split; [exact H1|]. intros m. destruct (dmem m requests) eqn:E.
  - apply dmem_In in E. apply H3 in E. apply dget_key_Some in E. destruct E as [v Hv].
    rewrite Hv. f_equal. now apply H2 in Hv.
  - destruct (dget m r) eqn:Er; [|reflexivity]. apply H2 in Er. destruct Er as [Er _].
    apply dmem_In in Er. congruence.
Qed.

(** What the batches leave out must be simple. *)
Lemma multi_exact_lemma w w' r :
  wbatch w <> 1 -> whole_all ->
  (forall m p, dget m requests = Some p -> direct m (eff_params p) (val m) \/
     (complete dev_send /\ 2 <= wbatch w /\ ~ In m force_single_request /\ m <> ""%string)) ->
  execute_multiple_query dev_send hrl requests w = (w', Ok r) ->
  dwf r /\ (forall m, dget m r = if dmem m requests then Some (val m) else None).
Proof.
  intros Hb Hval Hs H. pose proof (multi_covers_lemma _ _ _ _ _ _ Hb H) as [_ Hc].
  unfold execute_multiple_query in H.
  unfold mbind at 1, get_batch at 1 in H. apply Z.eqb_neq in Hb. rewrite Hb in H. minv H.
  apply batches_good in Hm; [|exact Hval|intros; eapply batch_incl; eauto|apply good_nil].
  destruct Hm as (Hg & _ & Hall).
  apply missing_good in H; auto.
  - now apply good_exact.
  - intros m p Hi Hn. destruct (Hs m p (In_dget _ _ _ Hwf Hi)) as [S|(C & B & F & Hne)]; [exact S|].
    exfalso. apply Hn. specialize (Hall C). rewrite concat_batches in Hall by lia.
    apply (Hall m (eff_params p)); [|exact Hne]. apply In_multi_requests. eauto.
Qed.

(** ** Success: a device that replies to everything is not failed. *)
Hypothesis Hlive : live dev_send.

Hypothesis Hlive_fits : forall m q v j w, fits m q v -> ans m (eff_params q) = AResult j -> truthy j = true ->
  exists w' j', hrl m (if truthy q then q else JNull) j w = (w', Ok j').

Lemma missing_live reqs : forall acc w,
  exists w' r, query_missing dev_send false reqs acc w = (w', Ok r).
Proof.
  induction reqs as [|[m p] reqs IH]; intros acc w; cbn [query_missing].
  - unfold mret. eauto.
  - destruct (dmem m acc); [apply IH|].
    unfold mbind at 1, send at 1. destruct (Hlive (wdev w) (Single m (eff_params p))) as (d & reply & Hd).
    rewrite Hd. pose proof (Hh _ _ _ _ Hd) as Hr. cbn in Hr.
    unfold mbind, mlift. rewrite (reports_false _ _ Hr). apply IH.
Qed.

Lemma store_live l x acc w : whole_all ->
  (forall x, In x l -> In x (multi_requests requests)) -> response_ok l x ->
  exists w' r, store_response hrl requests false x acc w = (w', Ok r).
Proof.
  intros Hval Hl (o & -> & [Hu|(m & p & Hi & [Hn1 Hn2] & Hr)]); unfold store_response.
  - destruct Hu as [Hu|[Hu|Hu]]; rewrite Hu; cbn; unfold mret; eauto.
  - rewrite Hn2. assert (Ht : truthy (JStr m) = true).
    { cbn. apply negb_true_iff. now apply String.eqb_neq. }
    rewrite Ht. cbn [negb]. unfold mbind at 1, mlift at 1. rewrite (reports_false _ _ Hr).
    apply Hl, In_multi_requests in Hi. destruct Hi as (q & Hq & -> & Hf).
    pose proof (In_dget _ _ _ Hwf Hq) as Hd.
    pose proof (Hval m q Hd Hf) as Hw.
    destruct (ans m (eff_params q)) as [j|c] eqn:Ea; [|unfold mret; eauto].
    rewrite (reports_result _ _ Hr), Hd. destruct (truthy j) eqn:Ej.
    + destruct (Hlive_fits m q (val m) j w Hw Ea Ej) as (w1 & j' & H1).
      rewrite (mbind_ok _ _ _ _ _ H1). unfold mret. eauto.
    + unfold mbind, mret. eauto.
Qed.

Lemma stores_live l rs : whole_all ->
  (forall x, In x l -> In x (multi_requests requests)) ->
  Forall (response_ok l) rs -> forall acc w,
  exists w' r, store_responses hrl requests false rs acc w = (w', Ok r).
Proof.
  intros Hval Hl. induction 1 as [|x rs Hx HF IH]; intros acc w; cbn [store_responses].
  - unfold mret. eauto.
  - destruct (store_live l x acc w Hval Hl Hx) as (w1 & r1 & H1).
    rewrite (mbind_ok _ _ _ _ _ H1). apply IH.
Qed.

Lemma batches_live bs : whole_all ->
  (forall b x, In b bs -> In x b -> In x (multi_requests requests)) -> forall acc w,
  exists w' r, send_batches dev_send hrl requests false bs acc w = (w', Ok r).
Proof.
  intros Hval. induction bs as [|b bs IH]; intros Hl acc w; cbn [send_batches].
  - unfold mret. eauto.
  - unfold mbind at 1, send at 1. destruct (Hlive (wdev w) (Batch b)) as (d & reply & Hd).
    rewrite Hd. pose proof (Hh _ _ _ _ Hd) as (He & rr & rs & Hr1 & Hr2 & HF).
    unfold mbind at 1, check_batch.
    rewrite (code_classification_lemma _ _ He). cbn [kind_of exn_of_kind]. unfold mret at 1.
    unfold mbind at 1, mlift at 1, dindex at 1. rewrite Hr1.
    unfold mbind at 1, mlift at 1. cbn [jitem]. unfold dindex. rewrite Hr2.
    unfold mbind at 1, mlift at 1. cbn [jiter].
    destruct (stores_live b rs Hval (fun x => Hl b x (or_introl eq_refl)) HF acc
      (mkW d (wbatch w) (wlog w ++ [Batch b]))) as (w1 & r1 & H1).
    rewrite (mbind_ok _ _ _ _ _ H1). apply IH. intros; eapply Hl; eauto. now right.
Qed.

Lemma multi_succeeds_lemma w :
  wbatch w <> 1 -> length requests <> 1%nat -> whole_all ->
  exists w' r, execute_multiple_query dev_send hrl requests w = (w', Ok r).
Proof.
  intros Hb Hl Hw. unfold execute_multiple_query.
  unfold mbind at 1, get_batch at 1. apply Z.eqb_neq in Hb. rewrite Hb.
  apply Nat.eqb_neq in Hl. rewrite Hl.
  destruct (batches_live (batches requests (wbatch w)) Hw
    ltac:(intros; eapply batch_incl; eauto) [] w) as (w1 & r1 & H1).
  rewrite (mbind_ok _ _ _ _ _ H1). apply missing_live.
Qed.
End Honest.

(** ** SMART devices *)
Section SmartHonest.
Context {D : Type}.
Variable dev_send : D -> request -> D * res (dict json).
Variable ans : string -> option json -> answer.
Hypothesis Hh : honest dev_send ans.
Variable requests : dict json.
Hypothesis Hwf : dwf requests.
Variable val : string -> rval.
Definition smart_fits (m : string) (q : json) (v : rval) : Prop := whole ans m (eff_params q) v.
Lemma smart_fits_ok : forall m q v, smart_fits m q v ->
  match ans m (eff_params q) with
  | AError c => v = RCode (reported_code c)
  | AResult j => (truthy j = false -> v = RJson j) /\
      forall w w' j', truthy j = true ->
        handle_response_lists (smart_next_page dev_send) m (if truthy q then q else JNull) j w = (w', Ok j') -> v = RJson j'
  end.
Proof.
  intros m q v Hw. unfold smart_fits in Hw. destruct (ans m (eff_params q)) as [j|c] eqn:Ea.
  - split; [|intros; eapply handle_lists_honest; eauto].
    intros Hj. destruct Hw as [v [c0 Hc0|j0 Hj0 _ _]|d name l L Hd _ Hsi _ _ _ _]; [congruence|congruence|].
    rewrite Hd in Ea. injection Ea as <-. destruct d; [now cbn in Hsi|discriminate].
  - destruct Hw as [v [c0 Hc0|j0 Hj0 _ _]|d name l L Hd _ _ _ _ _ _]; congruence.
Qed.

(** Every method simple: whatever the device leaves out of its batch replies. *)
Lemma smart_exact_lemma w w' r :
  wbatch w <> 1 -> length requests <> 1%nat ->
  (forall m p, dget m requests = Some p -> simple ans m (eff_params p) (val m)) ->
  smart_execute_query dev_send requests w = (w', Ok r) ->
  dwf r /\ (forall m, dget m r = if dmem m requests then Some (val m) else None).
Proof.
  intros Hb Hl Hs H. rewrite (exec_multi dev_send requests _ Hl) in H.
  eapply (multi_exact_lemma dev_send ans Hh requests Hwf val _ smart_fits smart_fits_ok); eauto.
  - intros m p Hp _. unfold smart_fits. constructor; auto.
  - intros m p Hp. left. apply simple_direct. auto.
Qed.

(** Paged lists: when the device answers whole batches. *)
Lemma smart_exact_paged_lemma w w' r :
  2 <= wbatch w -> length requests <> 1%nat -> complete dev_send ->
  (forall m p, dget m requests = Some p -> In m force_single_request \/ m = ""%string ->
     simple ans m (eff_params p) (val m)) ->
  (forall m p, dget m requests = Some p -> ~ In m force_single_request ->
     whole ans m (eff_params p) (val m)) ->
  smart_execute_query dev_send requests w = (w', Ok r) ->
  dwf r /\ (forall m, dget m r = if dmem m requests then Some (val m) else None).
Proof.
  intros Hb Hl Hcm Hs Hw H. rewrite (exec_multi dev_send requests _ Hl) in H.
  eapply (multi_exact_lemma dev_send ans Hh requests Hwf val _ smart_fits smart_fits_ok); eauto; [lia|].
  intros m p Hd. destruct (in_dec string_dec m force_single_request) as [Hf|Hf]; [left; apply simple_direct; eauto|].
  destruct (string_dec m "") as [Hne|Hne]; [left; apply simple_direct; eauto|]. right. auto.
Qed.

Hypothesis Hlive : live dev_send.
Lemma smart_succeeds_lemma w :
  wbatch w <> 1 -> length requests <> 1%nat ->
  (forall m p, dget m requests = Some p -> ~ In m force_single_request ->
     whole ans m (eff_params p) (val m)) ->
  exists w' r, smart_execute_query dev_send requests w = (w', Ok r).
Proof.
  intros Hb Hl Hw. rewrite (exec_multi dev_send requests _ Hl).
  eapply (multi_succeeds_lemma dev_send ans Hh requests Hwf val _ smart_fits); eauto.
  intros m q v j w0 Hf Ha Ht. eapply handle_lists_live; eauto.
Qed.
End SmartHonest.

(** ** Batching disabled *)
Section Unbatched.
Context {D : Type}.
Variable dev_send : D -> request -> D * res (dict json).
Variable ans : string -> option json -> answer.
Hypothesis Hh : honest_single dev_send ans.
Variable requests : dict json.
Hypothesis Hwf : dwf requests.
Variable val : string -> rval.

Lemma unbatched_good reqs : (forall x, In x reqs -> In x (multi_requests requests)) ->
  (forall m p, dget m requests = Some p -> simple ans m (eff_params p) (val m)) ->
  forall acc w w' r, good requests val acc -> unbatched dev_send false reqs acc w = (w', Ok r) ->
  good requests val r /\ (forall m, In m (dkeys acc) -> In m (dkeys r)) /\
  (forall m p, In (m, p) reqs -> In m (dkeys r)) /\
  (forall m, In m (dkeys r) -> In m (dkeys acc) \/ exists p, In (m, p) reqs).
Proof.
  intros Hsub Hs. induction reqs as [|[m p] reqs IH]; intros acc w w' r Hg H; cbn [unbatched] in H.
  - apply mret_inv in H. destruct H as [_ <-]. split; [exact Hg|]. split; [auto|]. split; [intros m p []|auto].
  - minv H. apply send_inv in Hm. destruct Hm as (d & Hd & ->).
    pose proof (Hh _ _ _ _ _ Hd) as Hr.
    minv H. apply mlift_inv in Hm. destruct Hm as [-> Hc].
    minv H. apply mlift_inv in Hm. destruct Hm as [-> Hv].
    pose proof (Hsub (m, p) (or_introl eq_refl)) as Hi.
    apply In_multi_requests in Hi. destruct Hi as (q & Hq & -> & _).
    assert (Ha : a1 = val m).
    { rewrite <- (single_value ans _ _ _ _ _ _ (simple_direct _ _ _ _ (Hs m q (In_dget _ _ _ Hwf Hq))) Hr Hc).
      destruct a0; [congruence|]. unfold dindex in Hv. destruct (dget "result" a); [|discriminate].
      cbn in Hv. congruence. }
    subst a1. apply IH in H; [|intros; apply Hsub; now right|apply good_dset; [exact Hg|eapply In_keys; eauto]].
    destruct H as (G1 & G2 & G3 & G4). split; [exact G1|]. split; [|split].
    + intros x Hx. apply G2. apply In_dkeys_dset. now right.
    + intros m' p' [Hi|Hi]; [|eauto]. injection Hi as <- _. apply G2. apply In_dkeys_dset. now left.
    + intros x Hx. destruct (G4 x Hx) as [Hy|[p' Hy]].
      * apply In_dkeys_dset in Hy. destruct Hy as [->|Hy]; [right; eexists; now left|now left].
      * right. exists p'. now right.
Qed.

Lemma smart_unbatched_lemma w w' r :
  wbatch w = 1 -> length requests <> 1%nat ->
  (forall m p, dget m requests = Some p -> simple ans m (eff_params p) (val m)) ->
  smart_execute_query dev_send requests w = (w', Ok r) ->
  dwf r /\ (forall m, dget m r =
     if dmem m requests && negb (smem m force_single_request) then Some (val m) else None).
Proof.
  intros Hb Hl Hs H. rewrite exec_multi in H by exact Hl. unfold execute_multiple_query in H.
  unfold mbind at 1, get_batch at 1 in H. rewrite Hb in H. cbn [Z.eqb Pos.eqb] in H.
  apply Nat.eqb_neq in Hl. rewrite Hl in H.
  apply unbatched_good in H; [|auto|exact Hs|apply good_nil].
  destruct H as ([G1 G1'] & _ & G3 & G4). split; [exact G1|]. intros m.
  destruct (dmem m requests && negb (smem m force_single_request)) eqn:E.
  - apply andb_prop in E. destruct E as [E1 E2]. apply negb_true_iff in E2. apply smem_false in E2.
    unfold dmem in E1. destruct (dget m requests) as [p|] eqn:Ep; [|discriminate].
    assert (Hi : In m (dkeys r)).
    { apply (G3 m (eff_params p)). apply In_multi_requests. exists p. split; [now apply dget_In|auto]. }
    apply dget_key_Some in Hi. destruct Hi as [v Hv]. rewrite Hv. f_equal. now apply G1' in Hv.
  - destruct (dget m r) as [v|] eqn:Er; [|reflexivity]. exfalso.
    apply dget_Some_key in Er. destruct (G4 m Er) as [[]|[p Hp]].
    apply In_multi_requests in Hp. destruct Hp as (q & Hq & _ & Hf).
    apply smem_false in Hf. rewrite Hf in E. cbn in E. rewrite andb_true_r in E.
    assert (Hk : In m (dkeys requests)) by (eapply In_keys; eauto).
    apply dmem_In in Hk. congruence.
Qed.

Hypothesis Hlive : live_single dev_send.

Lemma unbatched_live reqs : explicit dev_send -> forall acc w,
  exists w' r, unbatched dev_send false reqs acc w = (w', Ok r).
Proof.
  intros Hx. induction reqs as [|[m p] reqs IH]; intros acc w; cbn [unbatched].
  - unfold mret. eauto.
  - unfold mbind at 1, send at 1. destruct (Hlive (wdev w) m p) as (d & reply & Hd).
    rewrite Hd. pose proof (Hh _ _ _ _ _ Hd) as Hr.
    unfold mbind at 1, mlift at 1. rewrite (reports_false _ _ Hr).
    unfold mbind, mlift. destruct (ans m p) as [j|c].
    + pose proof (Hx _ _ _ _ _ Hd (proj1 Hr)) as Hres. unfold dindex.
      destruct (dget "result" reply) as [jj|]; [|contradiction]. cbn [bind]. apply IH.
    + apply IH.
Qed.

Lemma smart_unbatched_succeeds_lemma w :
  wbatch w = 1 -> length requests <> 1%nat -> explicit dev_send ->
  exists w' r, smart_execute_query dev_send requests w = (w', Ok r).
Proof.
  intros Hb Hl Hx. rewrite exec_multi by exact Hl. unfold execute_multiple_query.
  unfold mbind at 1, get_batch at 1. rewrite Hb. cbn [Z.eqb Pos.eqb].
  apply Nat.eqb_neq in Hl. rewrite Hl. now apply unbatched_live.
Qed.
End Unbatched.

(** ** One method *)
Lemma smart_single_lemma {D} dev_send ans m p v (w w' : world D) r :
  honest dev_send ans -> whole ans m (eff_params p) v ->
  smart_execute_query dev_send [(m, p)] w = (w', Ok r) -> r = [(m, v)] /\ exists j, v = RJson j.
Proof.
  intros Hh Hw H. unfold smart_execute_query in H. minv H. minv H.
  apply mret_inv in H. destruct H as [_ <-].
  pose proof (single_honest dev_send ans Hh _ _ _ _ _ Hm) as Ha.
  assert (Hv : v = RJson a0).
  { destruct (truthy a) eqn:Et.
    - eapply handle_lists_honest; eauto.
    - apply mret_inv in Hm0. destruct Hm0 as [_ <-].
      destruct Hw as [v [c0 Hc0|j0 Hj0 _ _]|d name l L Hd _ Hsi _ _ _ _].
      + congruence.
      + congruence.
      + rewrite Hd in Ha. injection Ha as <-. destruct d; [now cbn in Hsi|discriminate]. }
  subst. eauto.
Qed.

(** ** A device that refuses batches: one retry later everything is answered. *)
Lemma kind_reported c : kind_of c = KindDevice -> exn_of_kind (kind_of c) (reported_code c) =
  Err (KDevice (Some (reported_code c))).
Proof. now intros ->. Qed.

Lemma refuse_step {D} (dev_send : D -> request -> D * res (dict json)) requests c (w : world D) :
  refuses_batches dev_send c -> reported_code c = -1003 \/ reported_code c = -100000 ->
  2 <= wbatch w -> (2 <= length requests)%nat ->
  exists d, smart_execute_query dev_send requests w =
    (mkW d 1 (wlog w ++ [Batch (slice 0 (wbatch w) (multi_requests requests))]), Err (KRetry None)).
Proof.
  intros Hr Hc Hb Hl.
  rewrite exec_multi by lia. unfold execute_multiple_query. unfold mbind at 1, get_batch at 1.
  destruct (wbatch w =? 1) eqn:E1; [apply Z.eqb_eq in E1; lia|].
  unfold batches, batch_starts. destruct (wbatch w <=? 0) eqn:E0; [apply Z.leb_le in E0; lia|].
  assert (Hn : exists n, Z.to_nat ((Z.of_nat (length requests) + wbatch w - 1) / wbatch w) = S n).
  { exists (Nat.pred (Z.to_nat ((Z.of_nat (length requests) + wbatch w - 1) / wbatch w))).
    assert (1 <= (Z.of_nat (length requests) + wbatch w - 1) / wbatch w).
    { apply Z.div_le_lower_bound; lia. }
    lia. }
  destruct Hn as (n & ->). cbn [seq map send_batches]. unfold mbind at 1, mbind at 1, send at 1.
  change (Z.of_nat 0 * wbatch w) with 0.
  destruct (Hr (wdev w) (slice 0 (wbatch w) (multi_requests requests))) as (d & reply & Hd & He).
  rewrite Hd. unfold mbind at 1, check_batch. rewrite (code_classification_lemma _ _ He).
  assert (Hk : kind_of c = KindDevice).
  { unfold reported_code in Hc. destruct (in_dec Z.eq_dec c smart_error_codes) as [Hi|Hi].
    - destruct Hc as [->| ->]; reflexivity.
    - apply kind_unknown. intros HI. apply special_known in HI. apply zmem_In in HI. contradiction. }
  rewrite (kind_reported c Hk). cbn [is_device_error]. unfold mbind at 1, get_batch at 1.
  cbn [wbatch]. rewrite E1. cbn [negb].
  assert (Hz : zmem (reported_code c) [JSON_DECODE_FAIL_ERROR; INTERNAL_UNKNOWN_ERROR] = true).
  { destruct Hc as [->| ->]; reflexivity. }
  rewrite Hz. cbn. exists d. reflexivity.
Qed.

Lemma smart_fallback_lemma {D} (dev_send : D -> request -> D * res (dict json)) ans requests val
    (dreset : D -> D) (w : world D) rc c :
  honest_single dev_send ans -> live_single dev_send -> explicit dev_send ->
  refuses_batches dev_send c -> reported_code c = -1003 \/ reported_code c = -100000 ->
  dwf requests -> (2 <= length requests)%nat -> 2 <= wbatch w -> 1 <= rc ->
  (forall m, In m (dkeys requests) -> ~ In m force_single_request) ->
  (forall m p, dget m requests = Some p -> simple ans m (eff_params p) (val m)) ->
  exists w' tr r,
    smart_query (smart_execute_query dev_send requests)
      (fun w => mkW (dreset (wdev w)) (wbatch w) (wlog w)) rc w = (w', tr, Ok r) /\
    tr = [Exec; Reset; Sleep; Exec] /\ wbatch w' = 1 /\
    dwf r /\ (forall m, dget m r = if dmem m requests then Some (val m) else None).
Proof.
  intros Hh Hlv Hx Hr Hc Hwf Hl Hb Hrc Hnf Hs. unfold smart_query.
  replace (Z.to_nat (rc + 1)) with (S (S (Z.to_nat (rc - 1)))) by lia.
  destruct (refuse_step dev_send requests c w Hr Hc Hb Hl) as (d & H1).
  cbn [smart_loop]. rewrite H1.
  assert (E0 : (0 >=? rc) = false) by (rewrite Z.geb_leb; apply Z.leb_gt; lia).
  rewrite E0. set (w1 := mkW (dreset _) _ _). cbn [wbatch wdev wlog] in w1.
  destruct (smart_unbatched_succeeds_lemma dev_send ans Hh requests Hlv w1 eq_refl ltac:(lia) Hx)
    as (w2 & r & H2).
  rewrite H2. exists w2, [Exec; Reset; Sleep; Exec], r. split; [reflexivity|]. split; [reflexivity|].
  destruct (smart_unbatched_lemma dev_send ans Hh requests Hwf val w1 w2 r eq_refl ltac:(lia) Hs H2)
    as [G1 G2].
  split; [|split; [exact G1|]].
  - clear - H2 Hl. rewrite exec_multi in H2 by lia. unfold execute_multiple_query in H2.
    unfold mbind at 1, get_batch at 1 in H2. cbn [wbatch w1 Z.eqb Pos.eqb] in H2.
    assert (G : forall b reqs acc (w w' : world D) a, unbatched dev_send b reqs acc w = (w', a) -> wbatch w' = wbatch w).
    { clear. intros b. induction reqs as [|[m p] reqs IH]; intros acc w w' a H; cbn [unbatched] in H.
      - unfold mret in H. now injection H as <- _.
      - unfold mbind at 1 in H. destruct (send dev_send (Single m p) w) as [w1 x] eqn:E.
        apply send_inv in E. destruct E as (d & _ & ->).
        destruct x as [resp|e]; [|now injection H as <- _].
        unfold mbind, mlift in H. destruct (handle_response_error_code resp b) as [code|e];
          [|now injection H as <- _].
        destruct (match code with Some c => Ok (RCode c) | None => let! j := dindex "result" resp in Ok (RJson j) end);
          [|now injection H as <- _].
        apply IH in H. exact H. }
    apply G in H2. exact H2.
  - intros m. rewrite G2. destruct (dmem m requests) eqn:E; [|reflexivity].
    apply dmem_In in E. apply Hnf in E. apply smem_false in E. now rewrite E.
Qed.

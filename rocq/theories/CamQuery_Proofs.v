From Coq Require Import Lia.
From Verif Require Import Base Base_Lemmas Py Codes_Model Smart_Model Smart_Spec Smart_Proofs Smart_Paging_Proofs Smart_Multi_Proofs CamQuery_Model CamQuery_Spec.
Open Scope string_scope.
Open Scope list_scope.
Open Scope Z_scope.

(** ** Raising: no error code among the values *)
Definition no_codes (acc : dict rval) : Prop := forall m v, dget m acc = Some v -> exists j, v = RJson j.
Lemma no_codes_nil : no_codes [].
Proof. intros m v H. discriminate. Qed.
Lemma no_codes_dset acc m j : no_codes acc -> no_codes (dset m (RJson j) acc).
Proof.
  intros H k v Hv. rewrite dget_dset in Hv. destruct (String.eqb k m); [injection Hv as <-; eauto|eauto].
Qed.
Lemma raise_none resp code : handle_response_error_code resp true = Ok code -> code = None.
Proof.
  unfold handle_response_error_code. destruct (error_code_of _) as [c|e]; cbn [bind]; [|discriminate].
  destruct (c =? 0); cbn; congruence.
Qed.
Section Raise.
Context {D : Type}.
Variable dev_send : D -> request -> D * res (dict json).
Variable handle : string -> json -> json -> M (world D) json.
Lemma unbatched_raise reqs : forall acc w w' r, no_codes acc -> unbatched dev_send true reqs acc w = (w', Ok r) -> no_codes r.
Proof.
  induction reqs as [|[m p] reqs IH]; intros acc w w' r Ha H; cbn [unbatched] in H.
  - apply mret_inv in H. now destruct H as [_ <-].
  - minv H. minv H. apply mlift_inv in Hm0. destruct Hm0 as [-> Hc]. apply raise_none in Hc. subst.
    minv H. apply mlift_inv in Hm0. destruct Hm0 as [-> Hv]. unfold bind in Hv. destruct (dindex "result" a); [|discriminate].
    injection Hv as <-. eapply IH; [|exact H]. now apply no_codes_dset.
Qed.
Lemma stores_raise requests rs : forall acc w w' r, no_codes acc -> store_responses handle requests true rs acc w = (w', Ok r) -> no_codes r.
Proof.
  induction rs as [|x rs IH]; intros acc w w' r Ha H; cbn [store_responses] in H.
  - apply mret_inv in H. now destruct H as [_ <-].
  - minv H. eapply IH; [|exact H]. clear H IH. unfold store_response in Hm. destruct x; try discriminate.
    destruct (negb _); [apply mret_inv in Hm; now destruct Hm as [_ <-]|].
    destruct (match dget "method" d with Some v => v | None => JNull end); try discriminate.
    minv Hm. apply mlift_inv in Hm0. destruct Hm0 as [-> Hc]. apply raise_none in Hc. subst.
    minv Hm. apply mret_inv in Hm. destruct Hm as [_ <-]. now apply no_codes_dset.
Qed.
Lemma batches_raise requests bs : forall acc w w' r, no_codes acc -> send_batches dev_send handle requests true bs acc w = (w', Ok r) -> no_codes r.
Proof.
  induction bs as [|b bs IH]; intros acc w w' r Ha H; cbn [send_batches] in H.
  - apply mret_inv in H. now destruct H as [_ <-].
  - do 6 minv H. eapply IH; [|exact H]. eapply stores_raise; eauto.
Qed.
Lemma missing_raise reqs : forall acc w w' r, no_codes acc -> query_missing dev_send true reqs acc w = (w', Ok r) -> no_codes r.
Proof.
  induction reqs as [|[m p] reqs IH]; intros acc w w' r Ha H; cbn [query_missing] in H.
  - apply mret_inv in H. now destruct H as [_ <-].
  - destruct (dmem m acc); [eauto|]. minv H. minv H. apply mlift_inv in Hm0. destruct Hm0 as [-> Hc]. apply raise_none in Hc. subst.
    eapply IH; [|exact H]. now apply no_codes_dset.
Qed.
Lemma one_raise m p w w' r : execute_multiple_query dev_send handle [(m, p)] w = (w', Ok r) -> no_codes r.
Proof.
  unfold execute_multiple_query. unfold mbind at 1, get_batch at 1. cbn [length Nat.eqb]. destruct (wbatch w =? 1).
  - apply unbatched_raise, no_codes_nil.
  - intros H. minv H. apply missing_raise in H; [exact H|]. eapply batches_raise; [|exact Hm]. apply no_codes_nil.
Qed.
End Raise.

(** ** Pages *)
Section Cam.
Context {D : Type}.
Variable smart_send : D -> request -> D * res (dict json).
Variable plain_send : D -> dict json -> D * res (dict json).
Variable ans : string -> option json -> answer.
Hypothesis Hh : honest smart_send ans.
Notation plain_methods := own_format.
Notation page := (cam_next_page smart_send plain_send).
Notation exec := (cam_execute smart_send plain_send).
Notation id_handle := (fun (_ : string) (_ j : json) => @mret (world D) json j).

Lemma exec_multiple handle r w : r <> [] -> (length r = 1%nat -> forall m, In m (dkeys r) -> ~ In m plain_methods) ->
  exec handle (QDict r) w = execute_multiple_query smart_send handle r w.
Proof.
  intros Hn H. destruct r as [|[m p] rest]; [congruence|]. unfold cam_execute.
  destruct rest as [|kv rest]; [|reflexivity]. cbn [length Nat.eqb andb].
  change CamQuery_Model.plain_methods with own_format. destruct (smem m plain_methods) eqn:E; [|reflexivity]. exfalso.
  apply (H eq_refl m); [left; reflexivity|]. unfold smem in E. apply existsb_exists in E.
  destruct E as (x & Hx & E). apply String.eqb_eq in E. now subst.
Qed.
Lemma exec_one handle m p w : ~ In m plain_methods ->
  exec handle (QDict [(m, p)]) w = execute_multiple_query smart_send handle [(m, p)] w.
Proof. intros H. apply exec_multiple; [discriminate|]. intros _ x [<-|[]]. exact H. Qed.

Definition said (m : string) (q : json) : rval :=
  match ans m (eff_params q) with AResult j => RJson j | AError c => RCode (reported_code c) end.
(** One method, no paging: the value is what the device says, and no error code. *)
Lemma one_honest m q w w' r v : execute_multiple_query smart_send id_handle [(m, q)] w = (w', Ok r) ->
  dget m r = Some v -> exists j, ans m (eff_params q) = AResult j /\ v = RJson j.
Proof.
  intros H Hv. pose proof (one_raise _ _ _ _ _ _ _ H _ _ Hv) as (j & ->). exists j. split; [|reflexivity].
  assert (Hwf : dwf [(m, q)]) by (repeat constructor; cbn; tauto).
  destruct (Z.eq_dec (wbatch w) 1) as [Hb|Hb].
  - unfold execute_multiple_query in H. unfold mbind at 1, get_batch at 1 in H. rewrite Hb in H. cbn [Z.eqb Pos.eqb length Nat.eqb] in H.
    unfold multi_requests in H. cbn [filter fst map] in H.
    destruct (smem m force_single_request); cbn [negb map unbatched] in H.
    + apply mret_inv in H. destruct H as [_ <-]. discriminate.
    + cbn [fst snd] in H. minv H. apply send_inv in Hm. destruct Hm as (d & Hd & ->). pose proof (Hh _ _ _ _ Hd) as Hr. cbn in Hr.
      minv H. apply mlift_inv in Hm. destruct Hm as [-> Hc]. minv H. apply mlift_inv in Hm. destruct Hm as [-> Hx].
      apply mret_inv in H. destruct H as [_ <-]. pose proof (reports_any _ _ _ _ Hr Hc) as E.
      apply raise_none in Hc. subst a0. cbn [dset dget] in Hv. rewrite String.eqb_refl in Hv. injection Hv as ->.
      destruct (ans m (eff_params q)) as [j'|c]; [|discriminate]. pose proof (reports_result _ _ Hr) as Hj.
      unfold dindex in Hx. destruct (dget "result" a); [|discriminate]. cbn in Hx. congruence.
  - destruct (multi_exact_lemma smart_send ans Hh [(m, q)] Hwf (fun _ => said m q) id_handle (fun m' q' v' => direct ans m' (eff_params q') v')) with (w := w) (w' := w') (r := r) as [_ G].
    + intros m' q' v' Hd. unfold direct in Hd. destruct (ans m' (eff_params q')); [|exact Hd]. split; [auto|].
      intros w0 w0' j' _ Hj. apply mret_inv in Hj. destruct Hj as [_ <-]. exact Hd.
    + exact Hb.
    + intros m' p' Hd _. cbn in Hd. destruct (String.eqb m' m) eqn:E; [|discriminate]. apply String.eqb_eq in E. subst. injection Hd as <-.
      unfold direct, said. destruct (ans m (eff_params q)); reflexivity.
    + intros m' p' Hd. cbn in Hd. destruct (String.eqb m' m) eqn:E; [|discriminate]. apply String.eqb_eq in E. subst. injection Hd as <-.
      left. unfold direct, said. destruct (ans m (eff_params q)); reflexivity.
    + exact H.
    + specialize (G m). unfold dmem in G. cbn in G. rewrite String.eqb_refl in G. rewrite Hv in G. unfold said in G.
      destruct (ans m (eff_params q)); congruence.
Qed.

Lemma page_honest m module x rest k w w' j : ~ In m plain_methods ->
  page m (JObj ((module, x) :: rest)) k w = (w', Ok j) -> ans m (Some (page_params module k)) = AResult j.
Proof.
  intros Hp H. cbn [cam_next_page] in H. minv H. rewrite (exec_one _ _ _ _ Hp) in Hm. minv H. apply mlift_inv in Hm0. destruct Hm0 as [-> Hv].
  unfold dindex in Hv. destruct (dget m a) as [v|] eqn:Ev; [|discriminate]. injection Hv as ->.
  destruct (one_honest _ _ _ _ _ _ Hm Ev) as (j' & Ha & ->). apply mret_inv in H. destruct H as [_ <-]. exact Ha.
Qed.

Lemma cam_loop_honest m module x rest name L : ~ In m plain_methods -> cam_serves ans m module name L -> forall fuel k w w' l',
  (k <= length L)%nat -> (length L - k <= fuel)%nat ->
  page_loop page fuel m (JObj ((module, x) :: rest)) name (Z.of_nat (length L)) (firstn k L) w = (w', Ok l') -> l' = L.
Proof.
  intros Hp Hs. induction fuel as [|fuel IH]; intros k w w' l' Hk Hf H; cbn [page_loop] in H;
    rewrite firstn_length_le in H by exact Hk;
    destruct (Z.of_nat k <? Z.of_nat (length L)) eqn:E;
    try (apply Z.ltb_ge in E; apply mret_inv in H; destruct H as [_ <-]; apply firstn_all2; lia).
  - apply Z.ltb_lt in E. lia.
  - apply Z.ltb_lt in E. minv H. minv H. apply mlift_inv in Hm0. destruct Hm0 as [-> Hv].
    apply (page_honest _ _ _ _ _ _ _ _ Hp) in Hm.
    destruct (Hs k ltac:(lia)) as (pg & n & Ha & Hn & Hd). rewrite Ha in Hm. injection Hm as <-.
    cbn in Hv. unfold dindex in Hv. rewrite Hd in Hv. injection Hv as <-.
    assert (Hne : firstn n (skipn k L) <> []).
    { intros Hx. apply (f_equal (@length json)) in Hx. rewrite firstn_length, skipn_length in Hx. cbn in Hx. lia. }
    assert (Et : truthy (JArr (firstn n (skipn k L))) = true).
    { cbn. destruct (firstn n (skipn k L)); [contradiction|reflexivity]. }
    rewrite Et in H. cbn [negb] in H. minv H. apply mlift_inv in Hm. destruct Hm as [-> Hl].
    unfold extend in Hl. cbn [jiter bind] in Hl. injection Hl as <-.
    rewrite firstn_skipn_join in H.
    destruct (Nat.le_gt_cases (k + n) (length L)) as [Hle|Hgt].
    + apply IH in H; auto. lia.
    + rewrite firstn_all2 in H by lia. rewrite <- (firstn_all L) in H at 2. apply IH in H; auto. lia.
Qed.

Lemma cam_fits_ok : forall m q v, cam_whole ans m q v ->
  match ans m (eff_params q) with
  | AError c => v = RCode (reported_code c)
  | AResult j => (truthy j = false -> v = RJson j) /\
      forall w w' j', truthy j = true ->
        handle_response_lists page m (if truthy q then q else JNull) j w = (w', Ok j') -> v = RJson j'
  end.
Proof.
  intros m q v Hw. destruct (ans m (eff_params q)) as [j|c] eqn:Ea.
  - destruct Hw as [v Hs|module x rest d name l L Hq Hd Hwf Hsi Hsum Hfl [n Hn] Hs Hp].
    + pose proof (simple_direct _ _ _ _ Hs) as Hd. unfold direct in Hd. rewrite Ea in Hd. subst v. split; [auto|].
      intros w w' j' Ht H. destruct Hs as [c Hc|j0 Hj Hns Hobj]; [congruence|].
      rewrite Hj in Ea. injection Ea as ->. unfold handle_response_lists in H. destruct Hobj as [->|[d ->]]; [discriminate|].
      minv H. apply mlift_inv in Hm. destruct Hm as [-> Hc]. cbn in Hc. injection Hc as <-.
      unfold dmem in H. rewrite (Hns d eq_refl) in H. cbn [negb] in H. apply mret_inv in H. now destruct H as [_ <-].
    + rewrite Hd in Ea. injection Ea as <-. split; [intros E; destruct d; [now cbn in Hsi|discriminate]|].
      intros w w' j' Ht H. subst q. cbn [truthy] in H. unfold handle_response_lists in H.
      minv H. apply mlift_inv in Hm. destruct Hm as [-> Hc]. cbn [jcontains] in Hc. injection Hc as <-.
      unfold dmem in H. destruct (dget "start_index" d); [|contradiction]. cbn [negb] in H.
      rewrite Hsum in H. destruct (first_list_key_spec _ _ _ Hwf Hfl) as [Hf Hg].
      rewrite Hf, Hg in H. cbn [as_int] in H. minv H. apply mret_inv in H. destruct H as [_ <-].
      assert (Hk : exists k, (k <= length L)%nat /\ l = firstn k L).
      { destruct (Nat.le_gt_cases n (length L)); [eauto|]. exists (length L). split; [lia|]. now rewrite Hn, firstn_all, firstn_all2 by lia. }
      destruct Hk as (k & Hk & ->). rewrite firstn_length_le in Hm by exact Hk.
      apply (cam_loop_honest m module x rest name L Hp Hs) in Hm; [now subst|exact Hk|lia].
  - destruct Hw as [v Hs|module x rest d name l L Hq Hd _ _ _ _ _ _ _]; [|congruence].
    apply simple_direct in Hs. unfold direct in Hs. now rewrite Ea in Hs.
Qed.

Lemma cam_exact_lemma requests val w w' r : dwf requests -> requests <> [] ->
  (length requests = 1%nat -> forall m, In m (dkeys requests) -> ~ In m plain_methods) ->
  wbatch w <> 1 ->
  (forall m p, dget m requests = Some p -> ~ In m force_single_request -> cam_whole ans m p (val m)) ->
  (forall m p, dget m requests = Some p ->
     simple ans m (eff_params p) (val m) \/ (complete smart_send /\ 2 <= wbatch w /\ ~ In m force_single_request /\ m <> ""%string)) ->
  cam_execute_query smart_send plain_send (QDict requests) w = (w', Ok r) ->
  dwf r /\ (forall m, dget m r = if dmem m requests then Some (val m) else None).
Proof.
  intros Hwf Hn Hp Hb Hw Hs H. unfold cam_execute_query in H. rewrite (exec_multiple _ _ _ Hn Hp) in H.
  eapply (multi_exact_lemma smart_send ans Hh requests Hwf val _ (cam_whole ans) cam_fits_ok); eauto.
  intros m p Hd. destruct (Hs m p Hd) as [S|S]; [left; now apply simple_direct|right; exact S].
Qed.

(** ** Success *)
Hypothesis Hlive : live smart_send.
Hypothesis Hx : explicit smart_send.
Lemma one_succeeds m q j w : ~ In m force_single_request -> ans m (eff_params q) = AResult j ->
  exists w' r, execute_multiple_query smart_send id_handle [(m, q)] w = (w', Ok r) /\ dget m r = Some (RJson j).
Proof.
  intros Hf Ha.
  assert (G : exists w' r, execute_multiple_query smart_send id_handle [(m, q)] w = (w', Ok r) /\ exists v, dget m r = Some v).
  { assert (Ef : smem m force_single_request = false).
    { destruct (smem m force_single_request) eqn:E; [|reflexivity]. exfalso. apply Hf. unfold smem in E. apply existsb_exists in E.
      destruct E as (x & Hi & E). apply String.eqb_eq in E. now subst. }
    unfold execute_multiple_query. unfold mbind at 1, get_batch at 1. cbn [length Nat.eqb]. destruct (wbatch w =? 1) eqn:Eb.
    - unfold multi_requests. cbn [filter fst]. rewrite Ef. cbn [negb map fst snd unbatched].
      unfold mbind at 1, send at 1. destruct (Hlive (wdev w) (Single m (eff_params q))) as (d & reply & Hd). rewrite Hd.
      pose proof (Hh _ _ _ _ Hd) as Hr. cbn in Hr. rewrite Ha in Hr. pose proof (reports_true _ _ Hr) as Ht. cbn in Ht.
      unfold mbind at 1, mlift at 1. rewrite Ht. pose proof (Hx _ _ _ _ _ Hd (proj1 Hr)) as Hres. unfold dindex.
      destruct (dget "result" reply) as [jj|]; [|contradiction]. cbn. eexists _, _. split; [reflexivity|].
      cbn. rewrite String.eqb_refl. eauto.
    - assert (B : forall bs, (forall b x, In b bs -> In x b -> In x (multi_requests [(m, q)])) -> forall acc w,
        exists w' r, send_batches smart_send id_handle [(m, q)] true bs acc w = (w', Ok r)).
      { induction bs as [|b bs IH]; intros Hl acc w0; cbn [send_batches]; [unfold mret; eauto|].
        unfold mbind at 1, send at 1. destruct (Hlive (wdev w0) (Batch b)) as (d & reply & Hd).
        rewrite Hd. pose proof (Hh _ _ _ _ Hd) as (He & rr & rs & Hr1 & Hr2 & HF).
        unfold mbind at 1, check_batch. rewrite (code_classification_lemma _ _ He). cbn [kind_of exn_of_kind]. unfold mret at 1.
        unfold mbind at 1, mlift at 1, dindex at 1. rewrite Hr1.
        unfold mbind at 1, mlift at 1. cbn [jitem]. unfold dindex. rewrite Hr2.
        unfold mbind at 1, mlift at 1. cbn [jiter].
        assert (S : forall acc w, exists w' r, store_responses id_handle [(m, q)] true rs acc w = (w', Ok r)).
        { pose proof (Hl b) as Hlb. specialize (fun x => Hlb x (or_introl eq_refl)). clear - HF Ha Hlb.
          induction HF as [|x rs Hx HF IH]; intros acc w; cbn [store_responses]; [unfold mret; eauto|].
          assert (E : exists w' r, store_response id_handle [(m, q)] true x acc w = (w', Ok r)).
          { destruct Hx as (o & -> & [Hu|(m' & p' & Hi & [Hn1 Hn2] & Hr)]); unfold store_response.
            - destruct Hu as [Hu|[Hu|Hu]]; rewrite Hu; cbn; unfold mret; eauto.
            - rewrite Hn2. assert (Ht : truthy (JStr m') = true) by (cbn; apply negb_true_iff; now apply String.eqb_neq).
              rewrite Ht. cbn [negb]. apply Hlb, In_multi_requests in Hi. destruct Hi as (q' & [Hq|[]] & -> & _). injection Hq as <- <-.
              rewrite Ha in Hr. pose proof (reports_true _ _ Hr) as Hc. cbn in Hc. unfold mbind at 1, mlift at 1. rewrite Hc.
              rewrite (reports_result _ _ Hr). destruct (truthy j); unfold mbind, mret; eauto. }
          destruct E as (w1 & r1 & E). rewrite (mbind_ok _ _ _ _ _ E). apply IH. }
        destruct (S acc (mkW d (wbatch w0) (wlog w0 ++ [Batch b]))) as (w1 & r1 & E1).
        rewrite (mbind_ok _ _ _ _ _ E1). apply IH. intros; eapply Hl; eauto. now right. }
      destruct (B (batches [(m, q)] (wbatch w)) ltac:(intros; eapply batch_incl; eauto) [] w) as (w1 & r1 & E1).
      rewrite (mbind_ok _ _ _ _ _ E1). cbn [query_missing]. destruct (dmem m r1) eqn:Em.
      + unfold dmem in Em. destruct (dget m r1) eqn:Eg; [|discriminate]. unfold mret. eauto.
      + unfold mbind at 1, send at 1. destruct (Hlive (wdev w1) (Single m (eff_params q))) as (d & reply & Hd). rewrite Hd.
        pose proof (Hh _ _ _ _ Hd) as Hr. cbn in Hr. rewrite Ha in Hr. pose proof (reports_true _ _ Hr) as Ht. cbn in Ht.
        unfold mbind, mlift. rewrite Ht. unfold mret. eexists _, _. split; [reflexivity|]. rewrite dget_dset_same. eauto. }
  destruct G as (w' & r & H & v & Hv). exists w', r. split; [exact H|].
  destruct (one_honest _ _ _ _ _ _ H Hv) as (j' & Ha' & ->). congruence.
Qed.

Lemma page_live m module x rest k w j : ~ In m plain_methods -> ~ In m force_single_request ->
  ans m (Some (page_params module k)) = AResult j -> exists w', page m (JObj ((module, x) :: rest)) k w = (w', Ok j).
Proof.
  intros Hp Hf Ha. destruct (one_succeeds m (page_params module k) j w Hf Ha) as (w' & r & H & Hr).
  exists w'. cbn [cam_next_page]. fold (page_params module k). rewrite <- (exec_one _ _ _ _ Hp) in H.
  rewrite (mbind_ok _ _ _ _ _ H). unfold mbind, mlift, dindex. rewrite Hr. reflexivity.
Qed.

Lemma cam_loop_live m module x rest name L : ~ In m plain_methods -> ~ In m force_single_request -> cam_serves ans m module name L -> forall fuel k w,
  (k <= length L)%nat ->
  exists w' l', page_loop page fuel m (JObj ((module, x) :: rest)) name (Z.of_nat (length L)) (firstn k L) w = (w', Ok l').
Proof.
  intros Hp Hf Hs. induction fuel as [|fuel IH]; intros k w Hk; cbn [page_loop];
    rewrite firstn_length_le by exact Hk;
    destruct (Z.of_nat k <? Z.of_nat (length L)) eqn:E; unfold mret; eauto.
  apply Z.ltb_lt in E. destruct (Hs k ltac:(lia)) as (pg & n & Ha & Hn & Hd).
  destruct (page_live m module x rest _ w (JObj pg) Hp Hf Ha) as (w1 & H1).
  rewrite (mbind_ok _ _ _ _ _ H1). unfold mbind at 1, mlift at 1.
  cbn [jitem]. unfold dindex. rewrite Hd.
  assert (Hne : firstn n (skipn k L) <> []).
  { intros Hz. apply (f_equal (@length json)) in Hz. rewrite firstn_length, skipn_length in Hz. cbn in Hz. lia. }
  assert (Et : truthy (JArr (firstn n (skipn k L))) = true).
  { cbn. destruct (firstn n (skipn k L)); [contradiction|reflexivity]. }
  rewrite Et. cbn [negb]. unfold mbind, mlift, extend. cbn [jiter bind]. rewrite firstn_skipn_join.
  destruct (Nat.le_gt_cases (k + n) (length L)) as [Hle|Hgt].
  - apply IH; auto.
  - replace (firstn (k + n) L) with (firstn (length L) L) by (rewrite firstn_all, firstn_all2; [reflexivity|lia]). apply IH. lia.
Qed.

Lemma cam_succeeds_lemma requests val w : dwf requests -> (2 <= length requests)%nat -> wbatch w <> 1 ->
  (forall m p, dget m requests = Some p -> ~ In m force_single_request -> cam_whole ans m p (val m)) ->
  exists w' r, cam_execute_query smart_send plain_send (QDict requests) w = (w', Ok r).
Proof.
  intros Hwf Hl Hb Hw. unfold cam_execute_query.
  assert (Hn : requests <> []) by (intros ->; cbn in Hl; lia).
  rewrite exec_multiple by (auto; lia).
  eapply (multi_succeeds_lemma smart_send ans Hh requests Hwf val _ (fun m p v => cam_whole ans m p v /\ ~ In m force_single_request)); auto; [|lia|].
  2:{ intros m p Hd Hf. split; auto. }
  intros m q v j w0 [Hv Hf] Ha Ht. destruct Hv as [v Hs|module x rest d name l L Hq Hd Hwf' Hsi Hsum Hfl [n Hn'] Hs Hp].
  - destruct Hs as [c Hc|j0 Hj Hns Hobj]; [congruence|]. rewrite Hj in Ha. injection Ha as ->.
    destruct Hobj as [->|[d ->]]; [discriminate|]. unfold handle_response_lists.
    unfold mbind, mlift. cbn [jcontains]. unfold dmem. rewrite (Hns d eq_refl). cbn. unfold mret. eauto.
  - rewrite Hd in Ha. injection Ha as <-. subst q. cbn [truthy]. unfold handle_response_lists.
    unfold mbind at 1, mlift at 1. cbn [jcontains]. unfold dmem.
    destruct (dget "start_index" d); [|contradiction]. cbn [negb].
    rewrite Hsum. destruct (first_list_key_spec _ _ _ Hwf' Hfl) as [-> Hg]. rewrite Hg. cbn [as_int].
    assert (Hk : exists k, (k <= length L)%nat /\ l = firstn k L).
    { destruct (Nat.le_gt_cases n (length L)); [eauto|]. exists (length L). split; [lia|]. now rewrite Hn', firstn_all, firstn_all2 by lia. }
    destruct Hk as (k & Hk & ->).
    destruct (cam_loop_live m module x rest name L Hp Hf Hs (Z.to_nat (Z.of_nat (length L) - Z.of_nat (length (firstn k L)))) k w0 Hk) as (w' & l' & Hpg).
    rewrite (mbind_ok _ _ _ _ _ Hpg). unfold mret. eauto.
Qed.
End Cam.

From Verif Require Import Base Base_Lemmas Py Codes_Model Smart_Model Smart_Spec Smart_Proofs.
From Coq Require Import Lia.
Open Scope Z_scope.

(** ** Generic facts about the page loop *)
Lemma truthy_iter_nonempty v items : truthy v = true -> jiter v = Ok items -> items <> [].
Proof.
  destruct v; cbn; intros H1 H2; try discriminate; injection H2 as <-.
  - destruct s; [discriminate|]. discriminate.
  - destruct l; [discriminate|]. discriminate.
  - destruct d; [discriminate|]. discriminate.
Qed.

Lemma extend_longer l v l' : truthy v = true -> extend l v = Ok l' ->
  exists items, l' = l ++ items /\ items <> [] /\ (length l < length l')%nat.
Proof.
  unfold extend. destruct (jiter v) as [items|e] eqn:E; cbn; intros H1 H2; [|discriminate].
  injection H2 as <-. exists items. split; [reflexivity|].
  pose proof (truthy_iter_nonempty _ _ H1 E) as Hn. split; [exact Hn|].
  rewrite app_length. destruct items; [contradiction|cbn; lia].
Qed.

Section Loop.
Context {D : Type}.
Variable next_page : string -> json -> Z -> M (world D) json.

(** More fuel than [sum - length] changes nothing: the model's loop is the
    source's unbounded [while]. *)
Lemma page_loop_fuel m p name sum : forall fuel l w,
  (Z.to_nat (sum - Z.of_nat (length l)) <= fuel)%nat ->
  page_loop next_page fuel m p name sum l w =
  page_loop next_page (Z.to_nat (sum - Z.of_nat (length l))) m p name sum l w.
Proof.
  assert (H : forall n fuel l w,
    Z.to_nat (sum - Z.of_nat (length l)) = n -> (n <= fuel)%nat ->
    forall n', (n <= n')%nat ->
    page_loop next_page fuel m p name sum l w = page_loop next_page n' m p name sum l w).
  { intros n. induction n as [n IH] using (well_founded_induction lt_wf).
    intros fuel l w Hn Hf n' Hn'.
    destruct fuel as [|fuel], n' as [|n']; cbn [page_loop];
      destruct (Z.of_nat (length l) <? sum) eqn:E; try reflexivity;
      try (apply Z.ltb_lt in E; lia).
    unfold mbind at 1 4. destruct (next_page m p (Z.of_nat (length l)) w) as [w1 [nb|e]]; [|reflexivity].
    unfold mbind at 1 3, mlift at 1 3. destruct (jitem name nb) as [v|e]; [|reflexivity].
    destruct (truthy v) eqn:Ev; cbn [negb]; [|reflexivity].
    unfold mbind, mlift. destruct (extend l v) as [l'|e] eqn:El; [|reflexivity].
    destruct (extend_longer _ _ _ Ev El) as (items & -> & _ & Hlt).
    apply Z.ltb_lt in E. eapply IH; [|reflexivity| |]; lia. }
  intros fuel l w Hf. apply (H (Z.to_nat (sum - Z.of_nat (length l))) fuel l w); lia.
Qed.

(** The list only grows, and every turn is bounded by what is missing. *)
Lemma page_loop_prefix m p name sum : forall fuel l w w' l',
  page_loop next_page fuel m p name sum l w = (w', Ok l') -> exists items, l' = l ++ items.
Proof.
  induction fuel as [|fuel IH]; intros l w w' l' H; cbn [page_loop] in H;
    destruct (Z.of_nat (length l) <? sum).
  - apply mret_inv in H. destruct H as [_ <-]. exists []. now rewrite app_nil_r.
  - apply mret_inv in H. destruct H as [_ <-]. exists []. now rewrite app_nil_r.
  - minv H. minv H. apply mlift_inv in Hm0. destruct Hm0 as [-> Hv].
    destruct (truthy a0) eqn:Ev; cbn [negb] in H.
    + minv H. apply mlift_inv in Hm0. destruct Hm0 as [-> Hl].
      destruct (extend_longer _ _ _ Ev Hl) as (items & -> & _).
      apply IH in H. destruct H as [more ->]. exists (items ++ more). now rewrite app_assoc.
    + apply mret_inv in H. destruct H as [_ <-]. exists []. now rewrite app_nil_r.
  - apply mret_inv in H. destruct H as [_ <-]. exists []. now rewrite app_nil_r.
Qed.
End Loop.

(** ** SMART pages *)
Section Smart.
Context {D : Type}.
Variable dev_send : D -> request -> D * res (dict json).

Notation single := (single_query dev_send).
Notation page := (smart_next_page dev_send).

Lemma send_log r w : exists d, fst (send dev_send r w) = mkW d (wbatch w) (wlog w ++ [r]).
Proof. unfold send. destruct (dev_send (wdev w) r) as [d a]. now exists d. Qed.

Lemma send_inv r w w' a : send dev_send r w = (w', a) ->
  exists d, dev_send (wdev w) r = (d, a) /\ w' = mkW d (wbatch w) (wlog w ++ [r]).
Proof.
  unfold send. destruct (dev_send (wdev w) r) as [d x] eqn:E. intros H.
  injection H as <- <-. now exists d.
Qed.

Lemma single_inv m p w w' a : single m p w = (w', a) ->
  exists d, w' = mkW d (wbatch w) (wlog w ++ [Single m (eff_params p)]).
Proof.
  unfold single_query, mbind. destruct (send dev_send (Single m (eff_params p)) w) as [w1 x] eqn:E.
  destruct (send_inv _ _ _ _ E) as (d & _ & ->).
  destruct x as [resp|e]; [|intros H; injection H as <- <-; eauto].
  unfold mlift. destruct (handle_response_error_code resp true); cbn;
    intros H; injection H as <- <-; eauto.
Qed.

(** Requests made by the page loop: one per turn, each at the number of items
    held then, strictly increasing, all below the announced sum; never more
    than the number of missing items, whatever the device does. *)
Definition page_requests (m : string) (ks : list Z) : list request :=
  map (fun k => Single m (Some (start_index k))) ks.

Fixpoint increasing_from (lo : Z) (ks : list Z) : Prop :=
  match ks with [] => True | k :: r => lo <= k /\ increasing_from (k + 1) r end.

Lemma page_loop_requests m p name sum : forall fuel l w w' a,
  page_loop page fuel m p name sum l w = (w', a) ->
  exists ks, wlog w' = wlog w ++ page_requests m ks /\
    increasing_from (Z.of_nat (length l)) ks /\ Forall (fun k => k < sum) ks /\
    wbatch w' = wbatch w /\
    (forall k r, ks = k :: r -> k = Z.of_nat (length l)).
Proof.
  induction fuel as [|fuel IH]; intros l w w' a H; cbn [page_loop] in H;
    destruct (Z.of_nat (length l) <? sum) eqn:E;
    try (unfold mret in H; injection H as <- <-; exists []; cbn; rewrite app_nil_r;
         repeat split; auto; try (intros; discriminate)).
  apply Z.ltb_lt in E. unfold mbind at 1 in H.
  destruct (page m p (Z.of_nat (length l)) w) as [w1 x] eqn:Ep.
  unfold smart_next_page in Ep. destruct (single_inv _ _ _ _ _ Ep) as (d & ->).
  cbn [eff_params truthy] in *.
  assert (Hone : exists ks,
    wlog w ++ [Single m (Some (start_index (Z.of_nat (length l))))] = wlog w ++ page_requests m ks /\
    increasing_from (Z.of_nat (length l)) ks /\ Forall (fun k => k < sum) ks /\
    wbatch w = wbatch w /\ (forall k r, ks = k :: r -> k = Z.of_nat (length l))).
  { exists [Z.of_nat (length l)]. cbn. repeat split; auto; try lia.
    intros k r Hk. now injection Hk as <- _. }
  destruct x as [nb|e]; [|injection H as <- <-; exact Hone].
  unfold mbind at 1, mlift at 1 in H.
  destruct (jitem name nb) as [v|e]; [|injection H as <- <-; exact Hone].
  destruct (truthy v) eqn:Ev; cbn [negb] in H; [|unfold mret in H; injection H as <- <-; exact Hone].
  unfold mbind, mlift in H.
  destruct (extend l v) as [l2|e] eqn:El; [|injection H as <- <-; exact Hone].
  destruct (extend_longer _ _ _ Ev El) as (items & -> & _ & Hlt).
  apply IH in H. destruct H as (ks & H1 & H2 & H3 & H4 & H5). cbn [wlog wbatch] in *.
  exists (Z.of_nat (length l) :: ks). repeat split.
  - rewrite H1. rewrite <- app_assoc. reflexivity.
  - lia.
  - destruct ks as [|k r]; [exact I|]. cbn in H2 |- *.
    rewrite (H5 _ _ eq_refl) in *. destruct H2 as [_ H2]. split; [lia|exact H2].
  - constructor; [exact E|exact H3].
  - exact H4.
  - intros k r Hk. now injection Hk as <- _.
Qed.

Lemma increasing_length lo ks sum : increasing_from lo ks -> Forall (fun k => k < sum) ks ->
  (Z.of_nat (length ks) <= Z.max 0 (sum - lo)).
Proof.
  revert lo. induction ks as [|k r IH]; intros lo H HF; cbn [length]; [lia|].
  destruct H as [H1 H2]. inversion HF; subst. specialize (IH _ H2 H4). lia.
Qed.

(** How the loop ends, for an arbitrary device: enough items, or an empty page. *)
Lemma page_loop_end m p name sum : forall fuel l w w' l',
  (Z.to_nat (sum - Z.of_nat (length l)) <= fuel)%nat ->
  page_loop page fuel m p name sum l w = (w', Ok l') ->
  sum <= Z.of_nat (length l') \/
  exists w1 w2 nb v, page m p (Z.of_nat (length l')) w1 = (w2, Ok nb) /\
    jitem name nb = Ok v /\ truthy v = false.
Proof.
  induction fuel as [|fuel IH]; intros l w w' l' Hf H; cbn [page_loop] in H;
    destruct (Z.of_nat (length l) <? sum) eqn:E.
  - apply Z.ltb_lt in E. lia.
  - apply mret_inv in H. destruct H as [_ <-]. apply Z.ltb_ge in E. now left.
  - apply Z.ltb_lt in E. minv H. minv H. apply mlift_inv in Hm0. destruct Hm0 as [-> Hv].
    destruct (truthy a0) eqn:Ev; cbn [negb] in H.
    + minv H. apply mlift_inv in Hm0. destruct Hm0 as [-> Hl].
      destruct (extend_longer _ _ _ Ev Hl) as (items & -> & _ & Hlt).
      apply IH in H; [exact H|]. lia.
    + apply mret_inv in H. destruct H as [_ <-]. right. eauto 8.
  - apply mret_inv in H. destruct H as [_ <-]. apply Z.ltb_ge in E. now left.
Qed.

(** An honest device: the loop ends with exactly the announced list. *)
Variable ans : string -> option json -> answer.
Hypothesis Hh : honest dev_send ans.

Lemma single_honest m p w w' j : single m p w = (w', Ok j) -> ans m (eff_params p) = AResult j.
Proof.
  intros H. unfold single_query in H. minv H. minv H.
  apply send_inv in Hm. destruct Hm as (d & Hd & ->).
  apply mlift_inv in Hm0. destruct Hm0 as [-> Hc]. apply mret_inv in H. destruct H as [_ Hj].
  specialize (Hh _ _ _ _ Hd). cbn in Hh. pose proof (reports_true _ _ Hh) as Ht.
  destruct (ans m (eff_params p)) as [j'|c].
  - now rewrite (reports_result _ _ Hh) in Hj; subst.
  - destruct Ht as (e & He & _). congruence.
Qed.

Lemma firstn_skipn_join {A} (L : list A) k n :
  firstn k L ++ firstn n (skipn k L) = firstn (k + n) L.
Proof.
  revert k. induction L as [|x L IH]; intros [|k]; cbn; auto.
  - now rewrite firstn_nil.
  - now rewrite <- IH.
Qed.

Lemma page_loop_honest m p name L : serves ans m name L -> forall fuel k w w' l',
  (k <= length L)%nat -> (length L - k <= fuel)%nat ->
  page_loop page fuel m p name (Z.of_nat (length L)) (firstn k L) w = (w', Ok l') -> l' = L.
Proof.
  intros Hs. induction fuel as [|fuel IH]; intros k w w' l' Hk Hf H; cbn [page_loop] in H;
    rewrite firstn_length_le in H by exact Hk;
    destruct (Z.of_nat k <? Z.of_nat (length L)) eqn:E;
    try (apply Z.ltb_ge in E; apply mret_inv in H; destruct H as [_ <-];
         apply firstn_all2; lia).
  - apply Z.ltb_lt in E. lia.
  - apply Z.ltb_lt in E. minv H. minv H. apply mlift_inv in Hm0. destruct Hm0 as [-> Hv].
    unfold smart_next_page in Hm. apply single_honest in Hm. cbn [eff_params truthy] in Hm.
    destruct (Hs k ltac:(lia)) as (pg & n & Ha & Hn & Hd).
    unfold start_index in Ha. rewrite Ha in Hm. injection Hm as <-.
    cbn in Hv. unfold dindex in Hv. rewrite Hd in Hv. injection Hv as <-.
    assert (Hne : firstn n (skipn k L) <> []).
    { intros Hx. apply (f_equal (@length json)) in Hx. rewrite firstn_length, skipn_length in Hx.
      cbn in Hx. lia. }
    assert (Et : truthy (JArr (firstn n (skipn k L))) = true).
    { cbn. destruct (firstn n (skipn k L)); [contradiction|reflexivity]. }
    rewrite Et in H. cbn [negb] in H. minv H. apply mlift_inv in Hm. destruct Hm as [-> Hl].
    unfold extend in Hl. cbn [jiter bind] in Hl. injection Hl as <-.
    rewrite firstn_skipn_join in H.
    destruct (Nat.le_gt_cases (k + n) (length L)) as [Hle|Hgt].
    + apply IH in H; auto. lia.
    + rewrite firstn_all2 in H by lia. rewrite <- (firstn_all L) in H at 2.
      apply IH in H; auto. lia.
Qed.

(** Existence: if every message gets a reply the loop succeeds. *)
Hypothesis Hl : live dev_send.

Lemma single_live m p w j : ans m (eff_params p) = AResult j ->
  exists w', single m p w = (w', Ok j).
Proof.
  intros Ha. unfold single_query, mbind, send.
  destruct (Hl (wdev w) (Single m (eff_params p))) as (d' & reply & Hd). rewrite Hd.
  pose proof (Hh _ _ _ _ Hd) as Hr. cbn in Hr. rewrite Ha in Hr.
  pose proof (reports_true _ _ Hr) as Ht. cbn in Ht. unfold mlift. rewrite Ht.
  unfold mret. rewrite (reports_result _ _ Hr). eauto.
Qed.

Lemma page_loop_live m p name L : serves ans m name L -> forall fuel k w,
  (k <= length L)%nat ->
  exists w' l', page_loop page fuel m p name (Z.of_nat (length L)) (firstn k L) w = (w', Ok l').
Proof.
  intros Hs. induction fuel as [|fuel IH]; intros k w Hk; cbn [page_loop];
    rewrite firstn_length_le by exact Hk;
    destruct (Z.of_nat k <? Z.of_nat (length L)) eqn:E; unfold mret; eauto.
  apply Z.ltb_lt in E. destruct (Hs k ltac:(lia)) as (pg & n & Ha & Hn & Hd).
  destruct (single_live m (start_index (Z.of_nat k)) w (JObj pg) Ha) as (w1 & H1).
  unfold smart_next_page. fold (start_index (Z.of_nat k)).
  rewrite (mbind_ok _ _ _ _ _ H1). unfold mbind at 1, mlift at 1.
  cbn [jitem]. unfold dindex. rewrite Hd.
  assert (Hne : firstn n (skipn k L) <> []).
  { intros Hx. apply (f_equal (@length json)) in Hx. rewrite firstn_length, skipn_length in Hx.
    cbn in Hx. lia. }
  assert (Et : truthy (JArr (firstn n (skipn k L))) = true).
  { cbn. destruct (firstn n (skipn k L)); [contradiction|reflexivity]. }
  rewrite Et. cbn [negb]. unfold mbind, mlift, extend. cbn [jiter bind].
  rewrite firstn_skipn_join.
  destruct (Nat.le_gt_cases (k + n) (length L)) as [Hle|Hgt].
  - apply IH; auto.
  - replace (firstn (k + n) L) with (firstn (length L) L)
      by (rewrite firstn_all, firstn_all2; [reflexivity|lia]).
    apply IH. lia.
Qed.
End Smart.

(** ** handle_response_lists *)
Lemma first_list_key_spec d name l : dwf d -> first_list d name l ->
  first_list_key d = Some name /\ dget name d = Some (JArr l).
Proof.
  intros Hwf (d1 & d2 & -> & HF). split.
  - clear Hwf. induction d1 as [|[k v] d1 IH]; cbn; [reflexivity|].
    inversion HF as [|? ? Hv HF']; subst. cbn in Hv.
    destruct v; cbn [is_list]; try (apply IH; exact HF').
    exfalso. now apply (Hv l0).
  - apply In_dget; [exact Hwf|]. apply in_or_app. right. now left.
Qed.

Section Handle.
Context {D : Type}.
Variable dev_send : D -> request -> D * res (dict json).
Variable ans : string -> option json -> answer.
Hypothesis Hh : honest dev_send ans.
Notation hrl := (handle_response_lists (smart_next_page dev_send)).

Lemma handle_lists_honest m p pp v j w w' j' :
  whole ans m p v -> ans m p = AResult j -> truthy j = true ->
  hrl m pp j w = (w', Ok j') -> v = RJson j'.
Proof.
  intros Hw Ha Ht H. unfold handle_response_lists in H.
  destruct Hw as [v [c Hc|j0 Hj Hns Hobj]|d name l L Hd Hwf Hsi Hsum Hfl [n Hn] Hs].
  - congruence.
  - rewrite Hj in Ha. injection Ha as ->.
    destruct Hobj as [->|[d ->]]; [discriminate|].
    minv H. apply mlift_inv in Hm. destruct Hm as [-> Hc]. cbn in Hc. injection Hc as <-.
    unfold dmem in H. rewrite (Hns d eq_refl) in H. cbn [negb] in H.
    apply mret_inv in H. now destruct H as [_ <-].
  - rewrite Hd in Ha. injection Ha as <-.
    minv H. apply mlift_inv in Hm. destruct Hm as [-> Hc]. cbn [jcontains] in Hc. injection Hc as <-.
    unfold dmem in H. destruct (dget "start_index" d); [|contradiction]. cbn [negb] in H.
    rewrite Hsum in H. destruct (first_list_key_spec _ _ _ Hwf Hfl) as [Hf Hg].
    rewrite Hf, Hg in H. cbn [as_int] in H. minv H. apply mret_inv in H. destruct H as [_ <-].
    assert (Hk : exists k, (k <= length L)%nat /\ l = firstn k L).
    { destruct (Nat.le_gt_cases n (length L)); [eauto|].
      exists (length L). split; [lia|]. now rewrite Hn, firstn_all, firstn_all2 by lia. }
    destruct Hk as (k & Hk & ->). rewrite firstn_length_le in Hm by exact Hk.
    apply (page_loop_honest dev_send ans Hh m pp name L Hs) in Hm; [now subst|exact Hk|lia].
Qed.

Hypothesis Hl : live dev_send.
Lemma handle_lists_live m p pp v j w :
  whole ans m p v -> ans m p = AResult j -> truthy j = true ->
  exists w' j', hrl m pp j w = (w', Ok j').
Proof.
  intros Hw Ha Ht. unfold handle_response_lists.
  destruct Hw as [v [c Hc|j0 Hj Hns Hobj]|d name l L Hd Hwf Hsi Hsum Hfl [n Hn] Hs].
  - congruence.
  - rewrite Hj in Ha. injection Ha as ->.
    destruct Hobj as [->|[d ->]]; [discriminate|].
    unfold mbind, mlift. cbn [jcontains]. unfold dmem. rewrite (Hns d eq_refl). cbn. unfold mret. eauto.
  - rewrite Hd in Ha. injection Ha as <-.
    unfold mbind at 1, mlift at 1. cbn [jcontains]. unfold dmem.
    destruct (dget "start_index" d); [|contradiction]. cbn [negb].
    rewrite Hsum. destruct (first_list_key_spec _ _ _ Hwf Hfl) as [-> Hg].
    rewrite Hg. cbn [as_int].
    assert (Hk : exists k, (k <= length L)%nat /\ l = firstn k L).
    { destruct (Nat.le_gt_cases n (length L)); [eauto|].
      exists (length L). split; [lia|]. now rewrite Hn, firstn_all, firstn_all2 by lia. }
    destruct Hk as (k & Hk & ->).
    destruct (page_loop_live dev_send ans Hh Hl m pp name L Hs
      (Z.to_nat (Z.of_nat (length L) - Z.of_nat (length (firstn k L)))) k w Hk) as (w' & l' & Hp).
    rewrite (mbind_ok _ _ _ _ _ Hp). unfold mret. eauto.
Qed.
End Handle.

(** Proofs about child queries. *)
From Coq Require Import Permutation.
From Verif Require Import Base Base_Lemmas Py Codes_Model Smart_Model Smart_Spec Smart_Proofs
  Child_Model Child_Spec.
Open Scope nat_scope.
Open Scope string_scope.

Lemma error_raised c rd : reports (AError c) rd ->
  handle_response_error_code rd true = Err (error_of c).
Proof.
  intros [H1 H2]. rewrite (code_classification_lemma _ _ H2). unfold error_of.
  destruct (kind_of c) eqn:E; try reflexivity.
  exfalso. rewrite kind_of_model in E. unfold model_kind in E.
  apply Z.eqb_neq in H1. rewrite H1 in E.
  destruct (zmem c smart_retryable_errors); [discriminate|].
  destruct (zmem c smart_authentication_errors); discriminate.
Qed.

Lemma truthy_obj (d : dict json) k v : dget k d = Some v -> truthy (JObj d) = true.
Proof. destruct d; [discriminate | reflexivity]. Qed.

Lemma unwrap_relayed m rd response : relayed rd response -> dget "error_code" rd <> None ->
  unwrap_child m response =
    let result := match dget "result" rd with Some v => v | None => JNull end in
    let! multi_responses := get_if_truthy "responses" result in
    if truthy multi_responses then let! l := jiter multi_responses in child_multi l []
    else let! _ := handle_response_error_code rd true in Ok [(m, RJson result)].
Proof.
  intros (c & Hc & Hrd) He. unfold unwrap_child. rewrite Hc.
  unfold get_if_truthy at 1. rewrite (truthy_obj _ _ _ Hrd). cbn [jget bind].
  rewrite Hrd. destruct (dget "error_code" rd) eqn:E; [|congruence].
  rewrite (truthy_obj _ _ _ E). cbn [jget bind]. reflexivity.
Qed.

Lemma reports_code a rd : reports a rd -> dget "error_code" rd <> None.
Proof. destruct a; intros [H1 H2]; congruence. Qed.

Lemma plain_responses j : plain j ->
  exists v, get_if_truthy "responses" j = Ok v /\ truthy v = false.
Proof.
  intros [-> | (d & -> & Hd)]; [exists JNull; split; reflexivity|].
  unfold get_if_truthy. destruct (truthy (JObj d)); [|exists JNull; split; reflexivity].
  cbn [jget]. destruct (dget "responses" d); eexists; split; try reflexivity. exact Hd.
Qed.

Lemma child_single_lemma hub id m p rd response a :
  hub (envelope id m p) = Ok response -> relayed rd response -> reports a rd ->
  plain (match dget "result" rd with Some v => v | None => JNull end) ->
  child_query hub id (CDict [(m, p)]) =
    match a with
    | AResult j => Ok [(m, RJson j)]
    | AError c => Err (error_of c)
    end.
Proof.
  intros Hh Hr Ha Hp. unfold child_query.
  change (wrap_child id (CDict [(m, p)])) with (envelope id m p). rewrite Hh. cbn [bind].
  rewrite (unwrap_relayed _ _ _ Hr (reports_code _ _ Ha)). cbv zeta.
  destruct (plain_responses _ Hp) as (v & -> & Hv). cbn [bind]. rewrite Hv.
  destruct a as [j|c].
  - rewrite (reports_true _ _ Ha : _ = Ok None), (reports_result _ _ Ha). reflexivity.
  - rewrite (error_raised _ _ Ha). reflexivity.
Qed.

Lemma child_name_lemma hub id m : child_query hub id (CName m) = child_query hub id (CDict [(m, JNull)]).
Proof. reflexivity. Qed.

Lemma child_multi_gives ans : forall order rs acc, Forall2 (child_reply ans) order rs ->
  child_multi rs acc = Ok (dupdate acc (map (fun mp => (fst mp, entry_of (ans (fst mp) (snd mp)))) order)).
Proof.
  intros order rs acc H. revert acc. induction H as [|[m p] x order rs (o & -> & Hm & Hr) _ IH]; intro acc;
    [reflexivity|].
  cbn [fst snd] in *. cbn [child_multi]. unfold dindex. rewrite Hm. cbn [bind].
  rewrite (reports_false _ _ Hr). cbn [bind]. rewrite IH. cbn [map dupdate fold_left fst snd].
  unfold entry_of at 2. destruct (ans m p) as [j|c]; [rewrite (reports_result _ _ Hr)|]; reflexivity.
Qed.

Lemma dget_map_ans (f : string -> json -> rval) k d :
  dget k (map (fun mp => (fst mp, f (fst mp) (snd mp))) d)
  = match dget k d with Some p => Some (f k p) | None => None end.
Proof.
  induction d as [|[k' v] d IH]; [reflexivity|]. cbn [map fst snd dget].
  destruct (String.eqb_spec k k'); [subst; reflexivity | exact IH].
Qed.

Lemma dget_perm {A} (d e : dict A) k : dwf d -> Permutation d e -> dget k d = dget k e.
Proof.
  intros Hd HP.
  assert (He : dwf e) by (unfold dwf, dkeys in *; eapply Permutation_NoDup; [apply Permutation_map, HP | exact Hd]).
  destruct (dget k d) as [v|] eqn:E.
  - symmetry. apply In_dget; [exact He|]. eapply Permutation_in; [exact HP|]. apply dget_In, E.
  - symmetry. apply dget_None. apply dget_None in E. intro H. apply E.
    unfold dkeys in *. eapply Permutation_in; [apply Permutation_map, Permutation_sym, HP | exact H].
Qed.

Lemma dwf_map_vals {A B} (f : string -> A -> B) (d : dict A) :
  dwf d -> dwf (map (fun mp => (fst mp, f (fst mp) (snd mp))) d).
Proof. unfold dwf, dkeys. rewrite map_map. cbn. auto. Qed.

Lemma child_multi_lemma hub id ans req order rs r rd response :
  length req <> 1 -> req <> [] -> dwf req ->
  hub (wrap_child id (CDict req)) = Ok response -> relayed rd response ->
  reports (AResult (JObj r)) rd -> dget "responses" r = Some (JArr rs) ->
  Permutation req order -> Forall2 (child_reply ans) order rs ->
  exists out, child_query hub id (CDict req) = Ok out /\ dwf out /\
    forall m, dget m out = match dget m req with
                           | Some p => Some (entry_of (ans m p))
                           | None => None
                           end.
Proof.
  intros Hl Hne Hwf Hh Hr Ha Hrs HP HF.
  assert (Hwfo : dwf order)
    by (unfold dwf, dkeys in *; eapply Permutation_NoDup; [apply Permutation_map, HP | exact Hwf]).
  set (out := dupdate [] (map (fun mp => (fst mp, entry_of (ans (fst mp) (snd mp)))) order)).
  exists out. repeat split.
  - unfold child_query. rewrite Hh. cbn [bind].
    rewrite (unwrap_relayed _ _ _ Hr (reports_code _ _ Ha)). cbv zeta.
    rewrite (reports_result _ _ Ha). unfold get_if_truthy. rewrite (truthy_obj _ _ _ Hrs).
    cbn [jget]. rewrite Hrs. cbn [bind jiter].
    assert (Hrs' : truthy (JArr rs) = true).
    { inversion HF; subst; [|reflexivity]. apply Permutation_sym, Permutation_nil in HP. congruence. }
    rewrite Hrs'. apply child_multi_gives, HF.
  - apply dwf_dupdate, dwf_nil.
  - intro m. unfold out. rewrite dget_dupdate_wf.
    + rewrite (dget_map_ans (fun m p => entry_of (ans m p))), <- (dget_perm req order m Hwf HP).
      destruct (dget m req); reflexivity.
    + apply (dwf_map_vals (fun m p => entry_of (ans m p))), Hwfo.
Qed.

(** ** Cameras *)
Lemma cam_multi_gives ans raise : forall req rs acc, Forall2 (cam_reply ans) req rs ->
  (raise = true -> Forall (fun mp => exists j, ans (fst mp) (snd mp) = AResult j) req) ->
  cam_multi raise rs (dkeys req) acc
  = Ok (dupdate acc (map (fun mp => (fst mp, entry_of (ans (fst mp) (snd mp)))) req)).
Proof.
  intros req rs acc H. revert acc.
  induction H as [|[m p] x req rs (o & r & rd & -> & Ho & Hrd & Hr) _ IH]; intros acc Hraise; [reflexivity|].
  cbn [fst snd] in *. cbn [cam_multi dkeys map fst jitem]. unfold dindex. rewrite Ho.
  cbn [bind jitem]. unfold dindex. rewrite Hrd. cbn [bind].
  assert (Hc : handle_response_error_code rd raise
               = Ok (match ans m p with AResult _ => None | AError c => Some (reported_code c) end)).
  { destruct raise; [|apply reports_false, Hr].
    specialize (Hraise eq_refl). inversion Hraise as [|? ? [j Hj]]; subst. cbn [fst snd] in Hj.
    rewrite Hj in Hr |- *. exact (reports_true _ _ Hr). }
  rewrite Hc. cbn [bind]. change (map fst req) with (dkeys req). rewrite IH.
  2: { intro E. specialize (Hraise E). inversion Hraise; assumption. }
  cbn [map dupdate fold_left fst snd].
  unfold entry_of at 2. destruct (ans m p) as [j|c]; [rewrite (reports_result _ _ Hr)|]; reflexivity.
Qed.

Lemma cam_query_open hub id req response rs :
  hub (wrap_cam id req) = Ok response -> cam_responses rs response ->
  cam_child_query hub id (CDict req) = cam_multi (Nat.eqb (length req) 1) rs (dkeys req) [].
Proof.
  intros Hh (m & Hm & Hrs). unfold cam_child_query. rewrite Hh. cbn [bind]. unfold dindex.
  rewrite Hm. cbn [bind jitem]. unfold dindex. rewrite Hrs. reflexivity.
Qed.

Lemma cam_ordered_lemma hub id ans req response rs :
  length req <> 1 -> dwf req ->
  hub (wrap_cam id req) = Ok response -> cam_responses rs response ->
  Forall2 (cam_reply ans) req rs ->
  exists out, cam_child_query hub id (CDict req) = Ok out /\ dwf out /\
    forall m, dget m out = match dget m req with
                           | Some p => Some (entry_of (ans m p))
                           | None => None
                           end.
Proof.
  intros Hl Hwf Hh Hr HF. eexists. split; [|split].
  - rewrite (cam_query_open _ _ _ _ _ Hh Hr). apply (cam_multi_gives ans); [exact HF|].
    intro E. apply Nat.eqb_eq in E. contradiction.
  - apply dwf_dupdate, dwf_nil.
  - intro m. rewrite dget_dupdate_wf.
    + rewrite (dget_map_ans (fun m p => entry_of (ans m p))). destruct (dget m req); reflexivity.
    + apply (dwf_map_vals (fun m p => entry_of (ans m p))), Hwf.
Qed.

Lemma cam_single_lemma hub id ans m p response x :
  hub (wrap_cam id [(m, p)]) = Ok response -> cam_responses [x] response -> cam_reply ans (m, p) x ->
  cam_child_query hub id (CDict [(m, p)]) =
    match ans m p with
    | AResult j => Ok [(m, RJson j)]
    | AError c => Err (error_of c)
    end.
Proof.
  intros Hh Hr Hx. rewrite (cam_query_open _ _ _ _ _ Hh Hr).
  destruct (ans m p) as [j|c] eqn:E.
  - change (dkeys [(m, p)]) with (dkeys [(m, p)]). cbn [length Nat.eqb].
    rewrite (cam_multi_gives ans true [(m, p)] [x] []).
    + cbn. rewrite E. reflexivity.
    + constructor; [exact Hx | constructor].
    + intros _. constructor; [|constructor]. exists j. exact E.
  - destruct Hx as (o & r & rd & -> & Ho & Hrd & Hrep). cbn [fst snd] in Hrep. rewrite E in Hrep.
    cbn [length Nat.eqb dkeys map fst cam_multi jitem]. unfold dindex. rewrite Ho. cbn [bind jitem].
    unfold dindex. rewrite Hrd. cbn [bind]. rewrite (error_raised _ _ Hrep). reflexivity.
Qed.

Lemma cam_multi_no_more raise : forall rs methods acc out,
  cam_multi raise rs methods acc = Ok out -> length rs <= length methods.
Proof.
  induction rs as [|x rs IH]; intros methods acc out H; [cbn; lia|].
  cbn [cam_multi] in H.
  destruct (jitem "result" x) as [r|]; [|discriminate]. cbn [bind] in H.
  destruct (jitem "response_data" r) as [rd|]; [|discriminate]. cbn [bind] in H.
  destruct methods as [|m ms]; [discriminate|].
  destruct rd as [| | | | | |rd]; try discriminate.
  destruct (handle_response_error_code rd raise); [|discriminate]. cbn [bind] in H.
  apply IH in H. cbn. lia.
Qed.

(** An answer for [methods] stays out of the keys not among the first [length rs]. *)
Lemma cam_multi_keys raise : forall rs methods acc out,
  cam_multi raise rs methods acc = Ok out ->
  forall m, In m (dkeys out) <-> In m (dkeys acc) \/ In m (firstn (length rs) methods).
Proof.
  induction rs as [|x rs IH]; intros methods acc out H m; [injection H as <-; cbn; tauto|].
  cbn [cam_multi] in H.
  destruct (jitem "result" x) as [r|]; [|discriminate]. cbn [bind] in H.
  destruct (jitem "response_data" r) as [rd|]; [|discriminate]. cbn [bind] in H.
  destruct methods as [|m1 ms]; [discriminate|].
  destruct rd as [| | | | | |rd]; try discriminate.
  destruct (handle_response_error_code rd raise); [|discriminate]. cbn [bind] in H.
  rewrite (IH _ _ _ H m), In_dkeys_dset. cbn [length firstn In]. intuition congruence.
Qed.

(** Proofs about queries to children.  No statement of record lives here. *)
From Verif Require Import Base Base_Lemmas Py Codes_Model Retry_Model Smart_Model Smart_Spec Smart_Proofs Child_Model Child_Spec Child_Proofs
  CamQuery_Model Hub_Model Stack_Spec Hub_Spec.
Open Scope string_scope.
Open Scope list_scope.

Lemma dset_fresh {A} k (v : A) d : ~ In k (dkeys d) -> dset k v d = d ++ [(k, v)].
Proof.
  induction d as [|[k' v'] d IH]; intros H; [reflexivity|]. cbn [dset]. cbn in H.
  destruct (String.eqb_spec k k') as [->|N]; [tauto|]. rewrite IH; [reflexivity|tauto].
Qed.
Lemma dupdate_fresh {A} (e : dict A) : forall d, NoDup (dkeys d ++ dkeys e) -> dupdate d e = d ++ e.
Proof.
  induction e as [|[k v] e IH]; intros d H; [now rewrite app_nil_r|]. cbn [dupdate fold_left fst snd].
  change (dupdate (dset k v d) e = d ++ (k, v) :: e). cbn [dkeys map fst] in H. apply NoDup_remove in H as H'. destruct H' as [_ H'].
  rewrite dset_fresh by (intros F; apply H', in_or_app; now left). rewrite IH; [now rewrite <- app_assoc|].
  unfold dkeys in *. rewrite map_app, <- app_assoc. exact H.
Qed.

Definition entries (r : list (string * answer)) : dict rval := map (fun x => (fst x, entry_of (snd x))) r.
Lemma items_give : forall xs r acc, Forall2 item xs r -> child_multi xs acc = Ok (dupdate acc (entries r)).
Proof.
  intros xs r acc H. revert acc. induction H as [|x [m a] xs r (o & -> & Hm & Hr) _ IH]; intro acc; [reflexivity|].
  cbn [fst snd] in *. cbn [child_multi]. unfold dindex. rewrite Hm. cbn [bind].
  rewrite (reports_false _ _ Hr). cbn [bind]. rewrite IH. cbn [entries map dupdate fold_left fst snd].
  destruct a as [j|c]; cbn [entry_of]; [rewrite (reports_result _ _ Hr)|]; reflexivity.
Qed.

Section Kids.
Context {D : Type}.
Variable life : D -> D.
Variable act : string -> D -> string -> option json -> D * answer.
Notation acts := (acts act).
Lemma acts_names id : forall l d d' r, acts id d l = (d', r) -> map fst r = map fst l.
Proof.
  induction l as [|[m p] l IH]; intros d d' r H; cbn in H; [now injection H as _ <-|].
  destruct (act id d m p) as [d1 a]. destruct (Hub_Spec.acts act id d1 l) as [d2 r2] eqn:E. injection H as _ <-.
  cbn. f_equal. eapply IH, E.
Qed.

Lemma query_ok {S A} (exec : S -> S * res A) treset rc s s' a : (0 <= rc)%Z -> exec s = (s', Ok a) ->
  smart_query exec treset rc s = (s', [Exec], Ok a).
Proof. intros H E. unfold smart_query. replace (rc + 1)%Z with (Z.succ rc) by lia. rewrite Z2Nat.inj_succ by lia. cbn. now rewrite E. Qed.

Section Smart.
Variable send : D -> request -> D * res (dict json).
Variable treset : D -> D.
Lemma hub_single id method params (w : world D) d' reply rd :
  send (wdev w) (message id method params) = (d', Ok reply) -> carries rd reply ->
  exists c, smart_execute_query send [("control_child", JObj [("device_id", JStr id);
    ("requestData", JObj [("method", JStr method); ("params", params)])])] w =
    (mkW d' (wbatch w) (wlog w ++ [message id method params]), Ok [("control_child", RJson (JObj c))]) /\ dget "responseData" c = Some (JObj rd).
Proof.
  intros Hs (c & Hr & Hd & Hn). exists c. split; [|exact Hd].
  unfold smart_execute_query, single_query, mbind, Smart_Model.send, eff_params. cbn [truthy].
  fold (message id method params). change (Single "control_child" _) with (message id method params).
  rewrite Hs. unfold mlift, mret. rewrite (reports_true _ _ Hr). rewrite (reports_result _ _ Hr).
  rewrite (truthy_obj _ _ _ Hd). unfold handle_response_lists, mbind, mlift, mret. cbn [jcontains]. unfold dmem. rewrite Hn. reflexivity.
Qed.

Lemma child_through id req rc w : (0 <= rc)%Z -> proper req -> relays life act send id req ->
  child_over (smart_ask send treset) id req rc w =
  (let (d', r) := call life act id (wdev w) req in (mkW d' (wbatch w) (wlog w ++ [told id req]), [Exec], r)).
Proof.
  intros Hrc (Hne & Hnd & Hm) HR. unfold call. destruct (Hub_Spec.acts act id (life (wdev w)) (content req)) as [d' r] eqn:E.
  destruct (HR _ _ _ E) as (reply & rd & Hs & Hc & Hy). pose proof (acts_names _ _ _ _ _ E) as Hn.
  assert (W : exists method params, told id req = message id method params /\
    wrap_child id req = [("control_child", JObj [("device_id", JStr id); ("requestData", JObj [("method", JStr method); ("params", params)])])]).
  { destruct req as [m|[|[m p] [|x l]]]; [do 2 eexists; split; reflexivity..|]. cbn [told].
    do 2 eexists. split; [reflexivity|]. unfold wrap_child. cbn [method_and_params].
    erewrite map_ext; [reflexivity|]. intros [k v]. cbn [fst snd]. destruct (truthy v); reflexivity. }
  destruct W as (method & params & Ht & Hw). rewrite Ht in *. destruct (hub_single _ _ _ _ _ _ _ Hs Hc) as (c & Hq & Hd).
  unfold child_over. rewrite Hw. unfold smart_ask. rewrite (query_ok _ _ _ _ _ _ Hrc Hq). f_equal. cbn [bind jsons map fst snd as_json].
  set (resp := [("control_child", JObj c)]).
  assert (Hrel : relayed rd resp) by (exists c; split; [reflexivity|exact Hd]).
  destruct r as [|[m a] [|y r]].
  - destruct (content req); [congruence|discriminate].
  - destruct Hy as (Ha & Hp).
    assert (R : req = CName m \/ exists p, req = CDict [(m, p)]).
    { destruct req as [m'|[|[m' p'] [|x l]]]; try discriminate; injection Hn as ->; eauto. }
    transitivity (child_query (fun _ => Ok resp) id (CDict [(m, JNull)])).
    + destruct R as [->|(p & ->)]; reflexivity.
    + rewrite (child_single_lemma _ _ _ _ _ _ _ eq_refl Hrel Ha Hp). destruct a; reflexivity.
  - destruct Hy as (b & xs & Hb & Hxs & HF). unfold child_query. cbn [bind].
    rewrite (unwrap_relayed _ _ _ Hrel (reports_code _ _ Hb)). cbv zeta. rewrite (reports_result _ _ Hb).
    unfold get_if_truthy. rewrite (truthy_obj _ _ _ Hxs). cbn [jget]. rewrite Hxs. cbn [bind].
    assert (T : truthy (JArr xs) = true) by (inversion HF; reflexivity). rewrite T. cbn [jiter bind].
    rewrite (items_give _ _ _ HF). rewrite dupdate_fresh; [destruct a; reflexivity|].
    cbn [app dkeys map]. unfold entries, dkeys. rewrite map_map. cbn [fst]. rewrite <- Hn in Hnd. exact Hnd.
Qed.
Lemma all_through qs : relayed_all life act send qs -> forall w,
  ask_all (through send treset) w qs = ask_all (at_hand life act send treset) w qs.
Proof.
  induction 1 as [|[q rc] qs H _ IH]; intros w; [reflexivity|]. cbn [fst snd] in H.
  assert (E : through send treset q rc w = at_hand life act send treset q rc w).
  { destruct q as [q|id req]; [reflexivity|]. destruct H as (H1 & H2 & H3). apply child_through; assumption. }
  cbn [ask_all]. rewrite E. destruct (at_hand _ _ _ _ q rc w) as [[w1 tr] r]. now rewrite IH.
Qed.
End Smart.

Section Cam.
Variable send : D -> request + dict json -> D * res (dict json).
Variable treset : D -> D.
Lemma cam_items_give (raise : bool) : forall xs r acc, Forall2 cam_item xs r ->
  (raise = true -> Forall (fun x => exists j, snd x = AResult j) r) ->
  cam_multi raise xs (map fst r) acc = Ok (dupdate acc (entries r)).
Proof.
  intros xs r acc H. revert acc. induction H as [|x [m a] xs r (o & c & rd & -> & Ho & Hc & Hr) _ IH]; intros acc Hraise; [reflexivity|].
  cbn [fst snd] in *. cbn [cam_multi map fst jitem]. unfold dindex. rewrite Ho. cbn [bind jitem]. unfold dindex. rewrite Hc. cbn [bind].
  assert (Hh : handle_response_error_code rd raise = Ok (match a with AResult _ => None | AError c => Some (reported_code c) end)).
  { destruct raise; [|apply reports_false, Hr]. specialize (Hraise eq_refl). inversion Hraise as [|? ? [j Hj]]; subst. cbn in Hj. subst a.
    exact (reports_true _ _ Hr). }
  rewrite Hh. cbn [bind]. rewrite IH by (intros E; specialize (Hraise E); inversion Hraise; assumption).
  cbn [entries map dupdate fold_left fst snd]. destruct a as [j|z]; cbn [entry_of]; [rewrite (reports_result _ _ Hr)|]; reflexivity.
Qed.
Lemma cam_child_through id l rc w : (0 <= rc)%Z -> proper (CDict l) -> cam_relays life act send id l ->
  cam_child_over (fun d rc => cam_ask send treset (QDict d) rc) id (CDict l) rc w =
  (let (d', r) := call life act id (wdev w) (CDict l) in (mkW d' (wbatch w) (wlog w), [Exec], r)).
Proof.
  intros Hrc (Hne & Hnd & Hm) HR. unfold call. destruct (Hub_Spec.acts act id (life (wdev w)) (content (CDict l))) as [d' r] eqn:E.
  destruct (HR _ _ _ E) as (reply & b & xs & Hs & He & Hb & Hx & HF). pose proof (acts_names _ _ _ _ _ E) as Hn.
  cbn [cam_child_over].
  assert (Q : cam_execute_query (fun d q => send d (inl q)) (fun d q => send d (inr q)) (QDict (wrap_cam id l)) w =
    (mkW d' (wbatch w) (wlog w), Ok [("multipleRequest", RJson (JObj b))])).
  { unfold cam_execute_query, wrap_cam, cam_execute. cbn [length Nat.eqb]. change (smem "multipleRequest" plain_methods) with true. cbn [andb].
    unfold get_single. change (String.eqb "multipleRequest" "multipleRequest") with true. cbv iota.
    unfold mbind, mlift, run_single, mbind. cbn [s_request]. fold (cam_told id l).
    change (send (wdev w) (inr (cam_told id l))) with (send (wdev w) (inr (cam_told id l))) in Hs. unfold cam_told in *.
    rewrite Hs. unfold mlift, single_result. cbn [s_type s_name].
    change (String.eqb "multi" "get") with false. change (String.eqb "multi" "do") with false. change (String.eqb "multi" "set") with false.
    change (String.eqb "multi" "multi") with true. unfold dmem, dindex. rewrite Hb.
    destruct He as [He|He]; rewrite He; [reflexivity|]. cbn [bind]. unfold handle_response_error_code. rewrite He. reflexivity. }
  unfold cam_ask. rewrite (query_ok _ _ _ _ _ _ Hrc Q). f_equal. cbn [bind jsons map fst snd as_json].
  etransitivity; [apply (cam_query_open _ id l [("multipleRequest", JObj b)] xs eq_refl); exists b; split; [reflexivity|exact Hx]|].
  assert (K : dkeys l = map fst r) by (rewrite Hn; cbn [content]; rewrite map_map; reflexivity). rewrite K.
  assert (L : length l = length r) by (rewrite <- (map_length fst l), <- (map_length fst r); now f_equal). rewrite L.
  assert (N : NoDup (map fst r)) by (rewrite Hn; exact Hnd).
  assert (F : dupdate [] (entries r) = entries r).
  { rewrite dupdate_fresh; [reflexivity|]. cbn [app dkeys map]. unfold entries, dkeys. rewrite map_map. exact N. }
  destruct r as [|[m a] [|y r]].
  - cbn. inversion HF. reflexivity.
  - destruct a as [j|z].
    + cbn [length Nat.eqb]. rewrite (cam_items_give true xs _ [] HF) by (intros _; repeat constructor; cbn; eauto). now rewrite F.
    + inversion HF as [|x ? xs' ? (o & c & rd & -> & Ho & Hc & Hr) HF']; subst. inversion HF'; subst.
      cbn [length Nat.eqb map fst cam_multi jitem]. unfold dindex. rewrite Ho. cbn [bind jitem]. unfold dindex. rewrite Hc. cbn [bind].
      cbn [snd] in Hr. rewrite (error_raised _ _ Hr). reflexivity.
  - cbn [length Nat.eqb]. rewrite (cam_items_give false xs _ [] HF) by discriminate. rewrite F. destruct a; reflexivity.
Qed.
Lemma cam_all_through qs : cam_relayed_all life act send qs -> forall w,
  ask_all (cam_through send treset) w qs = ask_all (cam_at_hand life act send treset) w qs.
Proof.
  induction 1 as [|[q rc] qs H _ IH]; intros w; [reflexivity|]. cbn [fst snd] in H.
  assert (E : cam_through send treset q rc w = cam_at_hand life act send treset q rc w).
  { destruct q as [q|id req]; [reflexivity|]. destruct H as (H1 & H2 & H3). apply cam_child_through; assumption. }
  cbn [ask_all]. rewrite E. destruct (cam_at_hand _ _ _ _ q rc w) as [[w1 tr] r]. now rewrite IH.
Qed.
End Cam.
End Kids.

(** ** Programs as programs of the hub alone *)
Section Unwrap.
Context {D : Type}.
Variable send : D -> request -> D * res (dict json).
Variable treset : D -> D.
Definition wrapped (x : ask * Z) : dict json * Z :=
  (match fst x with ToHub q => q | ToKid id req => wrap_child id req end, snd x).
Definition unwrapped (x : ask * Z) (r : list Retry_Model.act * res (dict rval)) : list Retry_Model.act * res (dict rval) :=
  match fst x with
  | ToHub _ => r
  | ToKid id req => (fst r, let! out := snd r in child_query (fun _ => Ok (jsons out)) id req)
  end.
Fixpoint unwrap_all (qs : list (ask * Z)) (rs : list (list Retry_Model.act * res (dict rval))) :=
  match qs, rs with q :: qs', r :: rs' => unwrapped q r :: unwrap_all qs' rs' | _, _ => [] end.
Lemma through_wrapped qs : forall w,
  ask_all (through send treset) w qs =
  (let (w', rs) := ask_all (smart_ask send treset) w (map wrapped qs) in (w', unwrap_all qs rs)).
Proof.
  induction qs as [|[q rc] qs IH]; intros w; [reflexivity|]. cbn [ask_all map]. unfold wrapped at 1. cbn [fst snd].
  assert (E : through send treset q rc w = (let '(w1, tr, r) := smart_ask send treset (fst (wrapped (q, rc))) rc w in (w1, fst (unwrapped (q, rc) (tr, r)), snd (unwrapped (q, rc) (tr, r))))).
  { destruct q as [q|id req]; cbn [through wrapped fst snd unwrapped]; [destruct (smart_ask _ _ _ _ _) as [[? ?] ?]; reflexivity|].
    unfold child_over. destruct (smart_ask _ _ _ _ _) as [[? ?] ?]; reflexivity. }
  rewrite E. unfold wrapped at 1. cbn [fst].
  destruct (smart_ask send treset _ rc w) as [[w1 tr] r]. rewrite IH. destruct (ask_all _ w1 _) as [w2 rs].
  cbn [unwrap_all]. destruct (unwrapped (q, rc) (tr, r)); reflexivity.
Qed.
End Unwrap.
Section CamUnwrap.
Context {D : Type}.
Variable send : D -> request + dict json -> D * res (dict json).
Variable treset : D -> D.
Definition cam_wrapped (x : cam_asks * Z) : cam_request * Z :=
  (match fst x with CamHub q => q | CamKid id l => QDict (wrap_cam id l) end, snd x).
Definition cam_unwrapped (x : cam_asks * Z) (r : list Retry_Model.act * res (dict rval)) : list Retry_Model.act * res (dict rval) :=
  match fst x with
  | CamHub _ => r
  | CamKid id l => (fst r, let! out := snd r in cam_child_query (fun _ => Ok (jsons out)) id (CDict l))
  end.
Fixpoint cam_unwrap_all (qs : list (cam_asks * Z)) (rs : list (list Retry_Model.act * res (dict rval))) :=
  match qs, rs with q :: qs', r :: rs' => cam_unwrapped q r :: cam_unwrap_all qs' rs' | _, _ => [] end.
Lemma cam_through_wrapped qs : forall w,
  ask_all (cam_through send treset) w qs =
  (let (w', rs) := ask_all (cam_ask send treset) w (map cam_wrapped qs) in (w', cam_unwrap_all qs rs)).
Proof.
  induction qs as [|[q rc] qs IH]; intros w; [reflexivity|]. cbn [ask_all map]. unfold cam_wrapped at 1. cbn [fst snd].
  assert (E : cam_through send treset q rc w = (let '(w1, tr, r) := cam_ask send treset (fst (cam_wrapped (q, rc))) rc w in (w1, fst (cam_unwrapped (q, rc) (tr, r)), snd (cam_unwrapped (q, rc) (tr, r))))).
  { destruct q as [q|id req]; cbn [cam_through cam_wrapped fst snd cam_unwrapped]; [destruct (cam_ask _ _ _ _ _) as [[? ?] ?]; reflexivity|].
    unfold cam_child_over. destruct (cam_ask _ _ _ _ _) as [[? ?] ?]; reflexivity. }
  rewrite E. unfold cam_wrapped at 1. cbn [fst].
  destruct (cam_ask send treset _ rc w) as [[w1 tr] r]. rewrite IH. destruct (ask_all _ w1 _) as [w2 rs].
  cbn [cam_unwrap_all]. destruct (cam_unwrapped (q, rc) (tr, r)); reflexivity.
Qed.
End CamUnwrap.

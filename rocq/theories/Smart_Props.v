(** Properties C07, C08, C09: SMART queries. *)
From Verif Require Import Base Base_Lemmas Py Codes_Model Smart_Model Smart_Spec Smart_Proofs
  Smart_Paging_Proofs Smart_Multi_Proofs Retry_Model.
Open Scope Z_scope.

(** * C09: error codes *)
Theorem smart_code_classification : forall z resp, dget "error_code" resp = Some (JInt z) ->
  handle_response_error_code resp true =
    match kind_of z with
    | KindSuccess => Ok None
    | KindRetryable => Err (KRetry (Some (reported_code z)))
    | KindAuthentication => Err (KAuth (Some (reported_code z)))
    | KindDevice => Err (KDevice (Some (reported_code z)))
    end.
Proof. exact code_classification_lemma. Qed.
Print Assumptions smart_code_classification.

Theorem smart_code_not_raising : forall z resp, dget "error_code" resp = Some (JInt z) ->
  handle_response_error_code resp false = Ok (if z =? 0 then None else Some (reported_code z)).
Proof. exact code_not_raising_lemma. Qed.
Print Assumptions smart_code_not_raising.

Theorem smart_code_missing : forall resp b, dget "error_code" resp = None ->
  handle_response_error_code resp b =
    if b then Err (KDevice (Some (-100000))) else Ok (Some (-100000)).
Proof. exact missing_code_lemma. Qed.
Print Assumptions smart_code_missing.

Theorem smart_code_tables :
  (forall z, In z smart_retryable_errors -> ~ In z smart_authentication_errors) /\
  (forall z, In z smart_retryable_errors \/ In z smart_authentication_errors ->
     z <> 0 /\ In z smart_error_codes /\ reported_code z = z) /\
  NoDup smart_error_codes.
Proof. exact code_tables_lemma. Qed.
Print Assumptions smart_code_tables.

Example smart_codes_ex :
  map (fun z => handle_response_error_code [("error_code"%string, JInt z)] true) [0; 9999; -1501; -1002; 77] =
  [Ok None; Err (KRetry (Some 9999)); Err (KAuth (Some (-1501))); Err (KDevice (Some (-1002)));
   Err (KDevice (Some (-100000)))].
Proof. vm_compute. reflexivity. Qed.

(** * C07: several methods *)

(** The methods that must be sent alone, and the others with the parameters they were given. *)
Definition asked_alone : list string := ["getConnectStatus"; "scanApList"]%string.
Definition fine_batch (size : Z) (r : request) : Prop :=
  match r with
  | Single _ _ => True
  | Batch l => Z.of_nat (length l) <= size /\ forall m p, In (m, p) l -> ~ In m asked_alone
  end.
Fixpoint together (requests : dict json) : list (string * option json) :=
  match requests with
  | [] => []
  | (m, p) :: rest => if in_dec string_dec m asked_alone then together rest else (m, if truthy p then Some p else None) :: together rest
  end.
Lemma together_multi requests : together requests = multi_requests requests.
Proof.
  induction requests as [|[m p] rest IH]; [reflexivity|]. cbn [together]. unfold multi_requests. cbn [filter fst]. fold (multi_requests rest).
  assert (S : smem m force_single_request = true <-> In m asked_alone).
  { unfold smem. rewrite existsb_exists. split; [intros (x & Hx & E); apply String.eqb_eq in E; subst x; exact Hx|].
    intro H. exists m. split; [exact H|apply String.eqb_refl]. }
  destruct (in_dec string_dec m asked_alone) as [H|H].
  - apply S in H. rewrite H. cbn [negb]. exact IH.
  - destruct (smem m force_single_request) eqn:E; [exfalso; apply H, S; reflexivity|]. cbn [negb map fst snd]. rewrite IH. reflexivity.
Qed.
(** No batch is larger than the batch size or holds a method that must be sent
    alone; for an arbitrary device and whatever the outcome. *)
Theorem smart_batches_bounded : forall D dev_send requests (w w' : world D) a,
  smart_execute_query dev_send requests w = (w', a) ->
  exists ext, wlog w' = wlog w ++ ext /\ Forall (fine_batch (Z.max (wbatch w) 0)) ext.
Proof. intros D. exact smart_log_lemma. Qed.
Print Assumptions smart_batches_bounded.

(** The batches of a successful query are the batchable methods, each once, in order. *)
Theorem smart_batches_partition : forall D dev_send requests (w w' : world D) r,
  length requests <> 1%nat -> 2 <= wbatch w ->
  smart_execute_query dev_send requests w = (w', Ok r) ->
  exists ext, wlog w' = wlog w ++ ext /\ batched ext = together requests.
Proof. intros D s q w w' r. rewrite together_multi. apply smart_partition_lemma. Qed.
Print Assumptions smart_batches_partition.

(** Arbitrary device: success means an entry for every method asked. *)
Theorem smart_every_method_answered : forall D dev_send requests (w w' : world D) r,
  wbatch w <> 1 -> length requests <> 1%nat ->
  smart_execute_query dev_send requests w = (w', Ok r) ->
  dwf r /\ forall m, In m (dkeys requests) -> In m (dkeys r).
Proof. intros D. exact smart_covers_lemma. Qed.
Print Assumptions smart_every_method_answered.

(** A device that answers truthfully, however it splits and reorders: exactly
    the requested methods, each with its own value. *)
Theorem smart_answers_exact : forall D dev_send ans, honest dev_send ans ->
  forall requests, dwf requests -> forall val (w w' : world D) r,
  wbatch w <> 1 -> length requests <> 1%nat ->
  (forall m p, dget m requests = Some p -> simple ans m (eff_params p) (val m)) ->
  smart_execute_query dev_send requests w = (w', Ok r) ->
  dwf r /\ (forall m, dget m r = if dmem m requests then Some (val m) else None).
Proof. intros D. exact smart_exact_lemma. Qed.
Print Assumptions smart_answers_exact.

Theorem smart_answers_exact_paged : forall D dev_send ans, honest dev_send ans ->
  forall requests, dwf requests -> forall val (w w' : world D) r,
  2 <= wbatch w -> length requests <> 1%nat -> complete dev_send ->
  (forall m p, dget m requests = Some p -> In m asked_alone \/ m = ""%string ->
     simple ans m (eff_params p) (val m)) ->
  (forall m p, dget m requests = Some p -> ~ In m asked_alone ->
     whole ans m (eff_params p) (val m)) ->
  smart_execute_query dev_send requests w = (w', Ok r) ->
  dwf r /\ (forall m, dget m r = if dmem m requests then Some (val m) else None).
Proof. intros D. exact smart_exact_paged_lemma. Qed.
Print Assumptions smart_answers_exact_paged.

Theorem smart_answers_succeed : forall D dev_send ans, honest dev_send ans ->
  forall requests, dwf requests -> forall val, live dev_send -> forall (w : world D),
  wbatch w <> 1 -> length requests <> 1%nat ->
  (forall m p, dget m requests = Some p -> ~ In m asked_alone ->
     whole ans m (eff_params p) (val m)) ->
  exists w' r, smart_execute_query dev_send requests w = (w', Ok r).
Proof. intros D. exact smart_succeeds_lemma. Qed.
Print Assumptions smart_answers_succeed.

(** With batching disabled the same holds, except that the methods that must be
    sent alone get no entry. *)
Theorem smart_unbatched_answers_partial : forall D (dev_send : D -> request -> D * res (dict json)) ans,
  honest_single dev_send ans ->
  forall requests, dwf requests -> forall val (w w' : world D) r,
  wbatch w = 1 -> length requests <> 1%nat ->
  (forall m p, dget m requests = Some p -> simple ans m (eff_params p) (val m)) ->
  smart_execute_query dev_send requests w = (w', Ok r) ->
  dwf r /\ (forall m, dget m r =
     if dmem m requests && negb (smem m asked_alone) then Some (val m) else None).
Proof. intros D. exact smart_unbatched_lemma. Qed.
Print Assumptions smart_unbatched_answers_partial.

(** A device that refuses batches is answered one retry later, without batches. *)
Theorem smart_batch_fallback : forall D (dev_send : D -> request -> D * res (dict json)) ans requests val
    (dreset : D -> D) (w : world D) rc c,
  honest_single dev_send ans -> live_single dev_send -> explicit dev_send ->
  refuses_batches dev_send c -> reported_code c = -1003 \/ reported_code c = -100000 ->
  dwf requests -> (2 <= length requests)%nat -> 2 <= wbatch w -> 1 <= rc ->
  (forall m, In m (dkeys requests) -> ~ In m asked_alone) ->
  (forall m p, dget m requests = Some p -> simple ans m (eff_params p) (val m)) ->
  exists w' tr r,
    smart_query (smart_execute_query dev_send requests)
      (fun w => mkW (dreset (wdev w)) (wbatch w) (wlog w)) rc w = (w', tr, Ok r) /\
    tr = [Exec; Reset; Sleep; Exec] /\ wbatch w' = 1 /\
    dwf r /\ (forall m, dget m r = if dmem m requests then Some (val m) else None).
Proof. intros D. exact smart_fallback_lemma. Qed.
Print Assumptions smart_batch_fallback.

(** ** A concrete device *)
Definition items : list json := map JInt [10; 11; 12; 13; 14].
Definition demo_page (start : nat) : json :=
  JObj [("start_index"%string, JInt (Z.of_nat start)); ("sum"%string, JInt 5);
        ("list"%string, JArr (firstn 2 (skipn start items)))].
Definition demo_ans (m : string) (p : option json) : answer :=
  if String.eqb m "get_a" then AResult (JObj [("x"%string, JInt 1)])
  else if String.eqb m "get_b" then AError (-1001)
  else if String.eqb m "get_list" then
    match p with
    | Some (JObj [(key, JInt k)]) =>
        AResult (demo_page (if String.eqb key "start_index" then Z.to_nat k else 0))
    | _ => AResult (demo_page 0)
    end
  else if String.eqb m "scanApList" then AResult (JObj [("ok"%string, JBool true)])
  else AResult JNull.
Definition demo_reply (m : string) (p : option json) : dict json :=
  match demo_ans m p with
  | AResult JNull => [("method", JStr m); ("error_code", JInt 0)]%string
  | AResult j => [("method", JStr m); ("error_code", JInt 0); ("result", j)]%string
  | AError c => [("method", JStr m); ("error_code", JInt c)]%string
  end.
(** Stops at the first error, as real devices do. *)
Fixpoint demo_responses (l : list (string * option json)) : list json :=
  match l with
  | [] => []
  | (m, p) :: r => JObj (demo_reply m p) ::
      match demo_ans m p with AError _ => [] | _ => demo_responses r end
  end.
Definition demo_send (d : nat) (r : request) : nat * res (dict json) :=
  match r with
  | Single m p => (S d, Ok (demo_reply m p))
  | Batch l => (S d, Ok [("error_code", JInt 0);
                         ("result", JObj [("responses", JArr (demo_responses l))])]%string)
  end.

Lemma demo_reply_reports m p : reports (demo_ans m p) (demo_reply m p).
Proof.
  unfold demo_reply, reports. destruct (demo_ans m p) as [j|c] eqn:E.
  - destruct j; cbn; auto.
  - split; [|reflexivity]. unfold demo_ans in E. intros ->.
    repeat match type of E with (if ?b then _ else _) = _ => destruct b end; try discriminate.
    destruct p as [[]|]; try discriminate.
    repeat match type of E with (match ?x with _ => _ end) = _ => destruct x; try discriminate end.
Qed.

Lemma demo_honest : honest demo_send demo_ans.
Proof.
  intros d req d' reply H. destruct req as [m p|l]; cbn [demo_send] in H.
  - injection H as _ <-. apply demo_reply_reports.
  - injection H as _ <-. split; [reflexivity|].
    exists [("responses"%string, JArr (demo_responses l))], (demo_responses l).
    split; [reflexivity|]. split; [reflexivity|].
    induction l as [|[m p] l IH]; cbn [demo_responses]; [constructor|].
    constructor.
    + exists (demo_reply m p). split; [reflexivity|].
      destruct (string_dec m "") as [->|Hn].
      * left. unfold unnamed, demo_reply. destruct (demo_ans "" p) as [[]|]; cbn; auto.
      * right. exists m, p. split; [now left|]. split; [|apply demo_reply_reports].
        split; [exact Hn|]. unfold demo_reply. destruct (demo_ans m p) as [[]|]; reflexivity.
    + assert (Hw : Forall (fun x => exists o, x = JObj o /\
         (unnamed o \/ exists m0 p0, In (m0, p0) ((m, p) :: l) /\ named m0 o /\
            reports (demo_ans m0 p0) o)) (demo_responses l)).
      { eapply Forall_impl; [|exact IH]. intros x (o & Hx & [Hu|(m' & p' & Hi & Hr)]);
          exists o; (split; [exact Hx|]); [left; exact Hu|].
        right. exists m', p'. split; [now right|exact Hr]. }
      destruct (demo_ans m p); [exact Hw|constructor].
Qed.

Lemma demo_live : live demo_send.
Proof. intros d []; cbn; eauto. Qed.

(** Three methods, one failing, one that must be sent alone, batches of two:
    the hypotheses hold and the query gives every value. *)
Example smart_exact_ex :
  let requests := [("get_b", JNull); ("get_a", JNull); ("scanApList", JObj [])]%string in
  let val m := if String.eqb m "get_a" then RJson (JObj [("x"%string, JInt 1)])
               else if String.eqb m "get_b" then RCode (-1001)
               else RJson (JObj [("ok"%string, JBool true)]) in
  honest demo_send demo_ans /\ live demo_send /\ dwf requests /\
  (forall m p, dget m requests = Some p -> simple demo_ans m (eff_params p) (val m)) /\
  snd (smart_execute_query demo_send requests (mkW 0%nat 2 [])) =
    Ok [("get_b", RCode (-1001)); ("get_a", RJson (JObj [("x"%string, JInt 1)]));
        ("scanApList", RJson (JObj [("ok"%string, JBool true)]))]%string.
Proof.
  cbv zeta. split; [exact demo_honest|]. split; [exact demo_live|].
  split; [repeat constructor; cbn; intuition discriminate|]. split; [|vm_compute; reflexivity].
  intros m p H. cbn [dget] in H.
  destruct (String.eqb m "get_b") eqn:E1.
  { apply String.eqb_eq in E1. subst. injection H as <-.
    change (RCode (-1001)) with (RCode (reported_code (-1001))). now apply simple_code. }
  destruct (String.eqb m "get_a") eqn:E2.
  { apply String.eqb_eq in E2. subst. injection H as <-. apply simple_plain; [reflexivity| |eauto].
    intros d Hd. now injection Hd as <-. }
  destruct (String.eqb m "scanApList") eqn:E3; [|discriminate].
  apply String.eqb_eq in E3. subst. injection H as <-. apply simple_plain; [reflexivity| |eauto].
  intros d Hd. now injection Hd as <-.
Qed.

(** ** Where C07 fails: with batching disabled, a successful query silently
    leaves out a method that must be sent alone ... *)
Theorem smart_unbatched_drops_method_refuted :
  exists (dev_send : nat -> request -> nat * res (dict json)) ans requests w w' r,
    honest dev_send ans /\ live dev_send /\ dwf requests /\ wbatch w = 1 /\
    smart_execute_query dev_send requests w = (w', Ok r) /\
    exists m, In m (dkeys requests) /\ ~ In m (dkeys r).
Proof.
  exists demo_send, demo_ans, [("get_a", JNull); ("scanApList", JNull)]%string, (mkW 0%nat 1 []).
  eexists _, _. split; [exact demo_honest|]. split; [exact demo_live|].
  split; [repeat constructor; cbn; intuition discriminate|]. split; [reflexivity|].
  split; [vm_compute; reflexivity|]. exists "scanApList"%string.
  split; [cbn; auto|]. cbn. intuition discriminate.
Qed.
Print Assumptions smart_unbatched_drops_method_refuted.

(** ... and a success reply without a result is an uncaught KeyError. *)
Theorem smart_unbatched_no_result_refuted :
  exists (dev_send : nat -> request -> nat * res (dict json)) ans requests w w',
    honest dev_send ans /\ live dev_send /\ dwf requests /\ wbatch w = 1 /\
    smart_execute_query dev_send requests w = (w', Err PyKeyError).
Proof.
  exists demo_send, demo_ans, [("set_c", JNull); ("get_a", JNull)]%string, (mkW 0%nat 1 []).
  eexists _. split; [exact demo_honest|]. split; [exact demo_live|].
  split; [repeat constructor; cbn; intuition discriminate|]. split; [reflexivity|].
  vm_compute; reflexivity.
Qed.
Print Assumptions smart_unbatched_no_result_refuted.

(** * C08: paging *)

(** One method: the complete list, for any truthful paging device. *)
Theorem smart_list_complete : forall D dev_send ans m p v (w w' : world D) r,
  honest dev_send ans -> whole ans m (eff_params p) v ->
  smart_execute_query dev_send [(m, p)] w = (w', Ok r) -> r = [(m, v)] /\ exists j, v = RJson j.
Proof. intros D. exact smart_single_lemma. Qed.
Print Assumptions smart_list_complete.

(** The page requests start at the number of items already held, grow strictly,
    stay below the announced total, and are at most as many as items missing:
    for an arbitrary device and whatever the outcome. *)
Theorem smart_page_requests_bounded : forall D dev_send m p name sum fuel l (w w' : world D) a,
  page_loop (smart_next_page dev_send) fuel m p name sum l w = (w', a) ->
  exists ks, wlog w' = wlog w ++ page_requests m ks /\
    increasing_from (Z.of_nat (length l)) ks /\ Forall (fun k => k < sum) ks /\
    (forall k r, ks = k :: r -> k = Z.of_nat (length l)) /\
    Z.of_nat (length ks) <= Z.max 0 (sum - Z.of_nat (length l)).
Proof.
  intros D dev_send m p name sum fuel l w w' a H.
  destruct (page_loop_requests dev_send m p name sum fuel l w w' a H) as (ks & H1 & H2 & H3 & _ & H5).
  exists ks. split; [exact H1|]. split; [exact H2|]. split; [exact H3|]. split; [exact H5|].
  exact (increasing_length _ _ _ H2 H3).
Qed.
Print Assumptions smart_page_requests_bounded.

(** The loop of the source terminates: more turns than items missing never
    happen, so the model's bound on the number of turns is no restriction. *)
Theorem smart_paging_terminates : forall D (next : string -> json -> Z -> M (world D) json) m p name sum fuel l w,
  (Z.to_nat (sum - Z.of_nat (length l)) <= fuel)%nat ->
  page_loop next fuel m p name sum l w =
  page_loop next (Z.to_nat (sum - Z.of_nat (length l))) m p name sum l w.
Proof. intros D. exact page_loop_fuel. Qed.
Print Assumptions smart_paging_terminates.

(** Arbitrary device: nothing already received is lost, and the result is short
    only if the device gave an empty page at that very index. *)
Theorem smart_paging_outcome : forall D dev_send m p name sum fuel l (w w' : world D) l',
  (Z.to_nat (sum - Z.of_nat (length l)) <= fuel)%nat ->
  page_loop (smart_next_page dev_send) fuel m p name sum l w = (w', Ok l') ->
  (exists items, l' = l ++ items) /\
  (sum <= Z.of_nat (length l') \/
   exists w1 w2 nb v, smart_next_page dev_send m p (Z.of_nat (length l')) w1 = (w2, Ok nb) /\
     jitem name nb = Ok v /\ truthy v = false).
Proof.
  intros D dev_send m p name sum fuel l w w' l' Hf H. split.
  - exact (page_loop_prefix _ m p name sum fuel l w w' l' H).
  - exact (page_loop_end dev_send m p name sum fuel l w w' l' Hf H).
Qed.
Print Assumptions smart_paging_outcome.

Lemma demo_serves : serves demo_ans "get_list" "list" items.
Proof.
  intros k Hk. exists [("start_index"%string, JInt (Z.of_nat k)); ("sum"%string, JInt 5);
        ("list"%string, JArr (firstn 2 (skipn k items)))], 2%nat.
  split; [|split; [auto|reflexivity]]. cbn. unfold demo_page. now rewrite Nat2Z.id.
Qed.
Lemma demo_whole p : eff_params p = None -> whole demo_ans "get_list" (eff_params p)
  (RJson (JObj [("start_index"%string, JInt 0); ("sum"%string, JInt 5); ("list"%string, JArr items)])).
Proof.
  intros ->. apply (whole_paged demo_ans "get_list" None
    [("start_index", JInt 0); ("sum", JInt 5); ("list", JArr (firstn 2 items))]%string
    "list" (firstn 2 items) items); try reflexivity.
  - repeat constructor; cbn; intuition discriminate.
  - discriminate.
  - exists [("start_index"%string, JInt 0); ("sum"%string, JInt 5)], []. split; [reflexivity|].
    repeat constructor; discriminate.
  - now exists 2%nat.
  - exact demo_serves.
Qed.
Example smart_list_ex :
  whole demo_ans "get_list" (eff_params JNull)
    (RJson (JObj [("start_index"%string, JInt 0); ("sum"%string, JInt 5); ("list"%string, JArr items)])) /\
  wlog (fst (smart_execute_query demo_send [("get_list"%string, JNull)] (mkW 0%nat 5 []))) =
    [Single "get_list" None; Single "get_list" (Some (start_index 2)); Single "get_list" (Some (start_index 4))].
Proof. split; [now apply demo_whole|vm_compute; reflexivity]. Qed.

(** A device that answers every method of a batch: a list in pages, an error and a plain value at once. *)
Definition full_send (d : nat) (r : request) : nat * res (dict json) :=
  match r with
  | Single m p => (S d, Ok (demo_reply m p))
  | Batch l => (S d, Ok [("error_code", JInt 0);
                         ("result", JObj [("responses", JArr (map (fun x => JObj (demo_reply (fst x) (snd x))) l))])]%string)
  end.
Lemma demo_named m p : m <> ""%string -> named m (demo_reply m p).
Proof. intros Hn. split; [exact Hn|]. unfold demo_reply. destruct (demo_ans m p) as [[]|]; reflexivity. Qed.
Lemma full_honest : honest full_send demo_ans.
Proof.
  intros d req d' reply H. destruct req as [m p|l]; cbn [full_send] in H.
  - injection H as _ <-. apply demo_reply_reports.
  - injection H as _ <-. split; [reflexivity|]. eexists _, _. split; [reflexivity|]. split; [reflexivity|].
    apply Forall_forall. intros x Hx. apply in_map_iff in Hx. destruct Hx as ([m p] & <- & Hi). eexists. split; [reflexivity|]. cbn [fst snd].
    destruct (string_dec m "") as [->|Hn].
    + left. unfold unnamed, demo_reply. destruct (demo_ans "" p) as [[]|]; cbn; auto.
    + right. exists m, p. split; [exact Hi|]. split; [now apply demo_named|apply demo_reply_reports].
Qed.
Lemma full_live : live full_send.
Proof. intros d []; cbn; eauto. Qed.
Lemma full_complete : complete full_send.
Proof.
  intros d l d' reply r rs H Hr Hs m p Hi Hn. cbn [full_send] in H. injection H as _ <-. injection Hr as <-. injection Hs as <-.
  exists (demo_reply m p). split; [apply in_map_iff; exists (m, p); now split|now apply demo_named].
Qed.
Example smart_exact_paged_ex :
  let requests := [("get_list", JNull); ("get_b", JNull); ("get_a", JNull); ("scanApList", JNull)]%string in
  let val m := if String.eqb m "get_list" then RJson (JObj [("start_index"%string, JInt 0); ("sum"%string, JInt 5); ("list"%string, JArr items)])
               else if String.eqb m "get_b" then RCode (-1001) else if String.eqb m "get_a" then RJson (JObj [("x"%string, JInt 1)])
               else RJson (JObj [("ok"%string, JBool true)]) in
  honest full_send demo_ans /\ live full_send /\ complete full_send /\
  (forall m p, dget m requests = Some p -> whole demo_ans m (eff_params p) (val m) /\
     (In m force_single_request \/ m = ""%string -> simple demo_ans m (eff_params p) (val m))) /\
  snd (smart_execute_query full_send requests (mkW 0%nat 5 [])) = Ok (map (fun kv => (fst kv, val (fst kv))) requests).
Proof.
  cbv zeta. split; [exact full_honest|]. split; [exact full_live|]. split; [exact full_complete|]. split; [|vm_compute; reflexivity].
  assert (S1 : simple demo_ans "get_b" (eff_params JNull) (RCode (-1001))).
  { change (RCode (-1001)) with (RCode (reported_code (-1001))). now apply simple_code. }
  assert (S2 : simple demo_ans "get_a" (eff_params JNull) (RJson (JObj [("x"%string, JInt 1)]))).
  { apply simple_plain; [reflexivity| |eauto]. intros d Hd. now injection Hd as <-. }
  assert (S3 : simple demo_ans "scanApList" (eff_params JNull) (RJson (JObj [("ok"%string, JBool true)]))).
  { apply simple_plain; [reflexivity| |eauto]. intros d Hd. now injection Hd as <-. }
  intros m p H. cbn [dget] in H.
  destruct (String.eqb_spec m "get_list") as [->|_]; [injection H as <-; split; [now apply demo_whole|intros [F|F]; [cbn in F; intuition discriminate|discriminate F]]|].
  destruct (String.eqb_spec m "get_b") as [->|_]; [injection H as <-; split; [now constructor|intros _; exact S1]|].
  destruct (String.eqb_spec m "get_a") as [->|_]; [injection H as <-; split; [now constructor|intros _; exact S2]|].
  destruct (String.eqb_spec m "scanApList") as [->|_]; [injection H as <-; split; [now constructor|intros _; exact S3]|discriminate H].
Qed.

(** ** Where C08 fails: a list method that the device leaves out of a batch
    reply (after an error) is asked again alone, and then only its first page is
    returned although the query succeeds. *)
Theorem smart_requeried_list_truncated_refuted :
  exists (dev_send : nat -> request -> nat * res (dict json)) ans requests w w' r v,
    honest dev_send ans /\ live dev_send /\ dwf requests /\ wbatch w = 5 /\
    whole ans "get_list" None v /\ dget "get_list" requests = Some JNull /\
    smart_execute_query dev_send requests w = (w', Ok r) /\
    exists v', dget "get_list" r = Some v' /\ v' <> v.
Proof.
  exists demo_send, demo_ans, [("get_b", JNull); ("get_list", JNull)]%string, (mkW 0%nat 5 []).
  eexists _, _, _. split; [exact demo_honest|]. split; [exact demo_live|].
  split; [repeat constructor; cbn; intuition discriminate|]. split; [reflexivity|].
  split; [exact (demo_whole JNull eq_refl)|]. split; [reflexivity|].
  split; [vm_compute; reflexivity|]. eexists. split; [reflexivity|]. discriminate.
Qed.
Print Assumptions smart_requeried_list_truncated_refuted.

(** The parameters of the original request are not repeated for later pages. *)
Theorem smart_page_drops_params_refuted :
  exists (dev_send : nat -> request -> nat * res (dict json)) p w w' r,
    smart_execute_query dev_send [("get_list"%string, JObj [("filter"%string, p)])] w = (w', Ok r) /\
    exists start, In (Single "get_list" (Some (start_index start))) (wlog w') /\ start <> 0.
Proof.
  exists demo_send, (JInt 7), (mkW 0%nat 5 []). eexists _, _.
  split; [vm_compute; reflexivity|]. exists 2. split; [cbn; auto|discriminate].
Qed.
Print Assumptions smart_page_drops_params_refuted.

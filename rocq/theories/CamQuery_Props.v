(** Camera queries: several methods and lists (C80), and the camera's own request format (C81). *)
From Coq Require Import Lia.
From Verif Require Import Base Base_Lemmas Py Codes_Model Factory_Model Smart_Model Smart_Spec Smart_Proofs Smart_Paging_Proofs Smart_Multi_Proofs
  Smart_Props CamQuery_Model CamQuery_Spec CamQuery_Proofs.
Open Scope string_scope.
Open Scope list_scope.
Open Scope Z_scope.

(** ** C80 *)
(** A camera that answers truthfully, however it splits and reorders: exactly the methods asked
    for, each with its own value. *)
Theorem cam_answers_exact : forall D smart_send plain_send ans, honest smart_send ans ->
  forall requests, dwf requests -> requests <> [] ->
  (forall m, dkeys requests = [m] -> ~ In m own_format) ->
  forall val (w w' : world D) r, wbatch w <> 1 ->
  (forall m p, dget m requests = Some p -> simple ans m (eff_params p) (val m)) ->
  cam_execute_query smart_send plain_send (QDict requests) w = (w', Ok r) ->
  dwf r /\ (forall m, dget m r = if dmem m requests then Some (val m) else None).
Proof.
  intros D ss ps ans Hh requests Hwf Hn Hp val w w' r Hb Hs H.
  eapply (cam_exact_lemma ss ps ans Hh); eauto.
  - intros L m Hi. destruct requests as [|[k v] [|kv rest]]; try discriminate. destruct Hi as [<-|[]]. now apply Hp.
  - intros. apply cam_simple. auto.
Qed.
Print Assumptions cam_answers_exact.
(** ... and complete lists, when it answers every method of a batch. *)
Theorem cam_answers_complete : forall D smart_send plain_send ans, honest smart_send ans -> complete smart_send ->
  forall requests, dwf requests -> requests <> [] ->
  (forall m, dkeys requests = [m] -> ~ In m own_format) ->
  forall val (w w' : world D) r, 2 <= wbatch w ->
  (forall m p, dget m requests = Some p -> ~ In m asked_alone /\ m <> "" /\ cam_whole ans m p (val m)) ->
  cam_execute_query smart_send plain_send (QDict requests) w = (w', Ok r) ->
  dwf r /\ (forall m, dget m r = if dmem m requests then Some (val m) else None).
Proof.
  intros D ss ps ans Hh Hc requests Hwf Hn Hp val w w' r Hb Hs H.
  eapply (cam_exact_lemma ss ps ans Hh requests val w); eauto; [|lia| |].
  - intros L m Hi. destruct requests as [|[k v] [|kv rest]]; try discriminate. destruct Hi as [<-|[]]. now apply Hp.
  - intros m p Hd _. apply (Hs m p Hd).
  - intros m p Hd. right. split; [exact Hc|]. split; [exact Hb|]. destruct (Hs m p Hd) as (H1 & H2 & _). now split.
Qed.
Print Assumptions cam_answers_complete.
Theorem cam_answers_succeed : forall D smart_send plain_send ans, honest smart_send ans -> live smart_send -> explicit smart_send ->
  forall requests, dwf requests -> (2 <= length requests)%nat ->
  forall val (w : world D), wbatch w <> 1 ->
  (forall m p, dget m requests = Some p -> ~ In m asked_alone -> cam_whole ans m p (val m)) ->
  exists w' r, cam_execute_query smart_send plain_send (QDict requests) w = (w', Ok r).
Proof. intros D ss ps ans Hh Hl Hx requests Hwf Hn val w Hb Hs. eapply cam_succeeds_lemma; eauto. Qed.
Print Assumptions cam_answers_succeed.

(** One method that fails: the error of its code. *)
Lemma failure_raised resp c : reports (AError c) resp -> handle_response_error_code resp true = Err (failure c).
Proof.
  intros [Hz Hc]. rewrite (code_classification_lemma _ _ Hc). unfold failure, exn_of_kind. rewrite kind_of_model. unfold model_kind.
  assert (E : (c =? 0) = false) by now apply Z.eqb_neq. rewrite E. destruct (zmem c smart_retryable_errors), (zmem c smart_authentication_errors); reflexivity.
Qed.
Theorem cam_single_raises : forall D smart_send plain_send ans, honest smart_send ans -> live smart_send ->
  forall m p c (w : world D), ~ In m own_format -> wbatch w <> 1 -> ans m (eff_params p) = AError c ->
  exists w', cam_execute_query smart_send plain_send (QDict [(m, p)]) w = (w', Err (failure c)).
Proof.
  intros D ss ps ans Hh Hl m q c w Hp Hb Ha. unfold cam_execute_query. rewrite (exec_one _ _ _ _ _ _ Hp).
  unfold execute_multiple_query. unfold mbind at 1, get_batch at 1. apply Z.eqb_neq in Hb. rewrite Hb. cbn [length Nat.eqb].
  set (h := handle_response_lists _).
  assert (S : forall rs b, (forall x, In x b -> In x (multi_requests [(m, q)])) -> Forall (response_ok ans b) rs -> forall w0,
     store_responses h [(m, q)] true rs [] w0 = (w0, Ok []) \/ store_responses h [(m, q)] true rs [] w0 = (w0, Err (failure c))).
  { intros rs b Hlb HF w0. induction HF as [|x rs Hx HF IH]; [left; reflexivity|]. cbn [store_responses].
    destruct Hx as (o & -> & [Hu|(m' & p' & Hi & [Hn1 Hn2] & Hr)]).
    - assert (E : store_response h [(m, q)] true (JObj o) [] w0 = (w0, Ok [])).
      { unfold store_response. destruct Hu as [Hu|[Hu|Hu]]; rewrite Hu; reflexivity. }
      rewrite (mbind_ok _ _ _ _ _ E). exact IH.
    - right. apply Hlb, In_multi_requests in Hi. destruct Hi as (q' & [Hq|[]] & -> & _). injection Hq as <- <-.
      rewrite Ha in Hr. unfold mbind at 1, store_response. rewrite Hn2.
      assert (Ht : truthy (JStr m) = true) by (cbn; apply negb_true_iff; now apply String.eqb_neq).
      rewrite Ht. cbn [negb]. unfold mbind, mlift. rewrite (failure_raised _ _ Hr). reflexivity. }
  assert (B : forall bs, (forall b x, In b bs -> In x b -> In x (multi_requests [(m, q)])) -> forall w0,
     exists w1, send_batches ss h [(m, q)] true bs [] w0 = (w1, Ok []) \/ send_batches ss h [(m, q)] true bs [] w0 = (w1, Err (failure c))).
  { induction bs as [|b bs IH]; intros Hbs w0; cbn [send_batches]; [unfold mret; eauto|].
    unfold mbind at 1 7, send at 1 2. destruct (Hl (wdev w0) (Batch b)) as (d & reply & Hd). rewrite Hd.
    pose proof (Hh _ _ _ _ Hd) as (He & rr & rs & Hr1 & Hr2 & HF).
    assert (K : forall (f : unit -> M (world D) (dict rval)) w2, mbind (check_batch reply) f w2 = f tt w2).
    { intros f w2. unfold mbind, check_batch. rewrite (code_classification_lemma _ _ He). reflexivity. }
    rewrite !K. clear K. unfold mbind at 1 5, mlift at 1 4, dindex. rewrite Hr1.
    unfold mbind at 1 4, mlift at 1 3. cbn [jitem]. unfold dindex. rewrite Hr2.
    unfold mbind at 1 3, mlift at 1 2. cbn [jiter].
    destruct (S rs b (fun x => Hbs b x (or_introl eq_refl)) HF (mkW d (wbatch w0) (wlog w0 ++ [Batch b]))) as [E|E].
    - rewrite (mbind_ok _ _ _ _ _ E). apply IH. intros; eapply Hbs; eauto. now right.
    - unfold mbind. rewrite E. eauto. }
  destruct (B (batches [(m, q)] (wbatch w)) ltac:(intros; eapply batch_incl; eauto) w) as (w1 & [E|E]).
  - rewrite (mbind_ok _ _ _ _ _ E). cbn [query_missing dmem dget]. unfold mbind at 1, send at 1.
    destruct (Hl (wdev w1) (Single m (eff_params q))) as (d & reply & Hd). rewrite Hd.
    pose proof (Hh _ _ _ _ Hd) as Hr. cbn in Hr. rewrite Ha in Hr. unfold mbind, mlift. rewrite (failure_raised _ _ Hr). eauto.
  - unfold mbind. rewrite E. eauto.
Qed.
Print Assumptions cam_single_raises.

(** ** C81 *)
Section Plain.
Context {D : Type}.
Variable smart_send : D -> request -> D * res (dict json).
Variable plain_send : D -> dict json -> D * res (dict json).
(** The request [sent] got [reply], and nothing else was sent. *)
Definition exchange (sent : dict json) (w : world D) (reply : dict json) (w' : world D) : Prop :=
  exists d', plain_send (wdev w) sent = (d', Ok reply) /\ w' = mkW d' (wbatch w) (wlog w).
Lemma accepted_code reply : accepted reply ->
  (if dmem "error_code" reply then handle_response_error_code reply true else Ok None) = Ok None.
Proof.
  unfold dmem. intros [E|E]; rewrite E; [reflexivity|]. now rewrite (code_classification_lemma _ _ E).
Qed.
(** Reading one section: only that section is asked for, and returned. *)
Theorem cam_get : forall module v w reply w' x k y rest, module <> "method" ->
  exchange [("method", JStr "get"); (module, v)] w reply w' -> accepted reply ->
  reply = (k, y) :: rest -> k <> "" -> y <> JObj [] -> dget module reply = Some x ->
  cam_execute_query smart_send plain_send (QDict [("get", JObj [(module, v)])]) w = (w', Ok [("get", RJson (JObj [(module, x)]))]).
Proof.
  intros module v w reply w' x k y rest Hm (d & Hd & ->) Ha Hr Hk Hy Hx. unfold cam_execute_query, cam_execute. cbn [length Nat.eqb andb].
  change (smem "get" plain_methods) with true. cbn [get_single String.eqb]. unfold mbind at 1, mlift at 1.
  change (get_single "get" (JObj [(module, v)])) with (Ok (mkSingle "get" "get" module (dset module v [("method", JStr "get")]))).
  assert (E : dset module v [("method", JStr "get")] = [("method", JStr "get"); (module, v)]).
  { cbn [dset]. apply String.eqb_neq in Hm. rewrite Hm. reflexivity. }
  rewrite E. unfold run_single. unfold mbind at 1. cbn [s_request]. rewrite Hd. unfold mlift, single_result. rewrite (accepted_code _ Ha).
  cbn [bind s_type]. change (String.eqb "get" "get") with true. cbv iota. rewrite Hr at 1. apply String.eqb_neq in Hk. rewrite Hk.
  assert (F : match y with JObj [] => Err (KDevice None) | _ => Ok tt end = Ok tt) by (destruct y as [| | | | | |[|]]; try reflexivity; congruence).
  rewrite F. cbn [bind]. change (String.eqb "get" "do") with false. change (String.eqb "get" "set") with false. change (String.eqb "get" "multi") with false.
  cbv iota. unfold dindex. cbn [s_param]. rewrite Hx. reflexivity.
Qed.
(** A reply whose first section has no name or is empty means the camera knows nothing of it. *)
Theorem cam_get_nothing : forall module v w reply w' k y rest, module <> "method" ->
  exchange [("method", JStr "get"); (module, v)] w reply w' -> accepted reply ->
  reply = (k, y) :: rest -> k = "" \/ y = JObj [] ->
  cam_execute_query smart_send plain_send (QDict [("get", JObj [(module, v)])]) w = (w', Err (KDevice None)).
Proof.
  intros module v w reply w' k y rest Hm (d & Hd & ->) Ha Hr Hk. unfold cam_execute_query, cam_execute. cbn [length Nat.eqb andb].
  change (smem "get" plain_methods) with true. cbn [get_single String.eqb]. unfold mbind at 1, mlift at 1.
  change (get_single "get" (JObj [(module, v)])) with (Ok (mkSingle "get" "get" module (dset module v [("method", JStr "get")]))).
  assert (E : dset module v [("method", JStr "get")] = [("method", JStr "get"); (module, v)]).
  { cbn [dset]. apply String.eqb_neq in Hm. rewrite Hm. reflexivity. }
  rewrite E. unfold run_single. unfold mbind at 1. cbn [s_request]. rewrite Hd. unfold mlift, single_result. rewrite (accepted_code _ Ha).
  cbn [bind s_type]. change (String.eqb "get" "get") with true. cbv iota. rewrite Hr at 1.
  destruct Hk as [->| ->]; [reflexivity|]. destruct (String.eqb k ""); reflexivity.
Qed.
(** Setting a section returns nothing; an action returns the reply as it is. *)
Theorem cam_set_do : forall module v w reply w', module <> "method" -> accepted reply ->
  (exchange [("method", JStr "set"); (module, v)] w reply w' ->
   cam_execute_query smart_send plain_send (QDict [("set", JObj [(module, v)])]) w = (w', Ok [])) /\
  (exchange [("method", JStr "do"); (module, v)] w reply w' ->
   cam_execute_query smart_send plain_send (QDict [("do", JObj [(module, v)])]) w = (w', Ok [("do", RJson (JObj reply))])).
Proof.
  intros module v w reply w' Hm Ha. apply String.eqb_neq in Hm.
  split; intros (d & Hd & ->); unfold cam_execute_query, cam_execute; cbn [length Nat.eqb andb];
    match goal with |- context [QDict [(?k, _)]] => idtac | _ => idtac end.
  - change (smem "set" plain_methods) with true. unfold mbind at 1, mlift at 1.
    change (get_single "set" (JObj [(module, v)])) with (Ok (mkSingle "set" "set" module (dset module v [("method", JStr "set")]))).
    cbn [dset]. rewrite Hm. unfold run_single. unfold mbind at 1. cbn [s_request]. rewrite Hd. unfold mlift, single_result.
    rewrite (accepted_code _ Ha). reflexivity.
  - change (smem "do" plain_methods) with true. unfold mbind at 1, mlift at 1.
    change (get_single "do" (JObj [(module, v)])) with (Ok (mkSingle "do" "do" module (dset module v [("method", JStr "do")]))).
    cbn [dset]. rewrite Hm. unfold run_single. unfold mbind at 1. cbn [s_request]. rewrite Hd. unfold mlift, single_result.
    rewrite (accepted_code _ Ha). reflexivity.
Qed.
(** A reported error is raised, whatever the kind of request. *)
Theorem cam_plain_raises : forall kind module v w reply w' c, In kind ["get"; "set"; "do"] -> module <> "method" ->
  exchange [("method", JStr kind); (module, v)] w reply w' -> c <> 0 -> dget "error_code" reply = Some (JInt c) ->
  cam_execute_query smart_send plain_send (QDict [(kind, JObj [(module, v)])]) w = (w', Err (failure c)).
Proof.
  intros kind module v w reply w' c Hk Hm (d & Hd & ->) Hc He. apply String.eqb_neq in Hm.
  unfold cam_execute_query, cam_execute. cbn [length Nat.eqb andb].
  assert (G : smem kind plain_methods = true /\ get_single kind (JObj [(module, v)]) = Ok (mkSingle kind kind module [("method", JStr kind); (module, v)])).
  { destruct Hk as [<-|[<-|[<-|[]]]]; (split; [reflexivity|]); unfold get_single;
      match goal with |- context [String.eqb ?a "multipleRequest"] => change (String.eqb a "multipleRequest") with false end;
      cbv iota; cbn [dset]; rewrite Hm; reflexivity. }
  destruct G as [-> G]. unfold mbind at 1, mlift at 1. rewrite G. unfold run_single. unfold mbind at 1. cbn [s_request]. rewrite Hd.
  unfold mlift, single_result. unfold dmem. rewrite He. rewrite (failure_raised reply c (conj Hc He)). reflexivity.
Qed.
End Plain.
Print Assumptions cam_get.
Print Assumptions cam_get_nothing.
Example cam_get_nothing_ex : let send (_ : unit) (_ : dict json) := (tt, Ok [("lens_mask", JObj []); ("error_code", JInt 0)]) in
  cam_execute_query (fun _ _ => (tt, Err KTimeout)) send (QDict [("get", JObj [("lens_mask", JObj [("name", JStr "lens_mask_info")])])]) (mkW tt 5 []) =
  (mkW tt 5 [], Err (KDevice None)).
Proof. reflexivity. Qed.
Print Assumptions cam_set_do.
Print Assumptions cam_plain_raises.

(** *** Requests by name *)
Lemma snake_app a b : snake (a ++ b) = (snake a ++ snake b)%string.
Proof. induction a as [|c a IH]; cbn; [reflexivity|]. destruct (is_upper c); cbn; now rewrite IH. Qed.
Lemma snake_plain s : no_upper s -> snake s = s.
Proof.
  induction s as [|c s IH]; cbn; [reflexivity|]. intros [H1 H2]. rewrite (IH H2). unfold is_upper.
  destruct ((65 <=? N_of_ascii c)%N && (N_of_ascii c <=? 90)%N) eqn:E; [|reflexivity]. apply andb_prop in E. destruct E as [E1 E2].
  apply N.leb_le in E1, E2. exfalso. apply H1. lia.
Qed.
Lemma capital_char : forall c, lower_letter c -> exists u, is_upper u = true /\ lower_char u = c /\
  (if ((97 <=? N_of_ascii c) && (N_of_ascii c <=? 122))%N then ascii_of_N (N_of_ascii c - 32) else c) = u.
Proof.
  intros c [H1 H2]. apply N.leb_le in H1, H2. rewrite H1, H2. cbn [andb]. eexists. split; [|split; [|reflexivity]].
  - destruct c as [[] [] [] [] [] [] [] []]; try discriminate H1; try discriminate H2; reflexivity.
  - destruct c as [[] [] [] [] [] [] [] []]; try discriminate H1; try discriminate H2; reflexivity.
Qed.
Lemma snake_capital w : word w -> snake (capital w) = ("_" ++ w)%string.
Proof.
  destruct w as [|c w]; [intros []|]. intros [H1 H2]. destruct (capital_char c H1) as (u & U1 & U2 & U3).
  cbn [capital]. rewrite U3. cbn [snake]. rewrite U1, U2, (snake_plain _ H2). reflexivity.
Qed.
Lemma str_app_nil_r s : (s ++ "")%string = s.
Proof. induction s as [|c s IH]; cbn; congruence. Qed.
Lemma concat_cons (x : string) l : String.concat "" (x :: l) = (x ++ String.concat "" l)%string.
Proof. destruct l as [|y l]; cbn [String.concat]; [now rewrite str_app_nil_r|reflexivity]. Qed.
Lemma snake_words words : Forall word words -> snake (String.concat "" (map capital words)) = String.concat "" (map (append "_") words).
Proof.
  induction 1 as [|w ws Hw _ IH]; [reflexivity|]. cbn [map]. rewrite !concat_cons, snake_app, IH, (snake_capital _ Hw). reflexivity.
Qed.
Lemma str_app_assoc a b c : ((a ++ b) ++ c)%string = (a ++ (b ++ c))%string.
Proof. induction a; cbn; congruence. Qed.
Lemma under_words w ws : String.concat "" (map (append "_") (w :: ws)) = ("_" ++ String.concat "_" (w :: ws))%string.
Proof.
  revert w. induction ws as [|v ws IH]; intros w; cbn [map]; rewrite concat_cons.
  - cbn. now rewrite str_app_nil_r.
  - change (append "_" v :: map (append "_") ws) with (map (append "_") (v :: ws)). rewrite IH. cbn [String.concat].
    now rewrite str_app_assoc.
Qed.
(** getDeviceInfo asks for the section device_info, setLensMaskInfo for lens_mask_info. *)
Lemma make_named kind w ws : In kind ["get"; "set"] -> Forall word (w :: ws) -> ~ In (camel kind (w :: ws)) get_methods_as_do ->
  make_single (camel kind (w :: ws)) =
  mkSingle kind (camel kind (w :: ws)) (String.concat "_" (w :: ws)) (dset (String.concat "_" (w :: ws)) (JObj []) [("method", JStr kind)]).
Proof.
  intros Hk Hw Hd. set (m := camel kind (w :: ws)) in *.
  assert (Hs : snake m = (kind ++ "_" ++ String.concat "_" (w :: ws))%string).
  { unfold m, camel. rewrite snake_app, (snake_words _ Hw), under_words. f_equal. destruct Hk as [<-|[<-|[]]]; reflexivity. }
  assert (Hn : smem m get_methods_as_do = false) by (destruct (smem m get_methods_as_do) eqn:E; [apply smem_In in E; tauto|reflexivity]).
  unfold make_single. rewrite Hn. assert (T : stake 3 m = kind) by (unfold m, camel; destruct Hk as [<-|[<-|[]]]; cbn; reflexivity).
  rewrite T. unfold snake_name. rewrite Hs. set (p := String.concat "_" (w :: ws)). clearbody p.
  destruct Hk as [<-|[<-|[]]]; cbn; reflexivity.
Qed.
Lemma make_do w ws : ~ In (stake 3 (camel w ws)) ["get"; "set"] -> Forall word (w :: ws) ->
  make_single (camel w ws) = mkSingle "do" (camel w ws) (String.concat "_" (w :: ws)) (dset (String.concat "_" (w :: ws)) (JObj []) [("method", JStr "do")]).
Proof.
  intros Hk Hw. set (m := camel w ws) in *. inversion Hw as [|? ? H1 H2]; subst.
  assert (Nu : no_upper w).
  { destruct w as [|c w]; [exact I|]. destruct H1 as [L N]. split; [unfold lower_letter in L; lia|exact N]. }
  assert (Hs : snake m = String.concat "_" (w :: ws)).
  { unfold m, camel. rewrite snake_app, (snake_plain _ Nu), (snake_words _ H2). destruct ws as [|v ws]; [cbn; apply str_app_nil_r|].
    rewrite under_words. reflexivity. }
  assert (Hl : lstrip_underscore (String.concat "_" (w :: ws)) = String.concat "_" (w :: ws)).
  { destruct w as [|c w]; [destruct H1|]. destruct H1 as [L _]. destruct ws; cbn; (destruct (Ascii.eqb_spec c "_") as [->|_]; [destruct L as [L _]; exfalso; apply L; reflexivity|reflexivity]). }
  assert (E : negb (String.eqb (stake 3 m) "") && smem (stake 3 m) ["get"; "set"] = false).
  { apply andb_false_iff. right. destruct (smem (stake 3 m) ["get"; "set"]) eqn:E; [apply smem_In in E; tauto|reflexivity]. }
  unfold make_single. rewrite E. cbn [andb]. unfold snake_name. rewrite Hs, Hl. reflexivity.
Qed.
Lemma do_names : get_methods_as_do = map fst asked_by_do.
Proof. reflexivity. Qed.
Theorem cam_named_get : forall D smart_send plain_send w ws (wd : world D) reply wd' x k y rest,
  let section := String.concat "_" (w :: ws) in
  Forall word (w :: ws) -> ~ In (camel "get" (w :: ws)) (map fst asked_by_do) -> section <> "method" ->
  exchange plain_send [("method", JStr "get"); (section, JObj [])] wd reply wd' -> accepted reply ->
  reply = (k, y) :: rest -> k <> "" -> y <> JObj [] -> dget section reply = Some x ->
  cam_execute_query smart_send plain_send (QName (camel "get" (w :: ws))) wd =
  (wd', Ok [(camel "get" (w :: ws), RJson (JObj [(section, x)]))]).
Proof.
  intros D ss ps w ws wd reply wd' x k y rest section Hw Hd Hm (d & Hs & ->) Ha Hr Hk Hy Hx. rewrite <- do_names in Hd.
  unfold cam_execute_query, cam_execute. rewrite (make_named "get" w ws (or_introl eq_refl) Hw Hd). fold section.
  apply String.eqb_neq in Hm. cbn [dset]. rewrite Hm. unfold run_single. unfold mbind at 1. cbn [s_request]. rewrite Hs.
  unfold mlift, single_result. rewrite (accepted_code _ Ha). cbn [bind s_type s_name s_param]. change (String.eqb "get" "get") with true. cbv iota.
  rewrite Hr at 1. apply String.eqb_neq in Hk. rewrite Hk.
  assert (F : match y with JObj [] => Err (KDevice None) | _ => Ok tt end = Ok tt) by (destruct y as [| | | | | |[|]]; try reflexivity; congruence).
  rewrite F. cbn [bind]. change (String.eqb "get" "do") with false. change (String.eqb "get" "set") with false. change (String.eqb "get" "multi") with false.
  cbv iota. unfold dindex. rewrite Hx. reflexivity.
Qed.
Print Assumptions cam_named_get.
Theorem cam_named_set_do : forall D smart_send plain_send w ws (wd : world D) reply wd',
  let section := String.concat "_" (w :: ws) in Forall word (w :: ws) -> section <> "method" -> accepted reply ->
  (exchange plain_send [("method", JStr "set"); (section, JObj [])] wd reply wd' ->
   cam_execute_query smart_send plain_send (QName (camel "set" (w :: ws))) wd = (wd', Ok [])) /\
  (~ In (stake 3 (camel w ws)) ["get"; "set"] -> exchange plain_send [("method", JStr "do"); (section, JObj [])] wd reply wd' ->
   cam_execute_query smart_send plain_send (QName (camel w ws)) wd = (wd', Ok [(camel w ws, RJson (JObj reply))])).
Proof.
  intros D ss ps w ws wd reply wd' section Hw Hm Ha. apply String.eqb_neq in Hm. split.
  - intros (d & Hs & ->). unfold cam_execute_query, cam_execute. rewrite (make_named "set" w ws (or_intror (or_introl eq_refl)) Hw).
    + fold section. cbn [dset]. rewrite Hm. unfold run_single. unfold mbind at 1. cbn [s_request]. rewrite Hs.
      unfold mlift, single_result. rewrite (accepted_code _ Ha). reflexivity.
    + unfold camel. intros F. cbn [append get_methods_as_do In] in F. repeat (destruct F as [F|F]; [discriminate F|]). exact F.
  - intros Hk (d & Hs & ->). unfold cam_execute_query, cam_execute. rewrite (make_do w ws Hk Hw).
    fold section. cbn [dset]. rewrite Hm. unfold run_single. unfold mbind at 1. cbn [s_request]. rewrite Hs.
    unfold mlift, single_result. rewrite (accepted_code _ Ha). reflexivity.
Qed.
Print Assumptions cam_named_set_do.
Theorem cam_named_as_do : forall D smart_send plain_send name section (wd : world D) reply wd',
  In (name, section) asked_by_do -> accepted reply ->
  exchange plain_send [("method", JStr "do"); (section, JObj [])] wd reply wd' ->
  cam_execute_query smart_send plain_send (QName name) wd = (wd', Ok [(name, RJson (JObj reply))]).
Proof.
  intros D ss ps name section wd reply wd' Hi Ha (d & Hs & ->).
  assert (M : make_single name = mkSingle "do" name section [("method", JStr "do"); (section, JObj [])]).
  { cbn [asked_by_do In] in Hi. repeat (destruct Hi as [Hi|Hi]; [injection Hi as <- <-; vm_compute; reflexivity|]). destruct Hi. }
  unfold cam_execute_query, cam_execute. rewrite M. unfold run_single. unfold mbind at 1. cbn [s_request]. rewrite Hs.
  unfold mlift, single_result. rewrite (accepted_code _ Ha). reflexivity.
Qed.
Print Assumptions cam_named_as_do.

(** *** What is not so *)
(** Asking for two sections sends, and returns, only the first. *)
Theorem cam_sections_dropped_refuted :
  exists plain_send : unit -> dict json -> unit * res (dict json),
    (forall d r, exists s, plain_send d r = (tt, Ok s) /\ (forall k v, dget k r = Some v -> dget k s <> None)) /\
    exists r, snd (cam_execute_query (fun d _ => (d, Err KTimeout)) plain_send
                     (QDict [("get", JObj [("system", JObj []); ("led", JObj [])])]) (mkW tt 5 [])) = Ok [("get", RJson (JObj r))] /\
              dget "led" r = None.
Proof.
  exists (fun _ r => (tt, Ok (("error_code", JInt 0) :: r))). split.
  - intros [] r. eexists. split; [reflexivity|]. intros k v H. cbn [dget]. destruct (String.eqb k "error_code"); congruence.
  - eexists. split; vm_compute; reflexivity.
Qed.
Print Assumptions cam_sections_dropped_refuted.
(** The empty reply to an invalid request is not reported as a device error, and whether an empty
    section is one depends on the order of the reply. *)
Theorem cam_empty_reply_refuted :
  let answer reply := snd (cam_execute_query (D := unit) (fun d _ => (d, Err KTimeout)) (fun d _ => (d, Ok reply))
                             (QDict [("get", JObj [("led", JObj [])])]) (mkW tt 5 [])) in
  answer [] = Err PyRuntime /\
  answer [("error_code", JInt 0)] = Err (PyKeyError) /\
  answer [("led", JObj []); ("error_code", JInt 0)] = Err (KDevice None) /\
  answer [("error_code", JInt 0); ("led", JObj [])] = Ok [("get", RJson (JObj [("led", JObj [])]))].
Proof. repeat split; vm_compute; reflexivity. Qed.
Print Assumptions cam_empty_reply_refuted.

(** *** The hypotheses are satisfiable *)
Example cam_named_ex : camel "get" ["device"; "info"] = "getDeviceInfo" /\ Forall word ["device"; "info"] /\
  ~ In "getDeviceInfo" (map fst asked_by_do) /\ String.concat "_" ["device"; "info"] = "device_info".
Proof.
  split; [reflexivity|]. split; [|split; [cbn; intros F; repeat (destruct F as [F|F]; [discriminate F|]); exact F|reflexivity]].
  repeat constructor; vm_compute; try discriminate; intros [A B]; try (now apply A); try (now apply B).
Qed.
(** A camera with one failing method, one plain one and a list of five events given two at a time. *)
Definition events : list json := map JInt [10; 11; 12; 13; 14].
Definition ex_page (k : nat) : dict json :=
  [("start_index", JInt (Z.of_nat k)); ("sum", JInt 5); ("events", JArr (firstn 2 (skipn k events)))].
Definition ex_start (p : option json) : nat :=
  match p with Some (JObj ((_, JObj ((_, JInt k) :: _)) :: _)) => Z.to_nat k | _ => 0%nat end.
Definition ex_ans (m : string) (p : option json) : answer :=
  if String.eqb m "getEvents" then AResult (JObj (ex_page (ex_start p)))
  else if String.eqb m "getLed" then AError (-40101) else AResult (JObj [("x", JInt 1)]).
Definition ex_reply (x : string * option json) : dict json :=
  ("method", JStr (fst x)) :: match ex_ans (fst x) (snd x) with
    | AResult j => [("error_code", JInt 0); ("result", j)] | AError c => [("error_code", JInt c)] end.
Definition ex_send (d : unit) (r : request) : unit * res (dict json) :=
  match r with
  | Single m p => (d, Ok (ex_reply (m, p)))
  | Batch l => (d, Ok [("error_code", JInt 0); ("result", JObj [("responses", JArr (map (fun x => JObj (ex_reply x)) l))])])
  end.
Lemma ex_reports x : reports (ex_ans (fst x) (snd x)) (ex_reply x).
Proof.
  unfold ex_reply, ex_ans. destruct (String.eqb (fst x) "getEvents"); [cbn; auto|].
  destruct (String.eqb (fst x) "getLed"); cbn; [split; [discriminate|reflexivity]|auto].
Qed.
Lemma ex_honest : honest ex_send ex_ans.
Proof.
  intros d req d' reply H. destruct req as [m p|l]; cbn [ex_send] in H.
  - injection H as _ <-. apply (ex_reports (m, p)).
  - injection H as _ <-. split; [reflexivity|]. eexists _, _. split; [reflexivity|].
    split; [reflexivity|]. apply Forall_forall. intros x Hx. apply in_map_iff in Hx. destruct Hx as ([m p] & <- & Hi).
    eexists. split; [reflexivity|]. destruct (string_dec m "") as [->|Hn]; [left; right; right; reflexivity|].
    right. exists m, p. split; [exact Hi|]. split; [split; [exact Hn|reflexivity]|apply (ex_reports (m, p))].
Qed.
Lemma ex_live : live ex_send.
Proof. intros d []; cbn; eauto. Qed.
Lemma ex_complete : complete ex_send.
Proof.
  intros d l d' reply r rs H Hr Hs m p Hi Hn. cbn [ex_send] in H. injection H as _ <-.
  injection Hr as <-. injection Hs as <-. exists (ex_reply (m, p)). split; [apply in_map_iff; eexists; split; [reflexivity|exact Hi]|].
  split; [exact Hn|reflexivity].
Qed.
Example cam_answers_ex :
  let requests := [("getEvents", JObj [("playback", JObj [])]); ("getLed", JObj [("led", JObj [])]); ("getMic", JObj [("mic", JNull)])] in
  let val m := if String.eqb m "getEvents" then RJson (JObj [("start_index", JInt 0); ("sum", JInt 5); ("events", JArr events)])
               else if String.eqb m "getLed" then RCode (-40101) else RJson (JObj [("x", JInt 1)]) in
  honest ex_send ex_ans /\ live ex_send /\ complete ex_send /\ dwf requests /\
  (forall m p, dget m requests = Some p -> ~ In m force_single_request /\ m <> "" /\ cam_whole ex_ans m p (val m)) /\
  (exists w r, cam_execute_query ex_send (fun d _ => (d, Err KTimeout)) (QDict requests) (mkW tt 2 []) = (w, Ok r) /\
     dget "getEvents" r = Some (val "getEvents")).
Proof.
  cbv zeta. split; [exact ex_honest|]. split; [exact ex_live|]. split; [exact ex_complete|]. split; [repeat constructor; cbn; intuition discriminate|]. split.
  - intros m p H. cbn [dget] in H. destruct (String.eqb_spec m "getEvents") as [->|_]; [|destruct (String.eqb_spec m "getLed") as [->|_]; [|destruct (String.eqb_spec m "getMic") as [->|_]; [|discriminate]]]; injection H as <-;
      (split; [cbn; intuition discriminate|split; [discriminate|]]).
    + eapply (cam_paged ex_ans "getEvents" _ "playback" (JObj []) [] (ex_page 0) "events" (firstn 2 events) events); try reflexivity.
      * repeat constructor; cbn; intuition discriminate.
      * discriminate.
      * exists [("start_index", JInt 0); ("sum", JInt 5)], []. split; [reflexivity|]. repeat constructor; discriminate.
      * now exists 2%nat.
      * intros k Hk. exists (ex_page k), 2%nat. split; [|split; [auto|reflexivity]].
        change (ex_ans "getEvents" (Some (page_params "playback" (Z.of_nat k)))) with (AResult (JObj (ex_page (Z.to_nat (Z.of_nat k))))).
        now rewrite Nat2Z.id.
      * cbn; intuition discriminate.
    + apply cam_simple, (simple_code ex_ans "getLed" _ (-40101)). reflexivity.
    + apply cam_simple, (simple_plain ex_ans "getMic" _ (JObj [("x", JInt 1)])); [reflexivity| |right; eauto].
      intros d Hd. injection Hd as <-. reflexivity.
  - eexists _, _. split; vm_compute; reflexivity.
Qed.
Example cam_raises_ex : honest demo_send demo_ans /\ live demo_send /\ ~ In "get_b" own_format /\
  demo_ans "get_b" (eff_params JNull) = AError (-1001) /\ failure (-1001) = KRetry (Some (-1001)).
Proof.
  split; [exact demo_honest|]. split; [exact demo_live|]. split; [cbn; intuition discriminate|]. split; reflexivity.
Qed.

(** ** Where C80 fails: a camera stops a batch after an error; the list asked for in the same batch is
    then asked for alone, and only its first page is returned ... *)
Fixpoint ex_upto (l : list (string * option json)) : list (string * option json) :=
  match l with
  | [] => []
  | x :: l => x :: match ex_ans (fst x) (snd x) with AError _ => [] | AResult _ => ex_upto l end
  end.
Definition ex_stops (d : unit) (r : request) : unit * res (dict json) :=
  match r with Single m p => ex_send d (Single m p) | Batch l => ex_send d (Batch (ex_upto l)) end.
Lemma ex_upto_incl l x : In x (ex_upto l) -> In x l.
Proof.
  induction l as [|y l IH]; [auto|]. cbn [ex_upto]. intros [->|H]; [now left|]. right.
  destruct (ex_ans (fst y) (snd y)); [auto|destruct H].
Qed.
Lemma ex_stops_honest : honest ex_stops ex_ans.
Proof.
  intros d req d' reply H. destruct req as [m p|l].
  - exact (ex_honest d (Single m p) d' reply H).
  - destruct (ex_honest d (Batch (ex_upto l)) d' reply H) as (E & r & rs & Hr & Hs & F). split; [exact E|]. exists r, rs.
    split; [exact Hr|]. split; [exact Hs|]. eapply Forall_impl; [|exact F]. intros x (o & Ho & [U|(m & p & Hi & N)]); exists o; (split; [exact Ho|]); [now left|].
    right. exists m, p. split; [now apply ex_upto_incl|exact N].
Qed.
Lemma ex_events_whole : cam_whole ex_ans "getEvents" (JObj [("playback", JObj [])])
  (RJson (JObj [("start_index", JInt 0); ("sum", JInt 5); ("events", JArr events)])).
Proof.
  eapply (cam_paged ex_ans "getEvents" _ "playback" (JObj []) [] (ex_page 0) "events" (firstn 2 events) events); try reflexivity.
  - repeat constructor; cbn; intuition discriminate.
  - discriminate.
  - exists [("start_index", JInt 0); ("sum", JInt 5)], []. split; [reflexivity|]. repeat constructor; discriminate.
  - now exists 2%nat.
  - intros k Hk. exists (ex_page k), 2%nat. split; [|split; [auto|reflexivity]].
    change (ex_ans "getEvents" (Some (page_params "playback" (Z.of_nat k)))) with (AResult (JObj (ex_page (Z.to_nat (Z.of_nat k))))).
    now rewrite Nat2Z.id.
  - cbn; intuition discriminate.
Qed.
Theorem cam_requeried_list_refuted :
  exists (smart_send : unit -> request -> unit * res (dict json)) plain_send ans requests q v w w' r,
    honest smart_send ans /\ live smart_send /\ dwf requests /\ wbatch w = 5 /\
    dget "getEvents" requests = Some q /\ cam_whole ans "getEvents" q v /\
    cam_execute_query smart_send plain_send (QDict requests) w = (w', Ok r) /\
    exists v', dget "getEvents" r = Some v' /\ v' <> v.
Proof.
  exists ex_stops, (fun d _ => (d, Err KTimeout)), ex_ans, [("getLed", JObj [("led", JObj [])]); ("getEvents", JObj [("playback", JObj [])])].
  eexists _, _, (mkW tt 5 []), _, _. split; [exact ex_stops_honest|]. split; [intros d []; cbn; eauto|].
  split; [repeat constructor; cbn; intuition discriminate|]. split; [reflexivity|]. split; [reflexivity|]. split; [exact ex_events_whole|].
  split; [vm_compute; reflexivity|]. eexists. split; [reflexivity|]. discriminate.
Qed.
Print Assumptions cam_requeried_list_refuted.
(** ... and without batches (a configured batch size of 1, or after a camera refused a batch) lists are
    cut even though the camera answers everything, and a method that must be asked for alone is left
    out. *)
Theorem cam_unbatched_refuted :
  exists (smart_send : unit -> request -> unit * res (dict json)) plain_send ans requests q v w w' r,
    honest smart_send ans /\ live smart_send /\ complete smart_send /\ dwf requests /\ wbatch w = 1 /\
    dget "getEvents" requests = Some q /\ cam_whole ans "getEvents" q v /\
    cam_execute_query smart_send plain_send (QDict requests) w = (w', Ok r) /\
    (exists v', dget "getEvents" r = Some v' /\ v' <> v) /\
    In "scanApList" (dkeys requests) /\ dget "scanApList" r = None.
Proof.
  exists ex_send, (fun d _ => (d, Err KTimeout)), ex_ans, [("getEvents", JObj [("playback", JObj [])]); ("scanApList", JNull)].
  eexists _, _, (mkW tt 1 []), _, _. split; [exact ex_honest|]. split; [exact ex_live|]. split; [exact ex_complete|].
  split; [repeat constructor; cbn; intuition discriminate|]. split; [reflexivity|]. split; [reflexivity|]. split; [exact ex_events_whole|].
  split; [vm_compute; reflexivity|]. split; [eexists; split; [reflexivity|]; discriminate|]. split; [cbn; auto|reflexivity].
Qed.
Print Assumptions cam_unbatched_refuted.

(** C153: the discover commands tell what became of every device that answered. *)
From Verif Require Import Base Base_Lemmas Py Redact_Model Redact_Spec Redact_Props Table_Model Table_Spec Table_Proofs.
From Coq Require Import Permutation.
Open Scope string_scope.
Open Scope list_scope.

Section Runs.
Context (model : string -> res string) (conn : string -> string * string * bool * option Z)
        (update : string -> res string) (state : string -> list string * option exn).
Notation told := (told model conn update state).
Notation fault := (fault model update state).
Notation step := (step model conn update state).
Notation after := (after model conn update state).
Notation inv := (inv model conn update state).

Lemma after_snoc c es e : after c (es ++ [e]) = step c (after c es) e.
Proof. unfold after, Table_Model.after. rewrite fold_left_app. reflexivity. Qed.
Lemma step_over c s e r : over s = Some r -> step c s e = s.
Proof. intros O. unfold step, Table_Model.step. rewrite O. reflexivity. Qed.
Lemma step_running c s e : e <> Return -> over s = None -> over (step c s e) = None.
Proof.
  intros N O. unfold step, Table_Model.step. rewrite O. destruct e as [a|i|i|i| |]; try congruence.
  - destruct (existsb _ _); [first [exact O|reflexivity]|first [exact O|reflexivity]].
  - destruct (nth_error (tasks s) i) as [t|]; [|first [exact O|reflexivity]]. unfold run_task. destruct (t_stage t); try first [exact O|reflexivity].
    destruct c, (t_answer t); repeat (match goal with |- context [match ?x with _ => _ end] => destruct x end); first [exact O|reflexivity].
  - destruct (nth_error (tasks s) i) as [t|]; [|first [exact O|reflexivity]]. unfold updated. destruct (t_stage t); try first [exact O|reflexivity].
    destruct (t_answer t), c; repeat (match goal with |- context [match ?x with _ => _ end] => destruct x end); first [exact O|reflexivity].
  - destruct (nth_error (tasks s) i) as [t|]; [|first [exact O|reflexivity]]. unfold print. destruct (t_stage t) as [| |l|]; try first [exact O|reflexivity].
    destruct l, (t_answer t); repeat (match goal with |- context [match ?x with _ => _ end] => destruct x end); first [exact O|reflexivity].
  - destruct (waited s); first [exact O|reflexivity].
Qed.
Lemma init_inv c : inv c init [].
Proof.
  constructor; cbn; auto.
  exists [], []. split; [constructor; constructor|]. split; [constructor|reflexivity].
Qed.
Lemma running_inv c es : over (after c es) = None -> inv c (after c es) es.
Proof.
  induction es as [|e es IH] using rev_ind; intros O; [apply init_inv|]. rewrite after_snoc in *.
  destruct (over (after c es)) as [r|] eqn:E; [rewrite (step_over _ _ _ _ E), E in O; discriminate|].
  apply step_inv; auto.
Qed.
Lemma over_split c es r : over (after c es) = Some r ->
  exists es1 es2, es = es1 ++ Return :: es2 /\ over (after c es1) = None /\ after c es = step c (after c es1) Return.
Proof.
  induction es as [|e es IH] using rev_ind; intros O; [discriminate|]. rewrite after_snoc in *.
  destruct (over (after c es)) as [r'|] eqn:E.
  - rewrite (step_over _ _ _ _ E) in *. rewrite E in O. destruct (IH O) as (es1 & es2 & -> & O1 & A). exists es1, (es2 ++ [e]).
    split; [rewrite <- app_assoc; reflexivity|]. auto.
  - exists es, []. assert (X : e = Return) by (destruct e; try reflexivity; rewrite step_running in O; congruence). subst e. auto.
Qed.
Lemma gathered_ok l : gathered l = Some (Ok tt) -> forall t, In t l -> exists u, t_stage t = Ended (Ok u).
Proof.
  induction l as [|x l IH]; intros G t I; [destruct I|]. cbn in G.
  destruct (t_stage x) as [| | |[u|e]] eqn:S; destruct (gathered l) as [[[]|]|] eqn:Gl; try discriminate.
  destruct I as [<-|I]; [eauto|]. apply (IH eq_refl _ I).
Qed.
Lemma gathered_err l e : gathered l = Some (Err e) -> exists t, In t l /\ t_stage t = Ended (Err e).
Proof.
  induction l as [|x l IH]; intros G; [discriminate|]. cbn in G.
  destruct (t_stage x) as [| | |[u|e']] eqn:S; destruct (gathered l) as [[|e'']|] eqn:Gl; try discriminate; injection G as <-;
    try (destruct (IH eq_refl) as (t & I & Ht); exists t; split; [now right|exact Ht]); exists x; split; auto; now left.
Qed.
Lemma ended_all l : (forall t, In t l -> exists r, t_stage t = Ended r) -> ended l = map t_answer l.
Proof.
  induction l as [|t l IH]; intros H; [reflexivity|]. cbn. destruct (H t (or_introl eq_refl)) as (r & E).
  unfold ended_of at 1. rewrite E. cbn. f_equal. apply IH. intros x I. apply H. now right.
Qed.
Lemma ended_incl l a : In a (ended l) -> In a (map t_answer l).
Proof.
  intros I. apply in_flat_map in I. destruct I as (t & It & Ia). unfold ended_of in Ia. destruct (t_stage t); cbn in Ia; try tauto.
  destruct Ia as [<-|[]]. apply in_map. exact It.
Qed.
Lemma ended_NoDup l : NoDup (map ip_of (map t_answer l)) -> NoDup (map ip_of (ended l)).
Proof.
  induction l as [|t l IH]; intros N; [constructor|]. cbn [map] in N. inversion N as [|x y Nx Ny]; subst.
  change (ended (t :: l)) with (ended_of t ++ ended l). unfold ended_of. destruct (t_stage t); cbn; try apply (IH Ny).
  constructor; [|apply (IH Ny)]. intros I. apply Nx. apply in_map_iff in I. destruct I as (a & E & I). rewrite <- E. apply in_map, ended_incl, I.
Qed.
Lemma ended_split l : exists late, ended l = late /\ incl late (map t_answer l).
Proof. exists (ended l). split; [reflexivity|]. intros a. apply ended_incl. Qed.
(** What is printed when a command ends *)
Lemma shows c es : over (after c es) = Some (Ok tt) ->
  exists before later order late cur, 
    es = before ++ SendingEnds :: later /\ ~ In SendingEnds before /\
    Permutation order (heard before ++ late) /\ incl late (heard es) /\ NoDup (map ip_of order) /\
    (cur = [] \/ exists ip, c = Detail /\ In (Device ip) (heard es) /\ ~ In (Device ip) order /\ prefix_of cur (block update state ip)) /\
    out (after c es) = flat_map (told c) order ++ cur ++
      match c with Listing => [] | Detail => [Counts (List.length (filter is_device (tasks (after c es)))) (unsupported (after c es)) (auth_failed (after c es))] end.
Proof.
  intros O. destruct (over_split _ _ _ O) as (es1 & es2 & -> & O1 & A). pose proof (running_inv _ _ O1) as [H1 H2 H3 H4 H5 H6].
  rewrite A in *. unfold step, Table_Model.step in *. rewrite O1 in *. set (s := after c es1) in *.
  destruct (waited s) as [n|] eqn:W; [|cbn in O; congruence]. destruct (gathered (firstn n (tasks s))) as [r|] eqn:G; [|cbn in O; congruence].
  cbn [over] in O. injection O as ->. destruct H6 as (before & later & -> & Nb & ->).
  assert (Hh : heard (before ++ SendingEnds :: later) = heard before ++ heard_from (map ip_of (heard before)) later).
  { rewrite heard_app. reflexivity. }
  assert (T : tasks s = firstn (List.length (heard before)) (tasks s) ++ skipn (List.length (heard before)) (tasks s)) by (symmetry; apply firstn_skipn).
  assert (M : map t_answer (firstn (List.length (heard before)) (tasks s)) = heard before).
  { rewrite <- firstn_map, H1, Hh, firstn_app, Nat.sub_diag, firstn_all. cbn. apply app_nil_r. }
  assert (Ee : ended (firstn (List.length (heard before)) (tasks s)) = heard before).
  { rewrite ended_all; [exact M|]. intros t It. destruct (gathered_ok _ G t It) as (u & E). eauto. }
  destruct H2 as (cur & order & F & P & Ou).
  assert (Big : forall x, In x (map t_answer (tasks s)) -> In x (heard ((before ++ SendingEnds :: later) ++ Return :: es2))).
  { intros x Ix. rewrite H1 in Ix. rewrite heard_app. apply in_app_iff. now left. }
  exists before, (later ++ Return :: es2), order, (ended (skipn (List.length (heard before)) (tasks s))), cur.
  split; [rewrite <- app_assoc; reflexivity|]. split; [exact Nb|].
  split; [rewrite P, T at 1; rewrite ended_app, Ee; reflexivity|].
  split.
  { intros x Ix. apply Big. rewrite T, map_app. apply in_app_iff. right. apply ended_incl. exact Ix. }
  split.
  { apply (Permutation_NoDup (l := map ip_of (ended (tasks s)))); [apply Permutation_map; symmetry; exact P|].
    apply ended_NoDup. rewrite H1. apply heard_NoDup. }
  split.
  { inversion F as [l Fa E1 E2 E3|l1 t l2 cur' F1 F2 Pr E1 E2 E3]; subst; [left; reflexivity|]. assert (Pr' := Pr). destruct Pr' as (ip & An & Hs).
    destruct (t_stage t) as [| |l|] eqn:St; [destruct Hs|left; apply Hs| |destruct Hs].
    - destruct Hs as (-> & (nm & U) & p & Hp & ->). right. exists ip. split; [reflexivity|]. split.
      { apply Big. rewrite <- E1, map_app. apply in_app_iff. right. left. exact An. }
      split.
      + intros I. apply (Permutation_in _ P) in I. rewrite <- E1 in I. rewrite ended_app in I.
        assert (N := heard_NoDup (before ++ SendingEnds :: later)). rewrite <- H1, <- E1 in N. rewrite !map_app in N. cbn [map] in N.
        apply NoDup_remove_2 in N. apply N. rewrite An. cbn [ip_of]. apply in_app_iff in I.
        change (ended (t :: l2)) with (ended_of t ++ ended l2) in I. unfold ended_of at 1 in I. rewrite St in I. cbn in I.
        change ip with (ip_of (Device ip)). apply in_app_iff. destruct I as [I|I]; [left|right]; apply in_map, ended_incl, I.
      + unfold block. rewrite U, Hp, map_app, <- app_assoc. eexists. reflexivity. }
  cbn [out tasks unsupported auth_failed]. rewrite Ou, <- app_assoc. destruct c; reflexivity.
Qed.
End Runs.

(** When list ends, it has printed just one line about every device and every unsupported
    one that answered while it was sending, and perhaps about some that came later. *)
Theorem listing_shows : forall model conn update state es,
  over (after model conn update state Listing es) = Some (Ok tt) ->
  exists before later order late,
    es = before ++ SendingEnds :: later /\ ~ In SendingEnds before /\
    Permutation order (heard before ++ late) /\ incl late (heard es) /\ NoDup (map ip_of order) /\
    out (after model conn update state Listing es) = flat_map (told model conn update state Listing) order.
Proof.
  intros model conn update state es O. destruct (shows _ _ _ _ _ _ O) as (b & l & order & late & cur & H1 & H2 & H3 & H4 & H5 & H6 & H7).
  exists b, l, order, late. repeat (split; [assumption|]). rewrite H7. destruct H6 as [->|(ip & C & _)]; [|discriminate]. cbn. apply app_nil_r.
Qed.
Print Assumptions listing_shows.
(** That line is there: only a model that cannot be read or a cancellation keeps it away. *)
Theorem listing_line_there : forall model conn update state ip m,
  model ip = Ok m -> update ip <> Err Cancelled ->
  exists f e h l o, told model conn update state Listing (Device ip) = [Row ip m f e h l o] /\ conn ip = (f, e, h, l) /\
    (forall alias, o = Named alias <-> update ip = Ok alias) /\ (o = AuthFailed <-> exists x, update ip = Err (KAuth x)).
Proof.
  intros model conn update state ip m M U. cbn. unfold list_line. rewrite M. destruct (conn ip) as [[[f e] h] l]. exists f, e, h, l.
  destruct (update ip) as [a|x]; [|destruct x]; try (destruct (U eq_refl)); eexists; split; try reflexivity; split; try reflexivity; split; intros; split;
    intros H; try discriminate; try congruence; try (destruct H as (x & H); discriminate); try (injection H as ->; reflexivity); eauto.
Qed.
Print Assumptions listing_line_there.

(** When detail ends, it has printed the blocks of these devices, none within another; then
    perhaps the beginning of the block of a device that answered late; then the numbers. *)
Theorem detail_shows : forall model conn update state es,
  over (after model conn update state Detail es) = Some (Ok tt) ->
  exists before later order late cur n u r,
    es = before ++ SendingEnds :: later /\ ~ In SendingEnds before /\
    Permutation order (heard before ++ late) /\ incl late (heard es) /\ NoDup (map ip_of order) /\
    (cur = [] \/ exists ip, In (Device ip) (heard es) /\ ~ In (Device ip) order /\ prefix_of cur (block update state ip)) /\
    out (after model conn update state Detail es) = flat_map (told model conn update state Detail) order ++ cur ++ [Counts n u r].
Proof.
  intros model conn update state es O. destruct (shows _ _ _ _ _ _ O) as (b & l & order & late & cur & H1 & H2 & H3 & H4 & H5 & H6 & H7).
  exists b, l, order, late, cur. eexists _, _, _. repeat (split; [assumption|]). split; [|exact H7].
  destruct H6 as [->|(ip & _ & H6)]; [left; reflexivity|right; eauto].
Qed.
Print Assumptions detail_shows.
Lemma filter_map_len {A B} (f : A -> B) (p : B -> bool) l : List.length (filter (fun x => p (f x)) l) = List.length (filter p (map f l)).
Proof. induction l as [|x l IH]; [reflexivity|]. cbn. destruct (p (f x)); cbn; rewrite IH; reflexivity. Qed.
(** If nothing answered after the sending, the numbers are those of the devices, of the
    unsupported ones and of the devices that refused the login. *)
Theorem detail_counts : forall model conn update state es before later,
  over (after model conn update state Detail es) = Some (Ok tt) ->
  es = before ++ SendingEnds :: later -> ~ In SendingEnds before -> (forall a, ~ In (Answer a) later) ->
  exists order, Permutation order (heard es) /\
    out (after model conn update state Detail es) =
      flat_map (told model conn update state Detail) order ++
      [Counts (devices (heard es)) (List.length (heard es) - devices (heard es)) (refusals update (heard es))].
Proof.
  intros model conn update state es before later O E Nb Nl.
  assert (Hl : forall es2 seen, (forall a, ~ In (Answer a) es2) -> heard_from seen es2 = []).
  { induction es2 as [|e es2 IH]; intros seen N; [reflexivity|]. destruct e; cbn; try (apply IH; intros x I; exact (N x (or_intror I))). destruct (N a (or_introl eq_refl)). }
  destruct (over_split _ _ _ _ _ _ _ O) as (es1 & es2 & E' & O1 & A). pose proof (running_inv _ _ _ _ _ _ O1) as [H1 H2 H3 H4 H5 H6].
  rewrite A in *. unfold step in O. rewrite O1 in O. unfold step. rewrite O1. set (s := after model conn update state Detail es1) in *.
  destruct (waited s) as [n|] eqn:W; [|congruence]. destruct (gathered (firstn n (tasks s))) as [r|] eqn:G; [|congruence].
  cbn [over] in O. injection O as ->. destruct H6 as (b1 & l1 & E1 & Nb1 & ->).
  assert (Eb : before = b1 /\ later = l1 ++ Return :: es2).
  { subst es1. rewrite E in E'. rewrite <- app_assoc in E'. cbn in E'.
    destruct (middle_cases _ _ _ _ _ _ E') as [(-> & _ & ->)|[(m & -> & _)|(m & -> & _)]]; [auto| |].
    - exfalso. apply Nb. apply in_app_iff. right. now left.
    - exfalso. apply Nb1. apply in_app_iff. right. now left. }
  destruct Eb as [<- ->].
  assert (Hes : heard es = heard before).
  { rewrite E, heard_app. cbn [heard_from]. rewrite Hl by exact Nl. apply app_nil_r. }
  assert (Hes1 : heard es1 = heard before).
  { rewrite E1, heard_app. cbn [heard_from]. rewrite Hl; [apply app_nil_r|]. intros a I. apply (Nl a). apply in_app_iff. now left. }
  rewrite Hes. rewrite Hes1 in H1.
  assert (Len : List.length (heard before) = List.length (tasks s)) by (rewrite <- H1; apply map_length).
  rewrite Len, firstn_all in G.
  assert (Allok := gathered_ok _ G).
  assert (Ee : ended (tasks s) = heard before). { rewrite ended_all; [exact H1|]. intros t I. destruct (Allok t I) as (u & X). eauto. }
  destruct H2 as (cur & order & F & P & Ou).
  assert (cur = []).
  { inversion F as [l Fa Q1 Q2 Q3|x1 t l2 cur' F1 F2 Pr Q1 Q2 Q3]; subst; [reflexivity|]. exfalso.
    destruct (Allok t) as (u & X); [rewrite <- Q1; apply in_app_iff; right; now left|]. destruct Pr as (ip & _ & Hs). rewrite X in Hs. exact Hs. }
  subst cur. exists order. split; [rewrite <- Ee; exact P|]. cbn [out]. rewrite Ou, app_nil_r. do 2 f_equal.
  assert (Cu : unsupported s = List.length (heard before) - devices (heard before)).
  { rewrite (H4 eq_refl), <- H1. clear - Allok. unfold devices. induction (tasks s) as [|t l IH]; [reflexivity|].
    destruct (Allok t (or_introl eq_refl)) as (u & X). specialize (IH (fun x I => Allok x (or_intror I))). unfold sum in *. cbn [map list_sum fold_right].
    change (fold_right Nat.add 0 (map begun_unsupported l)) with (list_sum (map begun_unsupported l)). rewrite IH.
    unfold begun_unsupported. rewrite X. cbn [List.length filter].
    assert (L : List.length (filter (fun a => match a with Device _ => true | _ => false end) (map t_answer l)) <= List.length (map t_answer l)) by apply filter_length_le || (clear; induction (map t_answer l) as [|y z IHz]; cbn; [lia|destruct y; cbn; lia]).
    destruct (t_answer t); cbn [List.length]; lia. }
  assert (Cr : auth_failed s = refusals update (heard before)).
  { rewrite (H5 eq_refl), <- H1. clear - Allok. unfold refusals. induction (tasks s) as [|t l IH]; [reflexivity|].
    destruct (Allok t (or_introl eq_refl)) as (u & X). specialize (IH (fun x I => Allok x (or_intror I))). unfold sum in *. cbn [map list_sum fold_right].
    change (fold_right Nat.add 0 (map (refused update) l)) with (list_sum (map (refused update) l)). rewrite IH.
    unfold refused. rewrite X. cbn [filter]. destruct (t_answer t) as [ip|]; [|reflexivity]. destruct (update ip) as [|x]; [reflexivity|]. destruct x; reflexivity. }
  rewrite Cu, Cr. f_equal. unfold devices. rewrite <- H1. unfold is_device. apply (filter_map_len t_answer (fun a => match a with Device _ => true | _ => false end)).
Qed.
Print Assumptions detail_counts.

(** A command only fails on account of a device: for list one whose model cannot be read
    (or a cancellation), for detail one that failed otherwise than by refusing the login. *)
Theorem discover_error_has_cause : forall model conn update state c es e,
  over (after model conn update state c es) = Some (Err e) ->
  exists ip, In (Device ip) (heard es) /\ fault model update state c ip e.
Proof.
  intros model conn update state c es e O. destruct (over_split _ _ _ _ _ _ _ O) as (es1 & es2 & -> & O1 & A).
  pose proof (running_inv _ _ _ _ _ _ O1) as [H1 H2 H3 H4 H5 H6]. rewrite A in O. unfold step in O. rewrite O1 in O.
  set (s := after model conn update state c es1) in *. destruct (waited s) as [n|] eqn:W; [|congruence].
  destruct (gathered (firstn n (tasks s))) as [r|] eqn:G; [|congruence]. cbn [over] in O. injection O as ->.
  destruct (gathered_err _ _ G) as (t & I & S). apply firstn_In in I || (assert (I2 : In t (tasks s)) by (rewrite <- (firstn_skipn n (tasks s)); apply in_app_iff; now left); clear I; rename I2 into I).
  rewrite Forall_forall in H3. specialize (H3 t I). unfold faulty in H3. rewrite S in H3. destruct H3 as (ip & An & Fa). exists ip. split; [|exact Fa].
  rewrite heard_app. apply in_app_iff. left. rewrite <- H1, <- An. apply in_map. exact I.
Qed.
Print Assumptions discover_error_has_cause.

(** The list is not stopped by devices that fail. *)
Theorem listing_not_stopped : forall model conn update state es e,
  (forall ip, In (Device ip) (heard es) -> (exists m, model ip = Ok m) /\ update ip <> Err Cancelled) ->
  over (after model conn update state Listing es) <> Some (Err e).
Proof.
  intros model conn update state es e H O. destruct (discover_error_has_cause _ _ _ _ _ _ _ O) as (ip & I & F).
  destruct (H ip I) as [(m & M) U]. cbn in F. destruct F as [F|[_ F]]; congruence.
Qed.
Print Assumptions listing_not_stopped.

(** The devices do not block each other: once all has been sent and updates come to an
    end, the command can always end. *)
Definition weight (state : string -> list string * option exn) (t : task) : nat :=
  match t_stage t with
  | Queued _ => 3 + List.length (fst (state (ip_of (t_answer t))))
  | Updating => 2 + List.length (fst (state (ip_of (t_answer t))))
  | Printing l => 1 + List.length l
  | Ended _ => 0
  end.
Lemma weight_mid state a t g b : weight state (mkTask (t_answer t) g) < weight state t -> sum (weight state) (a ++ mkTask (t_answer t) g :: b) < sum (weight state) (a ++ t :: b).
Proof. intros H. pose proof (sum_mid (weight state) a t (mkTask (t_answer t) g) b). lia. Qed.
Lemma progress model conn update state c s es : over s = None -> inv model conn update state c s es -> (exists t, In t (tasks s) /\ forall r, t_stage t <> Ended r) ->
  exists e, e <> Return /\ (forall a, e <> Answer a) /\ waited (step model conn update state c s e) = waited s /\
    sum (weight state) (tasks (step model conn update state c s e)) < sum (weight state) (tasks s).
Proof.
  intros O [H1 H2 H3 H4 H5 H6] (t & I & N). destruct H2 as (cur & order & F & _ & _).
  inversion F as [l Fa E1 E2 E3|l1 x l2 cur' F1 F2 Pr E1 E2 E3].
  - apply In_nth_error in I. destruct I as (i & Et). exists (Run i). split; [discriminate|]. split; [discriminate|]. unfold step. rewrite O, Et. unfold run_task.
    assert (Ot : outside t) by (rewrite Forall_forall in Fa; apply Fa; eapply nth_error_In; exact Et).
    unfold outside in Ot. destruct (t_stage t) as [begun| | |r] eqn:St; try tauto; [|destruct (N r eq_refl)].
    rewrite <- E2.
    assert (X : forall g, weight state (mkTask (t_answer t) g) < weight state t -> sum (weight state) (set_stage i g (tasks s)) < sum (weight state) (tasks s)).
    { intros g Hw. destruct (set_stage_eq i g _ _ Et) as (a & b & E & _ & ->). rewrite E. apply weight_mid. exact Hw. }
    destruct c, (t_answer t) as [ip|ip host] eqn:An; cbn [tasks waited].
    + split; [reflexivity|]. apply X. unfold weight. cbn [t_stage t_answer]. rewrite St, An. cbn. lia.
    + split; [reflexivity|]. apply X. unfold weight. cbn [t_stage t_answer]. rewrite St, An. cbn. lia.
    + destruct (model ip); split; try reflexivity; rewrite ?E1; apply X; unfold weight; cbn [t_stage t_answer]; rewrite St, An; cbn; lia.
    + split; [reflexivity|]. apply X. unfold weight. cbn [t_stage t_answer]. rewrite St, An. cbn. lia.
  - assert (Et : nth_error (tasks s) (List.length l1) = Some x) by (rewrite <- E1, nth_error_app2, Nat.sub_diag by lia; reflexivity).
    assert (X : forall g, weight state (mkTask (t_answer x) g) < weight state x -> sum (weight state) (set_stage (List.length l1) g (tasks s)) < sum (weight state) (tasks s)).
    { intros g Hw. destruct (set_stage_eq (List.length l1) g _ _ Et) as (a & b & E & _ & ->). rewrite E. apply weight_mid. exact Hw. }
    destruct Pr as (ip & An & Hs). destruct (t_stage x) as [| |l|] eqn:St; try tauto.
    + exists (Updated (List.length l1)). split; [discriminate|]. split; [discriminate|]. unfold step. rewrite O, Et. unfold updated. rewrite St, An.
      destruct c.
      * destruct (update ip) as [nm|y]; [|destruct y]; cbn [tasks waited]; split; try reflexivity; rewrite ?E1; apply X; unfold weight; cbn [t_stage t_answer]; rewrite St, An; cbn; lia.
      * destruct (outcome_of (update ip)), (model ip); cbn [tasks waited]; split; try reflexivity; rewrite ?E1; apply X; unfold weight; cbn [t_stage t_answer]; rewrite St, An; cbn; lia.
    + exists (Print (List.length l1)). split; [discriminate|]. split; [discriminate|]. unfold step. rewrite O, Et. unfold print. rewrite St, An.
      destruct l as [|y l]; [destruct (snd (state ip))|]; cbn [tasks waited]; split; try reflexivity; rewrite ?E1; apply X; unfold weight; cbn [t_stage t_answer]; rewrite St; cbn; lia.
Qed.
Lemma gathered_some l : (forall t, In t l -> exists r, t_stage t = Ended r) -> exists r, gathered l = Some r.
Proof.
  induction l as [|t l IH]; intros H; [eexists; reflexivity|]. cbn. destruct (H t (or_introl eq_refl)) as ([u|e] & E); rewrite E; [|eauto].
  destruct (IH (fun x I => H x (or_intror I))) as (r & ->). destruct r; eauto.
Qed.
Theorem discover_can_end : forall model conn update state c es,
  exists more, (forall a, ~ In (Answer a) more) /\ exists r, over (after model conn update state c (es ++ more)) = Some r.
Proof.
  intros model conn update state c es. destruct (over (after model conn update state c es)) as [r|] eqn:O.
  { exists []. rewrite app_nil_r. split; [intros a []|eauto]. }
  assert (W : exists es', (forall a, ~ In (Answer a) es') /\ over (after model conn update state c (es ++ es')) = None /\ exists n, waited (after model conn update state c (es ++ es')) = Some n).
  { destruct (waited (after model conn update state c es)) as [n|] eqn:W.
    - exists []. rewrite app_nil_r. split; [intros a []|]. split; [exact O|]. eauto.
    - exists [SendingEnds]. split; [intros a [E|[]]; discriminate|]. rewrite after_snoc. split; [apply step_running; [discriminate|exact O]|].
      unfold step. rewrite O, W. eexists. reflexivity. }
  destruct W as (es' & Na & O' & n & W).
  enough (Q : forall k es1, sum (weight state) (tasks (after model conn update state c es1)) <= k ->
            over (after model conn update state c es1) = None -> waited (after model conn update state c es1) = Some n ->
            exists more, (forall a, ~ In (Answer a) more) /\ exists r, over (after model conn update state c (es1 ++ more)) = Some r).
  { destruct (Q _ (es ++ es') (le_n _) O' W) as (more & Nm & r & E). exists (es' ++ more). split.
    - intros a I. apply in_app_iff in I. destruct I as [I|I]; [exact (Na a I)|exact (Nm a I)].
    - exists r. rewrite app_assoc. exact E. }
  clear. induction k as [k IH] using lt_wf_ind. intros es1 K O W.
  assert (D : (exists t, In t (tasks (after model conn update state c es1)) /\ forall r, t_stage t <> Ended r) \/
              forall t, In t (tasks (after model conn update state c es1)) -> exists r, t_stage t = Ended r).
  { clear. induction (tasks (after model conn update state c es1)) as [|t l IH]; [right; intros t []|].
    destruct (t_stage t) as [| | |r] eqn:S.
    1-3: left; exists t; split; [now left|intros r; congruence].
    destruct IH as [(x & I & N)|A]; [left; exists x; split; [now right|exact N]|right; intros x [<-|I]; eauto]. }
  destruct D as [D|D].
  - destruct (progress _ _ _ _ _ _ _ O (running_inv _ _ _ _ _ _ O) D) as (e & Ne & Na & We & M).
    destruct (IH (sum (weight state) (tasks (after model conn update state c (es1 ++ [e])))) ltac:(rewrite after_snoc; lia) (es1 ++ [e]) (le_n _)) as (more & Nm & r & E).
    + rewrite after_snoc. apply step_running; auto.
    + rewrite after_snoc, We. exact W.
    + exists (e :: more). split.
      * intros a [E0|I]; [exact (Na a E0)|exact (Nm a I)].
      * exists r. rewrite <- app_assoc in E. exact E.
  - destruct (gathered_some (firstn n (tasks (after model conn update state c es1)))) as (r & G).
    { intros t I. apply D. rewrite <- (firstn_skipn n). apply in_app_iff. now left. }
    exists [Return]. split; [intros a [E|[]]; discriminate|]. exists r. rewrite after_snoc. unfold step. rewrite O, W, G. reflexivity.
Qed.
Print Assumptions discover_can_end.

(** detail is stopped by a device that does not answer its update: another one, that could
    be read, is then not shown at all; list shows both. *)
Theorem detail_stopped_refuted : forall model conn update state a b nb,
  a <> b -> update a = Err KTimeout -> update b = Ok nb -> snd (state b) = None -> (exists m, model a = Ok m) -> (exists m, model b = Ok m) ->
  exists es,
    heard es = [Device a; Device b] /\
    over (after model conn update state Detail es) = Some (Err KTimeout) /\
    out (after model conn update state Detail es) = [] /\
    exists more, (forall x, ~ In (Answer x) more) /\ over (after model conn update state Listing (es ++ more)) = Some (Ok tt).
Proof.
  intros model conn update state a b nb Nab Ua Ub Sb (ma & Ma) (mb & Mb).
  exists [Answer (Device a); Answer (Device b); Run 0; Run 1; Updated 0; SendingEnds; Return].
  assert (Eab : String.eqb a b = false) by (apply String.eqb_neq; exact Nab).
  assert (Eba : String.eqb b a = false) by (apply String.eqb_neq; congruence).
  split. { unfold heard. cbn. rewrite Eba. reflexivity. }
  assert (D : after model conn update state Detail [Answer (Device a); Answer (Device b); Run 0; Run 1; Updated 0; SendingEnds; Return]
    = mkSt [mkTask (Device a) (Ended (Err KTimeout)); mkTask (Device b) (Queued false)] None [] 0 0 (Some 2) (Some (Err KTimeout))).
  { unfold after. cbn. rewrite Eab. cbn. rewrite Ua. cbn. reflexivity. }
  rewrite D. split; [reflexivity|]. split; [reflexivity|].
  exists [Run 1; Updated 1; Return]. split; [intros x I; cbn in I; intuition discriminate|].
  unfold after. cbn. rewrite Eab. cbn. rewrite Ma. cbn. rewrite Mb. cbn. rewrite ?Ma, ?Mb, ?Ua, ?Ub. cbn. rewrite ?Mb. cbn. rewrite ?Ub, ?Mb. reflexivity.
Qed.
Print Assumptions detail_stopped_refuted.

(** A small network *)
Definition net_model (ip : string) : res string := Ok (if String.eqb ip "10.0.0.1" then "HS110" else "P100").
Definition net_conn (ip : string) : string * string * bool * option Z :=
  if String.eqb ip "10.0.0.1" then ("IOT.SMARTPLUGSWITCH", "XOR", false, None) else ("SMART.TAPOPLUG", "KLAP", false, Some 2%Z).
Definition net_update (ip : string) : res string := if String.eqb ip "10.0.0.1" then Ok "Lamp" else Err (KAuth None).
Definition net_state (ip : string) : list string * option exn := (["== Lamp - HS110 =="; "Device state: True"], None).
Definition net_run : list event :=
  [Answer (Device "10.0.0.2"); Answer (Device "10.0.0.1"); Run 0; Run 1; Answer (Unsupported "10.0.0.3" (Some "10.0.0.3")); Run 2; Answer (Device "10.0.0.1");
   Updated 0; SendingEnds; Run 2; Run 1; Updated 1; Print 1; Print 1; Print 1; Return].
Example listing_case : over (after net_model net_conn net_update net_state Listing net_run) = Some (Ok tt) /\
  out (after net_model net_conn net_update net_state Listing net_run) =
    [NotSupported "10.0.0.3"; Row "10.0.0.2" "P100" "SMART.TAPOPLUG" "KLAP" false (Some 2%Z) AuthFailed;
     Row "10.0.0.1" "HS110" "IOT.SMARTPLUGSWITCH" "XOR" false None (Named "Lamp")].
Proof. vm_compute. split; reflexivity. Qed.
Example detail_case : over (after net_model net_conn net_update net_state Detail net_run) = Some (Ok tt) /\
  out (after net_model net_conn net_update net_state Detail net_run) =
    [Refused "10.0.0.2"; Part "10.0.0.2" ""; UnsupportedBlock "10.0.0.3"; Part "10.0.0.1" "== Lamp - HS110 =="; Part "10.0.0.1" "Device state: True"; Part "10.0.0.1" "";
     Counts 2 1 1].
Proof. vm_compute. split; reflexivity. Qed.

(** ** raw *)
(** Values that --redact is to make alike, in an answer to the newer discovery: names at
    all, the encrypted part of the answer, identifiers with the same end, addresses of the
    same vendor *)
Definition new_alike (k : string) (x y : json) : Prop :=
  In k ["device_name"; "group_name"] /\ truthy x = truthy y \/
  k = "encrypt_info" /\ (exists d d', x = JObj d /\ y = JObj d' /\ NoDup (dkeys d) /\
    Forall2 (fun a b => fst a = fst b /\ (snd a = snd b \/ In (fst a) ["key"; "data"])) d d') \/
  In k ["device_id"; "owner"; "master_device_id"; "group_id"] /\ (exists s t, x = JStr s /\ y = JStr t /\ sdrop 9 s = sdrop 9 t) \/
  k = "mac" /\ exists f v d d', octets v /\ octets d /\ octets d' /\ known_delim f /\ x = JStr (mac_text f v d) /\ y = JStr (mac_text f v d').
Lemma dset_alike k v K (d d' : dict json) : NoDup (dkeys d) ->
  Forall2 (fun a b => fst a = fst b /\ (snd a = snd b \/ In (fst a) (k :: K))) d d' ->
  Forall2 (fun a b => fst a = fst b /\ (snd a = snd b \/ In (fst a) K)) (dset k v d) (dset k v d').
Proof.
  intros N F. induction F as [|[a x] [b y] d d' [E H] F IH]; cbn [dset].
  - repeat constructor.
  - cbn [fst snd] in *. subst b. inversion N as [|z w Nz Nw]; subst. destruct (String.eqb_spec k a) as [->|Ne].
    + constructor; [cbn; auto|]. clear IH N. revert F Nz. clear. intros F. induction F as [|[p x] [q y] d d' [E H] F IH]; intros Nz; constructor.
      * cbn [fst snd] in *. split; [exact E|]. destruct H as [H|[H|H]]; auto. exfalso. apply Nz. left. symmetry. exact H.
      * apply IH. intros I. apply Nz. right. exact I.
    + constructor; [|apply IH; exact Nw]. cbn [fst snd]. split; [reflexivity|]. destruct H as [H|[H|H]]; auto. congruence.
Qed.
Lemma dkeys_dset_NoDup k v (d : dict json) : NoDup (dkeys d) -> NoDup (dkeys (dset k v d)).
Proof. exact (dwf_dset k v d). Qed.
Lemma alike_eq (d d' : dict json) : Forall2 (fun a b => fst a = fst b /\ (snd a = snd b \/ In (fst a) [])) d d' -> d = d'.
Proof. intros F. induction F as [|[a x] [b y] d d' [E [H|[]]] F IH]; cbn in *; congruence. Qed.
Lemma new_alike_lemma : forall k r x y, dget k new_discovery_redactors = Some r -> new_alike k x y -> apply_redactor r x = apply_redactor r y.
Proof.
  intros k r x y R [(I & T)|[(-> & d & d' & -> & -> & N & F)|[(I & s & t & -> & -> & E)|(-> & f & v & d & d' & O1 & O2 & O3 & K & -> & ->)]]].
  - destruct I as [<-|[<-|[]]]; cbn in R; injection R as <-; cbn; rewrite ?T; reflexivity.
  - cbn in R. injection R as <-. cbn [apply_redactor empty_encrypt_info]. f_equal. apply alike_eq.
    apply dset_alike; [apply dkeys_dset_NoDup; exact N|]. apply (dset_alike "key" (JStr "") ["data"]); [exact N|exact F].
  - cbn [In] in I. repeat (destruct I as [<-|I]; [cbn in R; injection R as <-; cbn [apply_redactor keep_tail on_str]; rewrite E; reflexivity|]). destruct I.
  - cbn in R. injection R as <-. cbn [apply_redactor mac_redactor on_str]. rewrite (mask_mac_hides_device f v d d'); auto.
Qed.
(** With --redact what is printed does not depend on those; of the older discovery it does
    not depend on places, names, networks and accounts.  Without it the answer is printed
    as it came. *)
Theorem raw_redacts : forall ip port v v',
  (port = 20002%Z -> differ_only_in_secrets new_discovery_redactors new_alike v v') ->
  (port <> 20002%Z -> differ_only_in_secrets iot_redactors (any_secret iot_hidden) v v') ->
  print_raw true ip port v = print_raw true ip port v' /\
  print_raw false ip port v = JObj [("discovery_response", v); ("meta", JObj [("ip", JStr ip); ("port", JInt port)])].
Proof.
  intros ip port v v' H1 H2. split; [|reflexivity]. unfold print_raw, DISCOVERY_PORT_2. destruct (Z.eqb_spec port 20002) as [E|E].
  - rewrite (redact_hides _ _ new_alike_lemma v v') by auto. reflexivity.
  - rewrite (iot_redaction_hides v v') by auto. reflexivity.
Qed.
Print Assumptions raw_redacts.
(** What is printed keeps all else *)
Theorem raw_keeps : forall ip port v p x,
  clean (if (port =? 20002)%Z then new_discovery_redactors else iot_redactors) p -> at_path p v = Some x ->
  exists r y, print_raw true ip port v = JObj [("discovery_response", r); ("meta", JObj [("ip", JStr ip); ("port", JInt port)])] /\
    at_path p r = Some y /\ shape_of y = shape_of x.
Proof.
  intros ip port v p x C A. unfold print_raw, DISCOVERY_PORT_2. destruct (redact_keeps_rest _ _ _ _ C A) as (y & E & S).
  destruct (port =? 20002)%Z; eexists _, y; split; try reflexivity; auto.
Qed.
Print Assumptions raw_keeps.
Example raw_case :
  print_raw true "10.0.0.2" 20002%Z (JObj [("result", JObj [("device_id", JStr "0123456789abcdef"); ("device_model", JStr "P100(EU)"); ("mac", JStr "AA-BB-CC-11-22-33");
    ("encrypt_info", JObj [("sym_schm", JStr "AES"); ("key", JStr "k"); ("data", JStr "d")])])])
  = JObj [("discovery_response", JObj [("result", JObj [("device_id", JStr "REDACTED_9abcdef"); ("device_model", JStr "P100(EU)"); ("mac", JStr "AA-BB-CC-00-00-00");
    ("encrypt_info", JObj [("sym_schm", JStr "AES"); ("key", JStr ""); ("data", JStr "")])])]); ("meta", JObj [("ip", JStr "10.0.0.2"); ("port", JInt 20002)])].
Proof. vm_compute. reflexivity. Qed.

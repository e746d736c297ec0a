(** Lemmas about how a discovery ends. *)
From Verif Require Import Base DiscEnd_Model DiscEnd_Spec.
From Coq Require Import Lia.
Open Scope list_scope.

Lemma after_snoc : forall k b es e, after k b (es ++ [e]) = step k (after k b es) e.
Proof. intros. unfold after, run. now rewrite fold_left_app. Qed.
Lemma after_app : forall k b es es', after k b (es ++ es') = run k (after k b es) es'.
Proof. intros. unfold after, run. now rewrite fold_left_app. Qed.

Lemma put_length : forall A i (a : A) l, length (put i a l) = length l.
Proof. induction i; destruct l; cbn; auto. Qed.
Lemma put_get : forall A i (a x : A) l, nth_error l i = Some x -> nth_error (put i a l) i = Some a.
Proof. induction i; destruct l; cbn; intros; try discriminate; eauto. Qed.
Lemma put_other : forall A i j (a : A) l, i <> j -> nth_error (put i a l) j = nth_error l j.
Proof. induction i; destruct l, j; cbn; intros; try easy. apply IHi. lia. Qed.

Lemma first_failure_in : forall l e, first_failure l = Some e -> In (CEnded (Err e)) l.
Proof.
  induction l as [|c l IH]; cbn; intros e H; [discriminate|].
  destruct c as [|[u|x]]; cbn in H; auto. injection H as ->. auto.
Qed.
Lemma first_failure_none : forall l, first_failure l = None -> forallb ended l = true -> forall c, In c l -> c = CEnded (Ok tt).
Proof.
  induction l as [|c l IH]; cbn; intros N F x I; [easy|].
  destruct c as [|[[]|y]]; cbn in *; try discriminate.
  destruct I as [<-|I]; auto.
Qed.

(** ** The general invariant *)
Definition good_gather (es : list event) (cbs : list cbtask) (n : nat) (g : gather) : Prop :=
  n <= length cbs /\
  match g with
  | GSet (Ok _) => forall i, i < n -> nth_error cbs i = Some (CEnded (Ok tt))
  | GSet (Err e) => cause es e
  | GPending asked => (asked = true -> In ECancel es) /\
      (exists i, i < n /\ nth_error cbs i = Some CRuns) /\ (forall i x, i < n -> nth_error cbs i <> Some (CEnded (Err x)))
  end.
Record inv (k : kind) (es : list event) (s : state) : Prop := mkInv {
  i_must : must_cancel s = true -> In ECancel es;
  i_over : forall r, at_ s = Over r -> is_open s = false /\ must_cancel s = false;
  i_err : forall e, at_ s = Over (Err e) -> cause es e;
  i_close : forall i n e, at_ s = AtClose i n e -> cause es e /\ i < n /\ n <= length (devices s);
  i_gather : forall n g, at_ s = AtGather n g -> good_gather es (callback_tasks s) n g /\ exists r, task s = TEnded r;
  i_task : match task s with
           | TRuns => True
           | TCancelling => target_discovered s = true \/ In ECancel es \/ In ELost es
           | TEnded (Ok _) => True
           | TEnded (Err e) => e = Cancelled /\ (target_discovered s = true \/ In ECancel es \/ In ELost es) \/
                               e <> Cancelled /\ In (ESenderEnds (Err e)) es
           end;
  i_cbs : forall e, In (CEnded (Err e)) (callback_tasks s) -> exists i, In (ECallbackEnds i (Err e)) es;
  i_dev : devices s <> [] -> exists t p, In (EReply t (VDevice p)) es;
  i_bare : In false (devices s) -> exists t, In (EReply t (VDevice false)) es;
  i_taskmust : at_ s = AtTask -> must_cancel s = true -> exists r, task s = TEnded r }.

Lemma cause_more : forall es es' e, incl es es' -> cause es e -> cause es' e.
Proof.
  intros es es' e I C. destruct C; [eapply by_sender|eapply by_callback|eapply by_closing|eapply by_cancel|eapply by_loss|eapply by_start|
    eapply by_bare|eapply by_late]; eauto.
Qed.

Lemma inv_more : forall k es es' s, incl es es' -> inv k es s -> inv k es' s.
Proof.
  intros k es es' s I H. destruct H as [H1 H2 H3 H4 H5 H6 H7 H8 H9 H10]. constructor; auto.
  - intros e E. eapply cause_more; eauto.
  - intros i n e E. destruct (H4 _ _ _ E) as (C & ?). split; auto. eapply cause_more; eauto.
  - intros n g E. destruct (H5 _ _ E) as ((L & G) & T). split; auto. split; auto. destruct g as [a|[u|x]]; auto.
    + destruct G as (Ga & Gb). auto.
    + eapply cause_more; eauto.
  - destruct (task s) as [| |[u|x]]; auto.
    + destruct H6 as [|[|]]; auto.
    + destruct H6 as [(E & [|[|]])|(E & ?)]; [left; auto|left; auto|left; auto|right; auto].
  - intros e E. destruct (H7 _ E) as (i & ?). eauto.
  - intros E. destruct (H8 E) as (t & p & ?). eauto.
  - intros E. destruct (H9 E) as (t & ?). eauto.
Qed.

Lemma inv_over : forall k es s r, inv k es s -> (forall e, r = Err e -> cause es e) -> inv k es (over s r).
Proof.
  intros k es s r [H1 H2 H3 H4 H5 H6 H7 H8 H9 H10] C. unfold over.
  constructor; cbn [at_ task target_discovered devices callback_tasks is_open must_cancel closed]; try discriminate; auto.
  intros e E. apply C. now injection E.
Qed.
Lemma inv_close_from : forall k es s i n e, inv k es s -> cause es e -> n <= length (devices s) ->
  inv k es (close_from s i n e).
Proof.
  intros k es s i n e H C L. unfold close_from.
  destruct (Nat.eqb_spec (length (devices s)) n) as [E|E]; cbn [negb].
  - destruct (nth_error (devices s) i) as [[|]|] eqn:N.
    + assert (i < n) by (rewrite <- E; apply nth_error_Some; congruence).
      destruct H as [H1 H2 H3 H4 H5 H6 H7 H8 H9 H10]. unfold set_at.
      constructor; cbn [at_ task target_discovered devices callback_tasks is_open must_cancel closed]; try discriminate; auto.
      intros j m x X. injection X as <- <- <-. auto.
    + apply inv_over; auto. intros x X. injection X as <-.
      destruct (i_bare _ _ _ H) as (t & I); [eapply nth_error_In; eauto|]. eapply by_bare; eauto.
    + apply inv_over; auto. intros x X. now injection X as <-.
  - apply inv_over; auto. intros x X. injection X as <-.
    destruct (i_dev _ _ _ H) as (t & p & I).
    + intro D. rewrite D in *. cbn in *. lia.
    + eapply by_late; eauto.
Qed.
Lemma inv_unmark : forall k es s, inv k es s -> inv k es (unmark s).
Proof.
  intros k es s [H1 H2 H3 H4 H5 H6 H7 H8 H9 H10]. unfold unmark.
  constructor; cbn [at_ task target_discovered devices callback_tasks is_open must_cancel closed]; try discriminate; auto.
  intros r E. destruct (H2 r E). auto.
Qed.
Lemma inv_fail : forall k es s e, inv k es s -> cause es e -> inv k es (fail k s e).
Proof.
  intros k es s e H C. unfold fail. cbv zeta. fold (unmark s). apply inv_unmark in H.
  destruct (negb (single k) && (is_kasa e || negb (is_exception e))).
  - apply inv_close_from; auto.
  - apply inv_over; auto. intros x X. now injection X as <-.
Qed.
Lemma inv_set_gather : forall k es s n g, inv k es s -> good_gather es (callback_tasks s) n g -> (exists r, task s = TEnded r) ->
  inv k es (set_at s (AtGather n g)).
Proof.
  intros k es s n g [H1 H2 H3 H4 H5 H6 H7 H8 H9 H10] G T. unfold set_at.
  constructor; cbn [at_ task target_discovered devices callback_tasks is_open must_cancel closed]; try discriminate; auto.
  intros m h X. injection X as <- <-. auto.
Qed.
Lemma forallb_false_ended : forall l, forallb ended l = false -> exists i, i < length l /\ nth_error l i = Some CRuns.
Proof.
  induction l as [|c l IH]; cbn; intros H; [discriminate|].
  destruct c as [|r]; cbn in H.
  - exists 0. split; [lia|reflexivity].
  - destruct (IH H) as (i & L & N). exists (S i). split; [lia|auto].
Qed.
Lemma no_failure : forall l, first_failure l = None -> forall i x, nth_error l i <> Some (CEnded (Err x)).
Proof.
  induction l as [|c l IH]; cbn; intros H i x; [destruct i; discriminate|].
  destruct i; cbn.
  - destruct c as [|[u|y]]; cbn in H; try discriminate.
  - apply IH. destruct c as [|[u|y]]; cbn in H; auto; discriminate.
Qed.
Lemma good_all : forall k es s, inv k es s -> good_gather es (callback_tasks s) (length (callback_tasks s)) (gather_all (callback_tasks s)).
Proof.
  intros k es s H. split; [lia|]. unfold gather_all.
  destruct (first_failure (callback_tasks s)) as [e|] eqn:F.
  - apply first_failure_in in F. destruct (i_cbs _ _ _ H _ F) as (i & I). eapply by_callback; eauto.
  - destruct (forallb ended (callback_tasks s)) eqn:A.
    + intros i L. destruct (nth_error (callback_tasks s) i) as [c|] eqn:N.
      * f_equal. eapply first_failure_none; eauto. eapply nth_error_In; eauto.
      * apply nth_error_None in N. lia.
    + split; [discriminate|]. split; [now apply forallb_false_ended|]. intros i x _. now apply no_failure.
Qed.
Lemma inv_wait : forall k es s, inv k es s -> (exists r, task s = TEnded r) -> inv k es (wait_callbacks s).
Proof.
  intros k es s H T. unfold wait_callbacks. destruct (callback_tasks s) as [|c l] eqn:C.
  - apply inv_over; auto. discriminate.
  - rewrite <- C. apply inv_set_gather; auto. eapply good_all; eauto.
Qed.
Lemma inv_after_task : forall k es s r, inv k es s -> (exists r, task s = TEnded r) ->
  match r with Ok _ => True | Err Cancelled => target_discovered s = true \/ cause es Cancelled | Err e => cause es e end ->
  inv k es (after_task k s r).
Proof.
  intros k es s r H T C. unfold after_task. destruct r as [u|e]; [now apply inv_wait|].
  destruct e; try (apply inv_fail; assumption).
  destruct (target_discovered s) eqn:D; [now apply inv_wait|].
  apply inv_fail; auto. destruct C; [discriminate|auto].
Qed.
Lemma inv_resume : forall k es s, inv k es s -> inv k es (resume k s).
Proof.
  intros k es s H. unfold resume. destruct (at_ s) as [| |n g|i n e|r] eqn:A.
  - destruct (must_cancel s) eqn:M; auto. apply inv_fail; auto. apply by_cancel. now apply (i_must _ _ _ H).
  - destruct (must_cancel s) eqn:M.
    + apply inv_after_task; [now apply inv_unmark|exact (i_taskmust _ _ _ H A M)|].
      right. apply by_cancel. now apply (i_must _ _ _ H).
    + destruct (task s) as [| |r] eqn:T; auto. apply inv_after_task; eauto.
      pose proof (i_task _ _ _ H) as P. rewrite T in P. destruct r as [u|e]; auto.
      destruct P as [(-> & [P|[P|P]])|(N & P)].
      * now left.
      * right. now apply by_cancel.
      * right. now apply by_loss.
      * destruct e; try (apply by_sender; [discriminate|assumption]). contradiction.
  - destruct (i_gather _ _ _ H _ _ A) as ((L & G) & T).
    destruct (must_cancel s) eqn:M; [apply inv_fail; auto; apply by_cancel; now apply (i_must _ _ _ H)|].
    destruct g as [a|[u|e]]; auto.
    + apply inv_over; auto. discriminate.
    + apply inv_fail; auto.
  - destruct (must_cancel s) eqn:M; auto. apply inv_over; auto. intros x X. injection X as <-. apply by_cancel. now apply (i_must _ _ _ H).
  - auto.
Qed.
Lemma inv_mark : forall k es s, inv k es s -> In ECancel es -> (forall r, at_ s <> Over r) -> (at_ s = AtTask -> exists r, task s = TEnded r) -> inv k es (mark s).
Proof.
  intros k es s [H1 H2 H3 H4 H5 H6 H7 H8 H9 H10] I O T. unfold mark.
  constructor; cbn [at_ task target_discovered devices callback_tasks is_open must_cancel closed]; auto.
  intros r E. destruct (O r E).
Qed.
Lemma inv_cancel_task : forall k es s, inv k es s -> In ECancel es -> at_ s = AtTask -> sending s ->
  inv k es (mkState (at_ s) (cancel (task s)) (target_discovered s) (devices s) (callback_tasks s) (is_open s) (must_cancel s) (closed s)).
Proof.
  intros k es s [H1 H2 H3 H4 H5 H6 H7 H8 H9 H10] I A S.
  constructor; cbn [at_ task target_discovered devices callback_tasks is_open must_cancel closed]; auto.
  - intros n g E. congruence.
  - destruct (task s) as [| |r] eqn:T; cbn; auto.
  - intros E M. destruct (H10 E M) as (r & T). destruct (S r T).
Qed.
Lemma inv_cancel : forall k es s, inv k es s -> In ECancel es -> inv k es (cancel_call s).
Proof.
  intros k es s H I. unfold cancel_call. destruct (at_ s) as [| |n g|i n e|r] eqn:A; auto.
  - apply inv_mark; congruence || auto.
  - destruct (task s) as [| |r] eqn:T.
    + pose proof (inv_cancel_task k es s H I A) as P. rewrite T, A in P. apply P. intros r E. congruence.
    + pose proof (inv_cancel_task k es s H I A) as P. rewrite T, A in P. apply P. intros r E. congruence.
    + apply inv_mark; try congruence. eauto.
  - destruct (i_gather _ _ _ H _ _ A) as ((L & G) & T). destruct g as [a|r].
    + apply inv_set_gather; auto. destruct G as (Ga & Gb). split; auto.
    + apply inv_mark; congruence || auto.
  - apply inv_mark; congruence || auto.
Qed.
Lemma inv_reply : forall k es s t v, inv k es s -> is_open s = true -> In (EReply t v) es -> inv k es (reply k s t v).
Proof.
  intros k es s t v [H1 H2 H3 H4 H5 H6 H7 H8 H9 H10] O I. unfold reply. cbv zeta.
  constructor; cbn [at_ task target_discovered devices callback_tasks is_open must_cancel closed]; auto.
  - intros i n e E. destruct (H4 _ _ _ E) as (C & L & M). split; auto. rewrite app_length. lia.
  - intros n g E. destruct (H5 _ _ E) as ((L & G) & (r & T)). split.
    + assert (P : forall i, i < n -> nth_error (callback_tasks s ++ match v with
        | VDevice _ => if on_discovered k then [CRuns] else []
        | VUnsupported => if on_unsupported k then [CRuns] else []
        | _ => []
        end) i = nth_error (callback_tasks s) i) by (intros; apply nth_error_app1; lia).
      split; [rewrite app_length; lia|]. destruct g as [a|[u|x]].
      * destruct G as (Ga & (i & Li & N) & Gc). split; auto. split.
        -- exists i. rewrite P; auto.
        -- intros j x Lj. rewrite P; auto.
      * intros i Li. rewrite P; auto.
      * auto.
    + exists r. rewrite T. destruct v, t; reflexivity.
  - set (heard := match v with VNothing => false | _ => t end). destruct heard.
    + rewrite orb_true_r. destruct (task s) as [| |[u|x]]; cbn [cancel]; auto. destruct H6 as [(E & ?)|?]; auto.
    + rewrite orb_false_r. exact H6.
  - intros e E. apply in_app_or in E as [E|E]; auto.
    destruct v; try (destruct (on_discovered k)); try (destruct (on_unsupported k)); cbn in E; intuition discriminate.
  - intros E. destruct v as [p| | |]; [eauto|rewrite app_nil_r in E; auto ..].
  - intros E. apply in_app_or in E as [E|E]; auto. destruct v as [p| | |]; cbn in E; try easy. destruct E as [->|[]]. eauto.
  - intros A M. destruct (H10 A M) as (r & T). exists r. rewrite T. destruct v, t; reflexivity.
Qed.
Lemma put_in : forall A i (a x : A) l, In x (put i a l) -> x = a \/ In x l.
Proof.
  induction i; destruct l; cbn; intros H; auto.
  - destruct H; auto.
  - destruct H as [H|H]; auto. destruct (IHi _ _ _ H); auto.
Qed.
Lemma ended_nth : forall l n, n <= length l -> forallb ended (firstn n l) = true -> forall i, i < n -> exists r, nth_error l i = Some (CEnded r).
Proof.
  intros l n L F i H. rewrite forallb_forall in F.
  destruct (nth_error l i) as [c|] eqn:N; [|apply nth_error_None in N; lia].
  assert (I : In c (firstn n l)).
  { rewrite <- (firstn_skipn n l), nth_error_app1 in N; [|rewrite firstn_length; lia]. eapply nth_error_In; eauto. }
  specialize (F _ I). destruct c; [discriminate|]. eauto.
Qed.
Lemma inv_callback : forall k es s i r, inv k es s -> In (ECallbackEnds i r) es -> inv k es (callback_ends s i r).
Proof.
  intros k es s i r H I. unfold callback_ends.
  destruct (nth_error (callback_tasks s) i) as [[|x]|] eqn:N; auto. cbv zeta.
  set (s' := mkState (at_ s) (task s) (target_discovered s) (devices s) (put i (CEnded r) (callback_tasks s)) (is_open s) (must_cancel s) (closed s)).
  (* all but the gather part *)
  assert (Q : forall p, (forall n g, p = AtGather n g -> good_gather es (put i (CEnded r) (callback_tasks s)) n g /\ exists r, task s = TEnded r) ->
              (p = at_ s \/ exists n g, p = AtGather n g) -> inv k es (set_at s' p)).
  { intros p G E. destruct H as [H1 H2 H3 H4 H5 H6 H7 H8 H9 H10]. unfold set_at, s'.
    constructor; cbn [at_ task target_discovered devices callback_tasks is_open must_cancel closed]; auto.
    - intros y Y. destruct E as [E|(n & g & E)]; [|congruence]. apply (H2 y). congruence.
    - intros y Y. destruct E as [E|(n & g & E)]; [|congruence]. apply H3. congruence.
    - intros a b c Y. destruct E as [E|(n & g & E)]; [|congruence]. apply (H4 a b c). congruence.
    - intros y Y. apply put_in in Y as [Y|Y]; auto. injection Y as <-. eauto.
    - intros Y M. destruct E as [E|(n & g & E)]; [|congruence]. apply H10; congruence. }
  assert (R : forall n g, at_ s = AtGather n g -> ~ (i < n /\ exists a, g = GPending a) ->
              good_gather es (put i (CEnded r) (callback_tasks s)) n g /\ exists r, task s = TEnded r).
  { intros n g A X. destruct (i_gather _ _ _ H _ _ A) as ((L & G) & T). split; auto. split; [now rewrite put_length|].
    assert (O : forall j, j < n -> nth_error (callback_tasks s) j <> Some CRuns -> nth_error (put i (CEnded r) (callback_tasks s)) j = nth_error (callback_tasks s) j).
    { intros j Lj Nj. apply put_other. intros <-. auto. }
    destruct g as [a|[u|e]]; auto.
    - assert (Li : n <= i) by (destruct (Nat.le_gt_cases n i); auto; exfalso; eauto).
      assert (O' : forall j, j < n -> nth_error (put i (CEnded r) (callback_tasks s)) j = nth_error (callback_tasks s) j)
        by (intros j Lj; apply put_other; lia).
      destruct G as (Ga & (j & Lj & Nj) & Gc). split; auto. split.
      + exists j. rewrite O'; auto.
      + intros m x Lm. rewrite O'; auto.
    - intros j Lj. rewrite O; auto. rewrite G; auto. discriminate. }
  assert (K : ~ (exists n a, at_ s = AtGather n (GPending a) /\ i < n) -> inv k es s').
  { intros X. replace s' with (set_at s' (at_ s)) by reflexivity. apply Q; auto. intros n g E. apply (R n g); auto.
    intros (L & a & ->). eauto. }
  change (at_ s') with (at_ s).
  destruct (at_ s) as [| |n g|a b c|y] eqn:A; try (apply K; intros (? & ? & ? & ?); congruence).
  destruct g as [asked|y]; [|apply K; intros (? & ? & ? & ?); congruence].
  destruct (Nat.ltb_spec i n) as [L|L]; [|apply K; intros (? & ? & E & ?); injection E; intros; lia].
  destruct (i_gather _ _ _ H _ _ A) as ((Ln & Ga & (j & Lj & Nj) & Gc) & T).
  destruct r as [u|e].
  - destruct (forallb ended (firstn n (put i (CEnded (Ok u)) (callback_tasks s)))) eqn:F.
    + apply Q; eauto. intros m h E. injection E as <- <-. split; auto. split; [now rewrite put_length|]. destruct asked.
      * apply by_cancel. auto.
      * intros m Lm. destruct u.
        assert (Lp : n <= length (put i (CEnded (Ok tt)) (callback_tasks s))) by (rewrite put_length; exact Ln).
        destruct (ended_nth _ n Lp F m Lm) as (x & X).
        rewrite X. destruct x as [[]|e]; auto.
        destruct (Nat.eq_dec i m) as [<-|D].
        -- rewrite (put_get _ _ _ _ _ N) in X. discriminate.
        -- rewrite put_other in X by auto. destruct (Gc m e Lm X).
    + assert (Z : s' = set_at s' (AtGather n (GPending asked))) by (subst s'; unfold set_at; cbn [at_ task target_discovered devices callback_tasks is_open must_cancel closed]; try rewrite A; reflexivity).
      rewrite Z.
      apply Q; auto. intros m h E. injection E as <- <-. split; auto. split; [now rewrite put_length|]. split; auto. split.
      * destruct (forallb_false_ended _ F) as (m & Lm & Nm). rewrite firstn_length in Lm. exists m. split; [lia|].
        rewrite <- (firstn_skipn n (put i (CEnded (Ok u)) (callback_tasks s))), nth_error_app1; auto. rewrite firstn_length. lia.
      * intros m x Lm. destruct (Nat.eq_dec i m) as [<-|D].
        -- rewrite (put_get _ _ _ _ _ N). discriminate.
        -- rewrite put_other by auto. auto.
  - apply Q; eauto. intros m h E. injection E as <- <-. split; auto. split; [now rewrite put_length|]. eapply by_callback; eauto.
Qed.

Lemma inv_step : forall k es s e, inv k es s -> In e es -> inv k es (step k s e).
Proof.
  intros k es s e H I. destruct e as [t v|r|i r| | | | |r]; cbn [step].
  - destruct (is_open s) eqn:O; auto. now apply inv_reply.
  - destruct (task s) as [| |x] eqn:T; auto.
    + assert (Q : r <> Err Cancelled -> inv k es (mkState (at_ s) (TEnded r) (target_discovered s) (devices s) (callback_tasks s) (is_open s) (must_cancel s) (closed s))).
      { intros N. destruct H as [H1 H2 H3 H4 H5 H6 H7 H8 H9 H10].
        constructor; cbn [at_ task target_discovered devices callback_tasks is_open must_cancel closed]; auto.
        - intros n g E. destruct (H5 _ _ E). split; eauto.
        - destruct r as [u|x]; auto. right. split; congruence || auto.
        - eauto. }
      destruct r as [u|x]; [apply Q; discriminate|]. destruct x; auto; apply Q; discriminate.
    + destruct H as [H1 H2 H3 H4 H5 H6 H7 H8 H9 H10]. rewrite T in *.
      constructor; cbn [at_ task target_discovered devices callback_tasks is_open must_cancel closed]; auto.
      * intros n g E. destruct (H5 _ _ E). split; eauto.
      * eauto.
  - now apply inv_callback.
  - destruct (is_open s) eqn:O; auto. destruct H as [H1 H2 H3 H4 H5 H6 H7 H8 H9 H10].
    constructor; cbn [at_ task target_discovered devices callback_tasks is_open must_cancel closed]; auto.
    + intros r E. destruct (H2 r E). congruence.
    + intros n g E. destruct (H5 _ _ E) as (G & r & T). split; auto. exists r. now rewrite T.
    + destruct (task s) as [| |r]; cbn; auto.
    + intros A M. destruct (H10 A M) as (r & T). exists r. now rewrite T.
  - destruct (at_ s) eqn:A; auto. destruct (must_cancel s); auto. apply inv_fail; auto. now apply by_start.
  - now apply inv_cancel.
  - now apply inv_resume.
  - destruct (at_ s) as [| |n g|i n x|y] eqn:A; auto. destruct (must_cancel s) eqn:M; auto.
    destruct (i_close _ _ _ H _ _ _ A) as (C & L & Ln).
    destruct r as [u|y].
    + apply inv_close_from; auto. destruct H as [H1 H2 H3 H4 H5 H6 H7 H8 H9 H10]. rewrite A, M in *.
      constructor; cbn [at_ task target_discovered devices callback_tasks is_open must_cancel closed]; auto.
    + apply inv_over; auto. intros z Z. injection Z as <-. now apply by_closing.
Qed.
Lemma inv_init : forall k b, inv k [] (init b).
Proof.
  intros k b. unfold init. constructor; cbn; try discriminate; try easy; destruct b; try discriminate; easy.
Qed.
Lemma inv_after : forall k b es, inv k es (after k b es).
Proof.
  intros k b es. induction es as [|e es IH] using rev_ind; [apply inv_init|].
  rewrite after_snoc. apply inv_step; [|apply in_or_app; right; now left].
  eapply inv_more; eauto. intros x X. apply in_or_app. now left.
Qed.

(** ** What does not change *)
Ltac fields := cbn [at_ task target_discovered devices callback_tasks is_open must_cancel closed].
Lemma close_from_at : forall s i n e, (exists r, at_ (close_from s i n e) = Over r) \/ at_ (close_from s i n e) = AtClose i n e.
Proof.
  intros. unfold close_from. destruct (negb _); [left; eexists; reflexivity|].
  destruct (nth_error (devices s) i) as [[|]|]; [right; reflexivity|left; eexists; reflexivity ..].
Qed.
Lemma close_from_keeps : forall s i n e, task (close_from s i n e) = task s /\ target_discovered (close_from s i n e) = target_discovered s /\
  devices (close_from s i n e) = devices s /\ callback_tasks (close_from s i n e) = callback_tasks s /\ closed (close_from s i n e) = closed s.
Proof.
  intros. unfold close_from. destruct (negb _); [repeat split|].
  destruct (nth_error (devices s) i) as [[|]|]; repeat split.
Qed.
Lemma fail_keeps : forall k s e, task (fail k s e) = task s /\ target_discovered (fail k s e) = target_discovered s /\
  devices (fail k s e) = devices s /\ callback_tasks (fail k s e) = callback_tasks s /\ closed (fail k s e) = closed s.
Proof.
  intros. unfold fail. cbv zeta. destruct (_ && _); [|repeat split].
  match goal with |- context[close_from ?a ?b ?c ?d] => exact (close_from_keeps a b c d) end.
Qed.
Lemma wait_keeps : forall s, task (wait_callbacks s) = task s /\ target_discovered (wait_callbacks s) = target_discovered s /\
  devices (wait_callbacks s) = devices s /\ callback_tasks (wait_callbacks s) = callback_tasks s /\ closed (wait_callbacks s) = closed s.
Proof. intros. unfold wait_callbacks. destruct (callback_tasks s) eqn:C; repeat split; cbn; auto. Qed.
Lemma after_task_keeps : forall k s r, task (after_task k s r) = task s /\ target_discovered (after_task k s r) = target_discovered s /\
  devices (after_task k s r) = devices s /\ callback_tasks (after_task k s r) = callback_tasks s /\ closed (after_task k s r) = closed s.
Proof.
  intros k s r. unfold after_task. destruct r as [u|e]; [apply wait_keeps|].
  destruct e; try apply fail_keeps. destruct (target_discovered s) eqn:T; [rewrite <- T; apply wait_keeps|rewrite <- T; apply fail_keeps].
Qed.
Lemma resume_keeps : forall k s, task (resume k s) = task s /\ target_discovered (resume k s) = target_discovered s /\
  devices (resume k s) = devices s /\ callback_tasks (resume k s) = callback_tasks s /\ closed (resume k s) = closed s.
Proof.
  intros k s. unfold resume. destruct (at_ s) as [| |n g|i n e|r].
  - destruct (must_cancel s); [apply fail_keeps|repeat split].
  - destruct (must_cancel s); [exact (after_task_keeps k (unmark s) (Err Cancelled))|].
    destruct (task s) as [| |r] eqn:T; [repeat split; auto ..|]. rewrite <- T. apply after_task_keeps.
  - destruct (must_cancel s); [apply fail_keeps|]. destruct g as [a|[u|e]]; [repeat split|repeat split|apply fail_keeps].
  - destruct (must_cancel s); repeat split.
  - repeat split.
Qed.
Lemma fail_at : forall k s e, (exists r, at_ (fail k s e) = Over (Err r)) \/ exists n, at_ (fail k s e) = AtClose 0 n e.
Proof.
  intros. unfold fail. cbv zeta. destruct (_ && _); [|left; eexists; reflexivity].
  unfold close_from. destruct (negb _); [left; eexists; reflexivity|]. fields.
  destruct (nth_error (devices s) 0) as [[|]|]; [right; eexists; reflexivity|left; eexists; reflexivity ..].
Qed.

(** Only a reply adds a device or a callback task. *)
Lemma step_devices : forall k s e, (forall t v, e <> EReply t v) -> devices (step k s e) = devices s.
Proof.
  intros k s e N. destruct e as [t v|r|i r| | | | |r]; cbn [step].
  - destruct (N t v eq_refl).
  - destruct (task s); auto. destruct r as [u|x]; auto. destruct x; auto.
  - unfold callback_ends. destruct (nth_error _ _) as [[|]|]; auto. cbv zeta. fields.
    destruct (at_ s) as [| |n g| |]; auto. destruct g; auto. destruct (Nat.ltb _ _); auto. destruct r; auto.
    destruct (forallb _ _); auto.
  - destruct (is_open s); auto.
  - destruct (at_ s); auto. destruct (must_cancel s); auto. apply fail_keeps.
  - unfold cancel_call. destruct (at_ s) as [| |n g| |]; auto. { destruct (task s); auto. } destruct g; auto.
  - apply resume_keeps.
  - destruct (at_ s); auto. destruct (must_cancel s); auto. destruct r; auto.
    match goal with |- devices (close_from ?a ?b ?c ?d) = _ => destruct (close_from_keeps a b c d) as (_ & _ & E & _) end.
    exact E.
Qed.
Lemma step_over : forall k s e r, at_ s = Over r -> is_open s = false ->
  at_ (step k s e) = Over r /\ is_open (step k s e) = false /\ devices (step k s e) = devices s /\ closed (step k s e) = closed s.
Proof.
  intros k s e r A O. destruct e as [t v|x|i x| | | | |x]; cbn [step]; unfold cancel_call, resume; rewrite ?O, ?A; auto.
  - destruct (task s); auto. destruct x as [u|x]; auto. destruct x; auto.
  - unfold callback_ends. destruct (nth_error _ _) as [[|]|]; auto. cbv zeta. fields. rewrite A. auto.
Qed.
Lemma run_over : forall k es s r, at_ s = Over r -> is_open s = false ->
  at_ (run k s es) = Over r /\ devices (run k s es) = devices s /\ closed (run k s es) = closed s.
Proof.
  intros k es. induction es as [|e es IH]; intros s r A O; [auto|].
  destruct (step_over k s e r A O) as (A' & O' & D & C). destruct (IH _ _ A' O') as (A2 & D2 & C2).
  unfold run in *. cbn [fold_left]. now rewrite A2, D2, C2.
Qed.

(** ** Callbacks started before the sending ended *)
Definition held (m : nat) (s : state) : Prop :=
  (exists r, task s = TEnded r) /\ m <= length (callback_tasks s) /\
  (forall n g, at_ s = AtGather n g -> m <= n) /\
  (at_ s = Over (Ok tt) -> forall i, i < m -> nth_error (callback_tasks s) i = Some (CEnded (Ok tt))).
Ltac hold := split; [eauto|]; split; [assumption|]; split; [assumption || discriminate | assumption || discriminate].
Lemma held_fail : forall m k s e, held m s -> held m (fail k s e).
Proof.
  intros m k s e (T & L & G & O). destruct (fail_keeps k s e) as (E1 & _ & _ & E2 & _).
  unfold held. rewrite E1, E2. destruct (fail_at k s e) as [(r & A)|(n & A)]; rewrite A; repeat split; auto; discriminate.
Qed.
Lemma held_over_err : forall m s e, held m s -> held m (over s (Err e)).
Proof. intros m s e (T & L & G & O). repeat split; auto; discriminate. Qed.
Lemma held_close_from : forall m s i n e, held m s -> held m (close_from s i n e).
Proof.
  intros m s i n e (T & L & G & O). unfold close_from. destruct (negb _); [repeat split; auto; discriminate|].
  destruct (nth_error (devices s) i) as [[|]|]; repeat split; auto; discriminate.
Qed.
Lemma held_wait : forall m s, held m s -> held m (wait_callbacks s).
Proof.
  intros m s (T & L & G & O). unfold wait_callbacks. destruct (callback_tasks s) as [|c l] eqn:C.
  - cbn in L. unfold held, over. fields. rewrite C. split; [exact T|]. split; [cbn; lia|]. split; [discriminate|]. intros _ i Li. lia.
  - unfold held, set_at. fields. rewrite C. repeat split; auto; try discriminate.
    intros n g E. injection E as <- <-. exact L.
Qed.
Lemma held_after_task : forall m k s r, held m s -> held m (after_task k s r).
Proof.
  intros m k s r H. unfold after_task. destruct r as [u|e]; [now apply held_wait|].
  destruct e; try (now apply held_fail). destruct (target_discovered s); [now apply held_wait|now apply held_fail].
Qed.
Lemma held_resume : forall m k es s, inv k es s -> held m s -> held m (resume k s).
Proof.
  intros m k es s I H. unfold resume. destruct (at_ s) as [| |n g|i n e|r] eqn:A.
  - destruct (must_cancel s); [now apply held_fail|auto].
  - destruct (must_cancel s).
    + apply held_after_task. destruct H as (T & L & G & O). unfold held, unmark. fields. auto.
    + destruct (task s); auto. now apply held_after_task.
  - destruct (must_cancel s); [now apply held_fail|]. destruct g as [a|[u|e]]; auto; [|now apply held_fail].
    destruct H as (T & L & G & O). destruct (i_gather _ _ _ I _ _ A) as ((Ln & Gg) & _). specialize (G _ _ A).
    unfold held, over. fields. repeat split; auto; try discriminate. intros _ i Li. apply Gg. lia.
  - destruct (must_cancel s); auto. now apply held_over_err.
  - auto.
Qed.
Lemma held_step : forall m k es s e, inv k es s -> held m s -> held m (step k s e).
Proof.
  intros m k es s e I H. destruct e as [t v|r|i r| | | | |r]; cbn [step].
  - destruct (is_open s) eqn:Op; auto. destruct H as ((r & T) & L & G & O). unfold reply. cbv zeta. unfold held. fields.
    split; [exists r; rewrite T; destruct v, t; reflexivity|]. split; [rewrite app_length; lia|]. split; auto.
    intros A. destruct (i_over _ _ _ I _ A). congruence.
  - destruct H as ((x & T) & L & G & O). rewrite T. unfold held. eauto.
  - destruct H as (T & L & G & O). unfold callback_ends.
    destruct (nth_error (callback_tasks s) i) as [[|y]|] eqn:N; [|split; auto|split; auto]. cbv zeta. fields.
    assert (Z : at_ s = Over (Ok tt) -> forall j, j < m -> nth_error (put i (CEnded r) (callback_tasks s)) j = Some (CEnded (Ok tt))).
    { intros A j Lj. specialize (O A j Lj). rewrite put_other; auto. intros <-. congruence. }
    destruct (at_ s) as [| |n g|a b c|y] eqn:A;
      try (unfold held; fields; rewrite ?A, put_length; split; [assumption|split; [assumption|split; [assumption|assumption]]]).
    destruct g as [a|y]; [|unfold held; fields; rewrite put_length; auto].
    destruct (Nat.ltb i n); [|unfold held; fields; rewrite put_length; auto].
    assert (M : m <= n) by (eapply G; reflexivity).
    destruct r as [u|x]; [destruct (forallb ended _)|]; unfold held, set_at; fields; rewrite put_length; repeat split; auto; try discriminate;
      intros ? ? E; injection E; intros; subst; auto.
  - destruct (is_open s) eqn:Op; auto. destruct H as ((r & T) & L & G & O). unfold held. fields. rewrite T. cbn [cancel]. eauto.
  - destruct (at_ s) eqn:A; auto. destruct (must_cancel s); auto. now apply held_fail.
  - destruct H as ((r & T) & L & G & O). unfold cancel_call. destruct (at_ s) as [| |n g|a b c|y] eqn:A; rewrite ?T; unfold held, mark, set_at.
    + fields. rewrite A. hold.
    + fields. rewrite A. hold.
    + destruct g; fields; rewrite ?A; [|hold]. split; [eauto|]. split; [exact L|]. split; [|discriminate].
      intros m' g' E. injection E as <- <-. eapply G; reflexivity.
    + fields. rewrite A. hold.
    + rewrite A, T. hold.
  - eapply held_resume; eauto.
  - destruct (at_ s) as [| |n g|a b c|y] eqn:A; auto. destruct (must_cancel s); auto. destruct r as [u|x]; [|now apply held_over_err].
    apply held_close_from. destruct H as (T & L & G & O). unfold held. fields. rewrite A in *. auto.
Qed.
Lemma held_run : forall m k b es es', held m (after k b es) -> held m (after k b (es ++ es')).
Proof.
  intros m k b es es' H. induction es' as [|e es' IH] using rev_ind; [now rewrite app_nil_r|].
  rewrite app_assoc, after_snoc. eapply held_step; eauto. apply inv_after.
Qed.

(** ** Cancelled, and the target not heard *)
Definition doomed (s : state) : Prop :=
  match at_ s with
  | AtStart => must_cancel s = true
  | AtTask => must_cancel s = true \/ task s = TCancelling \/ task s = TEnded (Err Cancelled)
  | AtGather _ g => must_cancel s = true \/ g = GPending true \/ exists e, g = GSet (Err e)
  | AtClose _ _ _ => True
  | Over r => r <> Ok tt
  end.
Lemma doomed_fail : forall k s e, doomed (fail k s e).
Proof.
  intros k s e. unfold doomed. destruct (fail_at k s e) as [(r & A)|(n & A)]; rewrite A; [discriminate|exact I].
Qed.
Lemma doomed_cancel : forall s, (forall r, at_ s <> Over r) -> doomed (cancel_call s).
Proof.
  intros s N. unfold cancel_call, doomed. destruct (at_ s) as [| |n g|a b c|y] eqn:A.
  - unfold mark. fields. now rewrite A.
  - destruct (task s) as [| |r] eqn:T; unfold mark; fields; rewrite ?A; auto.
  - destruct g; unfold mark, set_at; fields; rewrite ?A; auto.
  - unfold mark. fields. now rewrite A.
  - destruct (N y eq_refl).
Qed.
Lemma target_step : forall k s e, target_discovered (step k s e) = false -> target_discovered s = false.
Proof.
  intros k s e H. destruct e as [t v|r|i r| | | | |r]; cbn [step] in H.
  - destruct (is_open s); auto. unfold reply in H. cbv zeta in H. cbn [target_discovered] in H. now apply orb_false_iff in H.
  - destruct (task s); auto. destruct r as [u|x]; auto. destruct x; auto.
  - unfold callback_ends in H. destruct (nth_error _ _) as [[|]|]; auto. cbv zeta in H. cbn [at_] in H.
    destruct (at_ s) as [| |n g| |]; auto. destruct g; auto. destruct (Nat.ltb _ _); auto. destruct r; auto.
    destruct (forallb _ _); auto.
  - destruct (is_open s); auto.
  - destruct (at_ s); auto. destruct (must_cancel s); auto. destruct (fail_keeps k s PyTimeout) as (_ & E & _). congruence.
  - unfold cancel_call in H. destruct (at_ s) as [| |n g| |]; auto. { destruct (task s); auto. } destruct g; auto.
  - destruct (resume_keeps k s) as (_ & E & _). congruence.
  - destruct (at_ s); auto. destruct (must_cancel s); auto. destruct r; auto.
    match type of H with target_discovered (close_from ?a ?b ?c ?d) = _ => destruct (close_from_keeps a b c d) as (_ & E & _) end.
    rewrite E in H. exact H.
Qed.
Lemma doomed_step : forall k s e, target_discovered (step k s e) = false -> doomed s -> doomed (step k s e).
Proof.
  intros k s e T D. pose proof (target_step _ _ _ T) as T0. destruct e as [t v|r|i r| | | | |r]; cbn [step].
  - destruct (is_open s) eqn:Op; auto. cbn [step] in T. rewrite Op in T. unfold reply in *. cbv zeta in *. unfold doomed in *. fields.
    cbn [target_discovered] in T. apply orb_false_iff in T as (_ & T). rewrite T. destruct (at_ s); auto.
  - destruct (task s) as [| |x] eqn:K; auto.
    + assert (Q : r <> Err Cancelled -> doomed (mkState (at_ s) (TEnded r) (target_discovered s) (devices s) (callback_tasks s) (is_open s) (must_cancel s) (closed s))).
      { intros _. unfold doomed in *. fields. destruct (at_ s); auto. destruct D as [D|[D|D]]; auto; congruence. }
      destruct r as [u|x]; [apply Q; discriminate|]. destruct x; auto; apply Q; discriminate.
    + unfold doomed in *. fields. destruct (at_ s); auto.
  - unfold callback_ends. destruct (nth_error _ _) as [[|]|]; auto. cbv zeta. fields. unfold doomed in *.
    destruct (at_ s) as [| |n g|a b c|y] eqn:A; fields; auto. destruct g as [a|y]; auto.
    destruct (Nat.ltb i n); auto. destruct r as [u|x].
    + destruct (forallb _ _); auto. unfold set_at. fields. destruct D as [D|[D|(e & D)]]; auto; try discriminate.
      injection D as ->. right. right. eauto.
    + unfold set_at. fields. right. right. eauto.
  - destruct (is_open s); auto. unfold doomed in *. fields. destruct (at_ s); auto.
    destruct D as [D|[D|D]]; auto; rewrite D; auto.
  - destruct (at_ s) eqn:A; auto. destruct (must_cancel s); auto. apply doomed_fail.
  - destruct (at_ s) as [| |n g|a b c|y] eqn:A; try (apply doomed_cancel; congruence).
    unfold cancel_call. now rewrite A.
  - unfold resume. unfold doomed in D. destruct (at_ s) as [| |n g|a b c|y] eqn:A.
    + rewrite D. apply doomed_fail.
    + destruct (must_cancel s) eqn:M.
      * unfold after_task, unmark. fields. rewrite T0. apply doomed_fail.
      * destruct D as [D|[D|D]]; [discriminate| |]; rewrite D.
        -- unfold doomed. rewrite A. auto.
        -- unfold after_task. rewrite T0. apply doomed_fail.
    + destruct (must_cancel s) eqn:M; [apply doomed_fail|].
      destruct D as [D|[D|(e & D)]]; [discriminate| |]; subst g.
      * unfold doomed. rewrite A. auto.
      * apply doomed_fail.
    + destruct (must_cancel s); unfold doomed; [discriminate|now rewrite A].
    + unfold doomed. now rewrite A.
  - destruct (at_ s) as [| |n g|a b c|y] eqn:A; auto. destruct (must_cancel s); auto. destruct r as [u|x]; [|discriminate].
    unfold doomed. unfold close_from. destruct (negb _); [discriminate|].
    destruct (nth_error _ _) as [[|]|]; [exact I|discriminate ..].
Qed.
Lemma doomed_run : forall k es s, target_discovered (run k s es) = false -> doomed s -> doomed (run k s es).
Proof.
  intros k es. induction es as [|e es IH] using rev_ind; intros s T D; [auto|].
  unfold run in *. rewrite fold_left_app in *. cbn [fold_left] in *. apply doomed_step; auto. apply IH; auto.
  eapply target_step; eauto.
Qed.

(** ** Closing *)
Definition tidy (s : state) : Prop :=
  match at_ s with
  | AtClose i n e => closed s = seq 0 i /\ must_cancel s = false
  | Over (Err e) => tidied e -> closed s = seq 0 (length (devices s))
  | Over (Ok _) => True
  | _ => closed s = []
  end.
Lemma tidy_close_from : forall s i n e, closed s = seq 0 i -> must_cancel s = false -> i <= length (devices s) -> tidy (close_from s i n e).
Proof.
  intros s i n e C M L. unfold tidy, close_from. destruct (negb _).
  - cbn. intros [T|T]; discriminate.
  - destruct (nth_error (devices s) i) as [[|]|] eqn:N; cbn.
    + auto.
    + intros [T|T]; discriminate.
    + intros _. apply nth_error_None in N. rewrite C. f_equal. lia.
Qed.
Lemma tidy_fail : forall k s e, single k = false -> closed s = [] -> tidy (fail k s e).
Proof.
  intros k s e S C. unfold fail. cbv zeta. rewrite S. cbn [negb andb].
  destruct (is_kasa e || negb (is_exception e)) eqn:K.
  - apply tidy_close_from; fields; auto. lia.
  - unfold tidy. cbn. intros [T|T]; [subst e; discriminate|]. rewrite T in K. discriminate.
Qed.
Lemma tidy_wait : forall s, closed s = [] -> tidy (wait_callbacks s).
Proof. intros s C. unfold wait_callbacks. destruct (callback_tasks s); cbn; auto. Qed.
Lemma tidy_after_task : forall k s r, single k = false -> closed s = [] -> tidy (after_task k s r).
Proof.
  intros k s r S C. unfold after_task. destruct r as [u|e]; [now apply tidy_wait|].
  destruct e; try (now apply tidy_fail). destruct (target_discovered s); [now apply tidy_wait|now apply tidy_fail].
Qed.
Lemma tidy_step : forall k es s e, single k = false -> inv k es s -> (e = ECancel -> ~ is_closing s) -> (forall x, e <> EClosed (Err x)) ->
  tidy s -> tidy (step k s e).
Proof.
  intros k es s e S I NC NE T. destruct e as [t v|r|i r| | | | |r]; cbn [step].
  - destruct (is_open s) eqn:Op; auto. unfold tidy, reply in *. cbv zeta. fields. destruct (at_ s) as [| |n g|a b c|[u|y]] eqn:A; auto.
    destruct (i_over _ _ _ I _ A). congruence.
  - destruct (task s); auto. destruct r as [u|x]; [exact T|]. destruct x; exact T.
  - unfold callback_ends. destruct (nth_error _ _) as [[|]|]; auto. cbv zeta. fields. unfold tidy in *.
    destruct (at_ s) as [| |n g|a b c|y] eqn:A; fields; auto. destruct g as [a|y]; auto.
    destruct (Nat.ltb i n); auto. destruct r as [u|x]; auto. destruct (forallb _ _); auto.
  - destruct (is_open s); auto.
  - unfold tidy in T. destruct (at_ s) eqn:A; try (unfold tidy; now rewrite A). destruct (must_cancel s); [unfold tidy; now rewrite A|]. now apply tidy_fail.
  - unfold cancel_call. unfold tidy in T. destruct (at_ s) as [| |n g|a b c|y] eqn:A; unfold tidy.
    + unfold mark. fields. now rewrite A.
    + destruct (task s); unfold mark; fields; rewrite ?A; auto.
    + destruct g; unfold mark, set_at; fields; rewrite ?A; auto.
    + destruct (NC eq_refl). unfold is_closing. eauto.
    + rewrite A. exact T.
  - unfold resume. unfold tidy in T. destruct (at_ s) as [| |n g|a b c|y] eqn:A.
    + destruct (must_cancel s); [now apply tidy_fail|unfold tidy; now rewrite A].
    + destruct (must_cancel s); [now apply tidy_after_task|]. destruct (task s); try (unfold tidy; rewrite A; exact T).
      now apply tidy_after_task.
    + destruct (must_cancel s); [now apply tidy_fail|]. destruct g as [x|[u|x]]; [unfold tidy; now rewrite A|exact (Logic.I)|now apply tidy_fail].
    + destruct T as (T & M). rewrite M. unfold tidy. now rewrite A.
    + unfold tidy. now rewrite A.
  - unfold tidy in T. destruct (at_ s) as [| |n g|a b c|y] eqn:A; try (unfold tidy; rewrite A; exact T).
    destruct T as (T & M). rewrite M. destruct r as [u|x]; [|destruct (NE x eq_refl)].
    destruct (i_close _ _ _ I _ _ _ A) as (_ & L1 & L2).
    apply tidy_close_from; fields; auto; [|lia]. rewrite T, seq_S. reflexivity.
Qed.
Lemma tidy_after : forall k b es, single k = false -> undisturbed k b es -> tidy (after k b es).
Proof.
  intros k b es S. induction es as [|e es IH] using rev_ind; intros (U1 & U2).
  - unfold tidy. destruct b; reflexivity.
  - rewrite after_snoc. apply (tidy_step k es); auto using inv_after.
    + intros ->. apply (U2 es []). reflexivity.
    + intros x ->. apply (U1 x). apply in_or_app. right. now left.
    + apply IH. split.
      * intros x I. apply (U1 x). apply in_or_app. now left.
      * intros es1 es2 ->. apply (U2 es1 (es2 ++ [e])). now rewrite <- app_assoc.
Qed.

(** ** The end comes *)
Lemma closing_ends : forall k m s i n e, at_ s = AtClose i n e -> must_cancel s = false -> n <= i + m -> i < n -> n = length (devices s) ->
  exists r, at_ (run k s (repeat (EClosed (Ok tt)) m)) = Over r.
Proof.
  intros k m. induction m as [|m IH]; intros s i n e A M L Li Ln; [lia|].
  unfold run. cbn [repeat fold_left]. fold (run k).
  change (fold_left (step k) (repeat (EClosed (Ok tt)) m) ?x) with (run k x (repeat (EClosed (Ok tt)) m)).
  cbn [step]. rewrite A, M.
  set (s' := mkState _ _ _ _ _ _ _ _).
  assert (Q : forall x r, at_ x = Over r -> is_open x = false -> exists r, at_ (run k x (repeat (EClosed (Ok tt)) m)) = Over r).
  { intros x r X O. destruct (run_over k (repeat (EClosed (Ok tt)) m) x r X O) as (E & _). eauto. }
  unfold close_from. replace (length (devices s')) with n by exact Ln. rewrite Nat.eqb_refl. cbn [negb].
  destruct (nth_error (devices s') (S i)) as [[|]|] eqn:N; try (eapply Q; reflexivity).
  assert (S i < length (devices s')) by (apply nth_error_Some; congruence). change (devices s') with (devices s) in *.
  eapply (IH _ (S i) n e); try reflexivity; auto; lia.
Qed.

(** ** A call that returned *)
Definition fine (s : state) : Prop := at_ s = Over (Ok tt) -> exists r, task s = TEnded r.
Lemma fine_fail : forall k s e, fine (fail k s e).
Proof. intros k s e A. destruct (fail_at k s e) as [(r & B)|(n & B)]; congruence. Qed.
Lemma fine_close_from : forall s i n e, fine (close_from s i n e).
Proof.
  intros s i n e. unfold fine, close_from. destruct (negb _); [discriminate|].
  destruct (nth_error (devices s) i) as [[|]|]; discriminate.
Qed.
Lemma fine_ended : forall s, (exists r, task s = TEnded r) -> fine s.
Proof. intros s T _. exact T. Qed.
Lemma fine_step : forall k es s e, inv k es s -> fine s -> fine (step k s e).
Proof.
  intros k es s e I F. destruct e as [t v|r|i r| | | | |r]; cbn [step].
  - destruct (is_open s) eqn:Op; auto. unfold fine, reply. cbv zeta. fields. intros A. destruct (i_over _ _ _ I _ A). congruence.
  - destruct (task s) as [| |x] eqn:T; auto.
    + destruct r as [u|x]; [intros _; eexists; reflexivity|]. destruct x; auto; intros _; eexists; reflexivity.
    + intros _. eexists. reflexivity.
  - unfold callback_ends. destruct (nth_error _ _) as [[|]|]; auto. cbv zeta. unfold fine in *. fields.
    destruct (at_ s) as [| |n g|a b c|y] eqn:A; fields; auto. destruct g as [a|y]; auto.
    destruct (Nat.ltb i n); auto. destruct r as [u|x]; [|discriminate]. destruct (forallb _ _); [discriminate|auto].
  - destruct (is_open s); auto. unfold fine in *. fields. intros A. destruct (F A) as (r & T). exists r. now rewrite T.
  - destruct (at_ s) eqn:A; auto. destruct (must_cancel s); auto. apply fine_fail.
  - unfold cancel_call. unfold fine in *. destruct (at_ s) as [| |n g|a b c|y] eqn:A.
    + unfold mark. fields. congruence.
    + destruct (task s); unfold mark; fields; congruence.
    + destruct g; unfold mark, set_at; fields; congruence.
    + unfold mark. fields. congruence.
    + intros E. apply F. congruence.
  - unfold resume. destruct (at_ s) as [| |n g|a b c|y] eqn:A; auto.
    + destruct (must_cancel s); auto. apply fine_fail.
    + destruct (must_cancel s) eqn:M.
      * apply fine_ended. destruct (after_task_keeps k (unmark s) (Err Cancelled)) as (E & _). rewrite E. exact (i_taskmust _ _ _ I A M).
      * destruct (task s) as [| |r] eqn:T; auto. apply fine_ended. destruct (after_task_keeps k s r) as (E & _). rewrite E. eauto.
    + destruct (must_cancel s); [apply fine_fail|]. destruct g as [x|[u|x]]; auto; [|apply fine_fail].
      apply fine_ended. exact (proj2 (i_gather _ _ _ I _ _ A)).
    + destruct (must_cancel s); auto. intros E. discriminate.
  - destruct (at_ s) as [| |n g|a b c|y] eqn:A; auto. destruct (must_cancel s); auto. destruct r as [u|x]; [apply fine_close_from|discriminate].
Qed.
Lemma returned_ended : forall k b es, fine (after k b es).
Proof.
  intros k b es. induction es as [|e es IH] using rev_ind; [destruct b; discriminate|].
  rewrite after_snoc. apply (fine_step k es); auto using inv_after.
Qed.
Lemma sender_ends_only : forall k s e r, sending s -> task (step k s e) = TEnded r -> exists x, e = ESenderEnds x.
Proof.
  intros k s e r S T. destruct e as [t v|x|i x| | | | |x]; eauto; exfalso; cbn [step] in T; revert T.
  - destruct (is_open s); [|apply S]. unfold reply. cbv zeta. fields.
    destruct (task s) as [| |y] eqn:K; [| |destruct (S y K)]; destruct v, t; discriminate.
  - unfold callback_ends. destruct (nth_error _ _) as [[|]|]; try apply S. cbv zeta. fields.
    destruct (at_ s) as [| |n g| |]; try apply S. destruct g; try apply S. destruct (Nat.ltb _ _); try apply S. destruct x; try apply S.
    destruct (forallb _ _); apply S.
  - destruct (is_open s); [|apply S]. fields. destruct (task s) as [| |y] eqn:K; [discriminate|discriminate|destruct (S y K)].
  - destruct (at_ s); try apply S. destruct (must_cancel s); try apply S. destruct (fail_keeps k s PyTimeout) as (E & _). rewrite E. apply S.
  - unfold cancel_call. destruct (at_ s) as [| |n g| |]; try apply S.
    + destruct (task s) as [| |y] eqn:K; [discriminate|discriminate|destruct (S y K)].
    + destruct g; apply S.
  - destruct (resume_keeps k s) as (E & _). rewrite E. apply S.
  - destruct (at_ s) as [| |n g|a b c|y]; try apply S. destruct (must_cancel s); try apply S. destruct x as [u|x]; [|apply S].
    match goal with |- task (close_from ?a ?b ?c ?d) = _ -> _ => destruct (close_from_keeps a b c d) as (E & _) end.
    rewrite E. apply S.
Qed.
Lemma sender_step_at : forall k s x, at_ (step k s (ESenderEnds x)) = at_ s /\ callback_tasks (step k s (ESenderEnds x)) = callback_tasks s.
Proof. intros k s x. cbn [step]. destruct (task s); auto. destruct x as [u|y]; auto. destruct y; auto. Qed.

Lemma step_started : forall k s e, at_ s <> AtStart -> at_ (step k s e) <> AtStart.
Proof.
  intros k s e N. destruct e as [t v|x|i x| | | | |x]; cbn [step].
  - destruct (is_open s); auto.
  - destruct (task s); auto. destruct x as [u|x]; auto. destruct x; auto.
  - unfold callback_ends. destruct (nth_error _ _) as [[|]|]; auto. cbv zeta. fields.
    destruct (at_ s) as [| |n g| |] eqn:A; fields; auto; try discriminate. destruct g; fields; try discriminate. destruct (Nat.ltb _ _); fields; try discriminate.
    destruct x; try discriminate. destruct (forallb _ _); discriminate.
  - destruct (is_open s); auto.
  - destruct (at_ s) eqn:A; try congruence.
  - unfold cancel_call. destruct (at_ s) as [| |n g| |] eqn:A; unfold mark, set_at; fields; try congruence.
    + destruct (task s); fields; congruence.
    + destruct g; fields; congruence.
  - unfold resume. destruct (at_ s) as [| |n g|a b c|y] eqn:A; try congruence.
    + assert (Q : forall x r, at_ x = AtTask -> at_ (after_task k x r) <> AtStart).
      { intros x r X. unfold after_task, wait_callbacks. destruct r as [u|z].
        - destruct (callback_tasks x); discriminate.
        - assert (F : at_ (fail k x z) <> AtStart) by (destruct (fail_at k x z) as [(? & B)|(? & B)]; congruence).
          destruct z; auto. destruct (target_discovered x); auto. destruct (callback_tasks x); discriminate. }
      destruct (must_cancel s); [now apply Q|]. destruct (task s); [congruence ..|now apply Q].
    + assert (F : forall z, at_ (fail k s z) <> AtStart) by (intros z; destruct (fail_at k s z) as [(? & B)|(? & B)]; congruence).
      destruct (must_cancel s); auto. destruct g as [x|[u|x]]; auto; [congruence|discriminate].
    + destruct (must_cancel s); [discriminate|congruence].
  - destruct (at_ s) as [| |n g|a b c|y] eqn:A; try congruence. destruct (must_cancel s); [congruence|]. destruct x as [u|x]; [|discriminate].
    unfold close_from. destruct (negb _); [discriminate|]. destruct (nth_error _ _) as [[|]|]; discriminate.
Qed.
Lemma after_started : forall k es, at_ (after k true es) <> AtStart.
Proof.
  intros k es. induction es as [|e es IH] using rev_ind; [discriminate|]. rewrite after_snoc. now apply step_started.
Qed.

Definition settled (m : nat) (s : state) : Prop :=
  length (devices s) = m /\ must_cancel s = false /\
  ((exists r, at_ s = Over r /\ is_open s = false) \/ (exists e, at_ s = AtClose 0 m e /\ 0 < m)).
Lemma settled_over : forall s r, settled (length (devices s)) (over s r).
Proof. intros s r. split; [reflexivity|]. split; [reflexivity|]. left. eexists. split; reflexivity. Qed.
Lemma settled_fail : forall k s e, settled (length (devices s)) (fail k s e).
Proof.
  intros k s e. unfold fail. cbv zeta. destruct (_ && _); [|exact (settled_over (unmark s) (Err e))].
  unfold close_from. fields. rewrite Nat.eqb_refl. cbn [negb].
  destruct (devices s) as [|[|] l] eqn:D; cbn [nth_error].
  - split; [fields; now rewrite ?D|]. split; [reflexivity|]. left. eexists. split; reflexivity.
  - split; [fields; now rewrite ?D|]. split; [reflexivity|]. right. eexists. split; [reflexivity|]. cbn. lia.
  - split; [fields; now rewrite ?D|]. split; [reflexivity|]. left. eexists. split; reflexivity.
Qed.
Lemma settled_resume : forall k m s, settled m s -> resume k s = s.
Proof.
  intros k m s (_ & M & [(r & A & _)|(e & A & _)]); unfold resume; rewrite A, ?M; reflexivity.
Qed.
Lemma settled_ends : forall k m s, settled m s -> exists r, at_ (run k s (repeat (EClosed (Ok tt)) m)) = Over r.
Proof.
  intros k m s (L & M & [(r & A & O)|(e & A & P)]).
  - destruct (run_over k (repeat (EClosed (Ok tt)) m) s r A O) as (E & _). eauto.
  - eapply closing_ends; eauto; lia.
Qed.
Lemma gather_set : forall l, (forall c, In c l -> c <> CRuns) -> exists r, gather_all l = GSet r.
Proof.
  intros l C. unfold gather_all. destruct (first_failure l); [eauto|].
  replace (forallb ended l) with true; [eauto|]. symmetry. apply forallb_forall. intros c I. destruct c; [destruct (C _ I eq_refl)|reflexivity].
Qed.
Lemma two_resumes : forall k es s, inv k es s -> at_ s <> AtStart -> (exists r, task s = TEnded r) ->
  (forall c, In c (callback_tasks s) -> c <> CRuns) -> (forall i n e, at_ s <> AtClose i n e) ->
  settled (length (devices s)) (resume k (resume k s)).
Proof.
  intros k es s I NS (r & T) C NC.
  assert (W : forall x, callback_tasks x = callback_tasks s -> devices x = devices s -> must_cancel x = false ->
                        settled (length (devices s)) (resume k (wait_callbacks x))).
  { intros x E D M. unfold wait_callbacks. rewrite E. destruct (callback_tasks s) as [|c l] eqn:K.
    - pose proof (settled_over x (Ok tt)) as P. rewrite (settled_resume k _ _ P). now rewrite <- D.
    - destruct (gather_set (c :: l) C) as (y & G). rewrite G. unfold resume, set_at. fields. rewrite M. destruct y as [u|y].
      + rewrite <- D. apply (settled_over (mkState _ _ _ _ _ _ _ _)).
      + rewrite <- D. apply (settled_fail k (mkState _ _ _ _ _ _ _ _)). }
  assert (F : forall x e, devices x = devices s -> settled (length (devices s)) (resume k (fail k x e))).
  { intros x e D. pose proof (settled_fail k x e) as P. rewrite (settled_resume k _ _ P). now rewrite <- D. }
  assert (A1 : forall x y, callback_tasks x = callback_tasks s -> devices x = devices s -> must_cancel x = false ->
                        settled (length (devices s)) (resume k (after_task k x y))).
  { intros x y E D M. unfold after_task. destruct y as [u|e]; [now apply W|]. destruct e; try now apply F.
    destruct (target_discovered x); [now apply W|now apply F]. }
  unfold resume at 2. destruct (at_ s) as [| |n g|a b c|y] eqn:A.
  - congruence.
  - destruct (must_cancel s) eqn:M; [now apply A1|]. rewrite T. now apply A1.
  - destruct (must_cancel s) eqn:M; [now apply F|]. destruct (i_gather _ _ _ I _ _ A) as ((L & G) & _).
    destruct g as [x|[u|x]].
    + destruct G as (_ & (i & _ & Ni) & _). apply nth_error_In in Ni. destruct (C _ Ni eq_refl).
    + pose proof (settled_over s (Ok tt)) as P. now rewrite (settled_resume k _ _ P).
    + now apply F.
  - destruct (NC _ _ _ eq_refl).
  - unfold resume. rewrite A. destruct (i_over _ _ _ I _ A) as (O & M). split; [reflexivity|]. split; [exact M|]. left. eauto.
Qed.

(** The target is heard only by a reply of it. *)
Lemma step_unheard : forall k s e, (forall v, e <> EReply true v) -> target_discovered s = false -> target_discovered (step k s e) = false.
Proof.
  intros k s e N T. destruct e as [t v|x|i x| | | | |x]; cbn [step].
  - destruct (is_open s); auto. unfold reply. cbv zeta. fields. rewrite T. destruct t; [destruct (N v eq_refl)|]. destruct v; reflexivity.
  - destruct (task s); auto. destruct x as [u|x]; auto. destruct x; auto.
  - unfold callback_ends. destruct (nth_error _ _) as [[|]|]; auto. cbv zeta. fields.
    destruct (at_ s) as [| |n g| |]; auto. destruct g; auto. destruct (Nat.ltb _ _); auto. destruct x; auto.
    destruct (forallb _ _); auto.
  - destruct (is_open s); auto.
  - destruct (at_ s); auto. destruct (must_cancel s); auto. destruct (fail_keeps k s PyTimeout) as (_ & E & _). congruence.
  - unfold cancel_call. destruct (at_ s) as [| |n g| |]; auto. { destruct (task s); auto. } destruct g; auto.
  - destruct (resume_keeps k s) as (_ & E & _). congruence.
  - destruct (at_ s); auto. destruct (must_cancel s); auto. destruct x; auto.
    match goal with |- target_discovered (close_from ?a ?b ?c ?d) = _ => destruct (close_from_keeps a b c d) as (_ & E & _) end.
    now rewrite E.
Qed.
Lemma unheard : forall k b es, (forall v, ~ In (EReply true v) es) -> target_discovered (after k b es) = false.
Proof.
  intros k b es N. induction es as [|e es IH] using rev_ind; [reflexivity|].
  rewrite after_snoc. apply step_unheard.
  - intros v ->. apply (N v). apply in_or_app. right. now left.
  - apply IH. intros v I. apply (N v). apply in_or_app. now left.
Qed.

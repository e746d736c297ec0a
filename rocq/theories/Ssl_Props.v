(** C98: the transport of vacuums. *)
From Coq Require Import Lia.
From Verif Require Import Base Base_Lemmas Py Codes_Model Ssl_Model Ssl_Spec.
Open Scope string_scope.
Open Scope list_scope.
Open Scope Z_scope.

(** The transport's fields say what the observer knows. *)
Definition agrees (t : ssl) (k : session) : Prop :=
  match k with
  | Some (tok, e) => st t = ESTABLISHED /\ expire_at t = Some e /\ url_token t = Some tok
  | None => st t = LOGIN_REQUIRED /\ url_token t = None
  end.

Lemma zmem_In c l : zmem c l = true <-> In c l.
Proof.
  unfold zmem. rewrite existsb_exists. split.
  - intros (x & H & E). apply Z.eqb_eq in E. subst. exact H.
  - intros H. exists c. rewrite Z.eqb_refl. auto.
Qed.

Lemma auth_spec c : (if zmem c smart_retryable_errors then true else negb (zmem c smart_authentication_errors))
  = if in_dec Z.eq_dec c [-1501; 1111; -1005; 1100; 1003; -40412] then false else true.
Proof.
  destruct (in_dec Z.eq_dec c [-1501; 1111; -1005; 1100; 1003; -40412]) as [H|H].
  - cbn [In] in H. decompose [or] H; subst; try contradiction; reflexivity.
  - destruct (zmem c smart_retryable_errors); [reflexivity|].
    destruct (zmem c smart_authentication_errors) eqn:E; [|reflexivity].
    apply zmem_In in E. contradiction.
Qed.

(** What handling the code of a reply does *)
Definition coded (j : json) (e : res unit) : Prop :=
  match j with
  | JObj d =>
      match code d with
      | Some c =>
          if zmem c smart_error_codes then
            e = (if c =? 0 then Ok tt
                 else if zmem c smart_retryable_errors then Err (KRetry (Some c))
                 else if zmem c smart_authentication_errors then Err (KAuth (Some c))
                 else Err (KDevice (Some c)))
          else e = Err PyValueError
      | None => e = Err PyValueError
      end
  | _ => e = Err PyAttributeError
  end.

Lemma handle_spec j t : exists e, coded j e /\
  handle_code j t = (match e with Err (KAuth _) => reset t | _ => t end, e).
Proof.
  unfold handle_code, coded. destruct j as [| | | | | |d]; try (eexists; split; reflexivity).
  cbn [jget bind]. unfold code. destruct (dget "error_code" d) as [[|[]| | | | |]|];
    try (eexists; split; reflexivity).
  cbn [smart_error_code]. destruct (zmem z smart_error_codes); [|eexists; split; reflexivity].
  destruct (z =? 0); [eexists; split; reflexivity|].
  destruct (zmem z smart_retryable_errors); [eexists; split; reflexivity|].
  destruct (zmem z smart_authentication_errors); eexists; split; reflexivity.
Qed.

(** The result of one post, and the session after it *)
Definition post_result (r : reply) : res json :=
  match r with
  | Err e => Err e
  | Ok (status, j) =>
      if status =? 200 then
        match handle_code j init with (_, Ok _) => Ok j | (_, Err e) => Err e end
      else Err KKasa
  end.

Lemma refused_in_codes c : In c [-1501; 1111; -1005; 1100; 1003; -40412] ->
  zmem c smart_error_codes = true /\ (c =? 0) = false /\ zmem c smart_retryable_errors = false
  /\ zmem c smart_authentication_errors = true.
Proof. cbn [In]. intros H. decompose [or] H; subst; try contradiction; repeat split; reflexivity. Qed.

Lemma send_request_spec mk r t :
  exists x, post_result r = x /\
  send_request mk r t =
    (let t1 := mkSsl (st t) (expire_at t) (url_token t) (log t ++ [mk (url_token t)]) in
     match refused r with Some _ => reset t1 | None => t1 end, x).
Proof.
  unfold send_request, post_result, refused, body. eexists. split; [reflexivity|].
  destruct r as [[status j]|e]; [|reflexivity].
  destruct (Z.eqb_spec status 200) as [->|Hs].
  2:{ destruct j; try reflexivity. }
  cbn [negb]. set (t1 := mkSsl _ _ _ _).
  unfold mbind. destruct (handle_spec j t1) as (e & C & E). destruct (handle_spec j init) as (e' & C' & E').
  assert (e' = e) as ->.
  { unfold coded in *. destruct j; try congruence. destruct (code d); try congruence.
    destruct (zmem z smart_error_codes); congruence. }
  rewrite E, E'. clear E E' C'.
  destruct j as [| | | | | |d]; cbn [coded] in C; try (rewrite C; reflexivity).
  destruct (code d) as [c|]; [|rewrite C; reflexivity].
  destruct (in_dec Z.eq_dec c [-1501; 1111; -1005; 1100; 1003; -40412]) as [H|H].
  - destruct (refused_in_codes c H) as (A1 & A2 & A3 & A4). rewrite A1, A2, A3, A4 in C. rewrite C. reflexivity.
  - destruct (zmem c smart_error_codes); [|rewrite C; reflexivity].
    destruct (c =? 0); [rewrite C; reflexivity|].
    destruct (zmem c smart_retryable_errors); [rewrite C; reflexivity|].
    destruct (zmem c smart_authentication_errors) eqn:Ea; [apply zmem_In in Ea; contradiction|].
    rewrite C. reflexivity.
Qed.

(** The HTTP client raises library exceptions only (C25), none of them about credentials. *)
Definition http_failure (e : exn) : Prop := e = KKasa \/ e = KTimeout \/ e = KConn \/ e = Cancelled.
Definition plain (r : reply) : Prop := forall e, r = Err e -> http_failure e.
Definition plain_world (w : world) : Prop := plain (w_login w) /\ plain (w_login2 w) /\ plain (w_req w).

Lemma result_cases r : plain r ->
  (exists c, refused r = Some c /\ token_in r = None /\ post_result r = Err (KAuth (Some c)))
  \/ (refused r = None /\ exists j d, r = Ok (200, j) /\ j = JObj d /\ code d = Some 0 /\ post_result r = Ok j)
  \/ (refused r = None /\ token_in r = None /\ exists e, post_result r = Err e /\ forall c, e <> KAuth c).
Proof.
  intros P. unfold post_result, refused, token_in, body.
  destruct r as [[status j]|e].
  2:{ right; right. repeat split. exists e. split; [reflexivity|]. intros c.
      destruct (P e eq_refl) as [-> | [-> | [-> | ->]]]; discriminate. }
  destruct (Z.eqb_spec status 200) as [->|Hs].
  2:{ right; right. destruct j; (repeat split; try reflexivity); exists KKasa; (split; [reflexivity|discriminate]). }
  destruct (handle_spec j init) as (e & C & E). rewrite E. clear E.
  destruct j as [| | | | | |d]; cbn [coded] in C;
    try (right; right; rewrite C; repeat split; eexists; split; [reflexivity|discriminate]).
  destruct (code d) as [c|] eqn:Ec.
  2:{ right; right. rewrite C. repeat split. eexists. split; [reflexivity|discriminate]. }
  destruct (in_dec Z.eq_dec c [-1501; 1111; -1005; 1100; 1003; -40412]) as [H|H].
  - destruct (refused_in_codes c H) as (A1 & A2 & A3 & A4). rewrite A1, A2, A3, A4 in C.
    left. exists c. rewrite A2, C. repeat split. destruct (dget "result" d) as [[]|]; reflexivity.
  - right. destruct (Z.eqb_spec c 0) as [->|H0].
    + left. split; [reflexivity|]. exists (JObj d), d. cbn in C. rewrite C. rewrite Ec. repeat split.
    + right. split; [reflexivity|]. split; [destruct (dget "result" d) as [[]|]; reflexivity|].
      destruct (zmem c smart_error_codes); [|rewrite C; eexists; split; [reflexivity|discriminate]].
      destruct (zmem c smart_retryable_errors); [rewrite C; eexists; split; [reflexivity|discriminate]|].
      destruct (zmem c smart_authentication_errors) eqn:Ea; [apply zmem_In in Ea; contradiction|].
      rewrite C; eexists; split; [reflexivity|discriminate].
Qed.

Lemma try_login_spec default r at_ t : plain r ->
  let t1 := mkSsl (st t) (expire_at t) (url_token t) (log t ++ [PLogin default (url_token t)]) in
  (exists c, refused r = Some c /\ token_in r = None /\ try_login default r at_ t = (reset t1, Err (KAuth (Some c))))
  \/ (exists tok, refused r = None /\ token_in r = Some tok /\
       try_login default r at_ t = (mkSsl ESTABLISHED (Some (at_ + 85200)) (Some tok) (log t1), Ok tt))
  \/ (refused r = None /\ token_in r = None /\ exists e, (forall c, e <> KAuth c) /\ try_login default r at_ t = (t1, Err e)).
Proof.
  intros P t1. unfold try_login, mbind.
  destruct (send_request_spec (PLogin default) r t) as (x & X & E). rewrite E. cbv zeta. fold t1. clear E.
  destruct (result_cases r P) as [(c & R & T & Y)|[(R & j & d & -> & -> & Ec & Y)|(R & T & e & Y & Ne)]];
    rewrite Y in X; subst x; rewrite R.
  - left. exists c. auto.
  - right. destruct (handle_spec (JObj d) t1) as (e & C & E). rewrite E. clear E.
    cbn [coded] in C. rewrite Ec in C. cbn in C. subst e. cbn [mlift].
    unfold token_in, body. cbn [Z.eqb Pos.eqb]. rewrite Ec. cbn [jitem]. unfold dindex.
    destruct (dget "result" d) as [v|]; cbn [bind].
    + destruct v as [| | | | | |rd]; cbn [jitem];
        try (right; repeat split; eexists; split; [|reflexivity]; discriminate).
      unfold dindex. cbn [Z.eqb]. destruct (dget "token" rd) as [tok|].
      * left. exists tok. repeat split. replace (at_ + 86400 - 1200) with (at_ + 85200) by lia. reflexivity.
      * right. repeat split. eexists. split; [|reflexivity]. discriminate.
    + right. repeat split. eexists. split; [|reflexivity]. discriminate.
  - right. right. repeat split; auto. exists e. auto.
Qed.

Lemma lawful_nil w m k : lawful w m k [].
Proof. intros pre p rest H. destruct pre; discriminate. Qed.

Ltac split_posts :=
  let H := fresh "HP" in intros ?pre ?q ?rest H;
  match type of H with _ = ?pre ++ _ :: _ =>
    repeat (destruct pre as [|? pre]; [injection H as <- <-|cbn [app] in H; first [injection H as <- H|discriminate H]]);
    try (destruct pre; discriminate H)
  end.

(** One send under what the observer knows *)
Lemma send_spec w m t k : agrees t k -> log t = [] -> plain_world w ->
  let (t', r) := send w m t in
  lawful w m k (log t') /\ agrees t' (after_posts w k (log t'))
  /\ ((exists pre tok, log t' = pre ++ [PRequest tok m] /\ r = post_result (w_req w))
      \/ (exists e, r = Err e /\ Forall (fun p => match p with PRequest _ _ => False | _ => True end) (log t')
           /\ (refused (w_login w) = None -> exists tk, log t' = [PLogin false tk])
           /\ (forall c, refused (w_login w) = Some c -> c <> -1501 -> e = KAuth (Some c))
           /\ (refused (w_login w) = Some (-1501) -> forall c, refused (w_login2 w) = Some c -> e = KAuth (Some c))
           /\ (refused (w_login w) = Some (-1501) -> refused (w_login2 w) = None -> e = KKasa \/ e = Cancelled))).
Proof.
  intros A L (P1 & P2 & P3). unfold send.
  set (login := match st t with ESTABLISHED => session_expired t (w_now w) | _ => true end).
  assert (HL : if login then ~ live k (w_now w) else live k (w_now w)).
  { unfold login, session_expired, live. unfold agrees in A. destruct k as [[tok e]|].
    - destruct A as (-> & -> & _). destruct (Z.leb_spec (e - w_now w) 0).
      + intros (tok' & e' & [= <- <-] & ?). lia.
      + exists tok, e. split; [reflexivity|lia].
    - destruct A as (-> & _). intros (? & ? & ? & _). discriminate. }
  assert (U : url_token t = option_map fst k).
  { unfold agrees in A. destruct k as [[tok e]|]; [destruct A as (_ & _ & ->)|destruct A as (_ & ->)]; reflexivity. }
  destruct login.
  - (* logging in *)
    unfold perform_login.
    destruct (try_login_spec false (w_login w) (w_login_at w) t P1) as
      [(c & R & T & E)|[(tok & R & T & E)|(R & T & e & Ne & E)]]; rewrite E; clear E; cbv zeta; rewrite L; cbn [app log].
    + (* refused *)
      set (t1 := mkSsl _ _ _ _).
      destruct (Z.eqb_spec c (-1501)) as [->|Hc].
      * destruct (try_login_spec true (w_login2 w) (w_login2_at w) (reset t1) P2) as
          [(c2 & R2 & T2 & E)|[(tok & R2 & T2 & E)|(R2 & T2 & e & Ne & E)]]; rewrite E; clear E; cbv zeta.
        -- cbn [reset log st expire_at url_token t1 app]. split; [|split].
           ++ split_posts.
              ** split; [reflexivity|]. split; [exact HL|exact U].
              ** split; [reflexivity|]. eexists. split; [reflexivity|exact R].
           ++ unfold after_posts. cbn [fold_left after_post]. unfold after_login. rewrite T2, R2. split; reflexivity.
           ++ right. eexists. split; [reflexivity|]. split; [repeat constructor|]. rewrite R, R2. split; [discriminate|].
              split; [congruence|]. split; [congruence|discriminate].
        -- cbn [reset log st expire_at url_token t1 app].
           destruct (send_request_spec (fun tok => PRequest tok m) (w_req w)
             (mkSsl ESTABLISHED (Some (w_login2_at w + 85200)) (Some tok) [PLogin false (url_token t); PLogin true None]))
             as (x & X & E). rewrite E. clear E. cbn [st expire_at url_token log app]. cbv zeta.
           assert (LG : log (match refused (w_req w) with
                         | Some _ => reset (mkSsl ESTABLISHED (Some (w_login2_at w + 85200)) (Some tok) [PLogin false (url_token t); PLogin true None; PRequest (Some tok) m])
                         | None => mkSsl ESTABLISHED (Some (w_login2_at w + 85200)) (Some tok) [PLogin false (url_token t); PLogin true None; PRequest (Some tok) m]
                         end) = [PLogin false (url_token t); PLogin true None; PRequest (Some tok) m])
             by (destruct (refused (w_req w)); reflexivity).
           rewrite LG. split; [|split].
           ++ split_posts.
              ** split; [reflexivity|]. split; [exact HL|exact U].
              ** split; [reflexivity|]. eexists. split; [reflexivity|exact R].
              ** split; [reflexivity|]. split; [reflexivity|]. right. right. eexists _, _. split; [reflexivity|].
                 rewrite T2. split; [discriminate|reflexivity].
           ++ unfold after_posts. cbn [fold_left after_post]. unfold after_login at 1. rewrite T2.
              destruct (refused (w_req w)); split; try split; reflexivity.
           ++ left. exists [PLogin false (url_token t); PLogin true None], (Some tok). split; [reflexivity|congruence].
        -- assert (G : match e with KAuth c2 => (mkSsl (st (reset t1)) (expire_at (reset t1)) (url_token (reset t1)) (log (reset t1) ++ [PLogin true (url_token (reset t1))]), @Err unit (KAuth c2))
                       | Cancelled => (mkSsl (st (reset t1)) (expire_at (reset t1)) (url_token (reset t1)) (log (reset t1) ++ [PLogin true (url_token (reset t1))]), Err Cancelled)
                       | _ => (mkSsl (st (reset t1)) (expire_at (reset t1)) (url_token (reset t1)) (log (reset t1) ++ [PLogin true (url_token (reset t1))]), Err KKasa) end
                     = (mkSsl LOGIN_REQUIRED (expire_at t) None [PLogin false (url_token t); PLogin true None], Err (match e with Cancelled => Cancelled | _ => KKasa end))).
           { destruct e; try reflexivity. destruct (Ne code eq_refl). }
           rewrite G. cbn [log]. split; [|split].
           ++ split_posts.
              ** split; [reflexivity|]. split; [exact HL|exact U].
              ** split; [reflexivity|]. eexists. split; [reflexivity|exact R].
           ++ unfold after_posts. cbn [fold_left after_post]. unfold after_login. rewrite T, R, T2, R2. split; reflexivity.
           ++ right. eexists. split; [reflexivity|]. split; [repeat constructor|]. rewrite R, R2. split; [discriminate|].
              split; [congruence|]. split; [discriminate|]. intros _ _. destruct e; auto.
      * cbn [reset log t1]. split; [|split].
        -- split_posts. split; [reflexivity|]. split; [exact HL|exact U].
        -- unfold after_posts. cbn [fold_left after_post]. unfold after_login. rewrite T, R. split; reflexivity.
        -- right. eexists. split; [reflexivity|]. split; [repeat constructor|]. rewrite R. split; [discriminate|].
           split; [congruence|]. split; congruence.
    + (* accepted *)
      destruct (send_request_spec (fun tok => PRequest tok m) (w_req w)
         (mkSsl ESTABLISHED (Some (w_login_at w + 85200)) (Some tok) [PLogin false (url_token t)])) as (x & X & E).
      rewrite E. clear E. cbn [st expire_at url_token log app]. cbv zeta.
      assert (LG : log (match refused (w_req w) with
                    | Some _ => reset (mkSsl ESTABLISHED (Some (w_login_at w + 85200)) (Some tok) [PLogin false (url_token t); PRequest (Some tok) m])
                    | None => mkSsl ESTABLISHED (Some (w_login_at w + 85200)) (Some tok) [PLogin false (url_token t); PRequest (Some tok) m]
                    end) = [PLogin false (url_token t); PRequest (Some tok) m])
        by (destruct (refused (w_req w)); reflexivity).
      rewrite LG. split; [|split].
      * split_posts.
        -- split; [reflexivity|]. split; [exact HL|exact U].
        -- split; [reflexivity|]. split; [reflexivity|]. right. left. eexists. split; [reflexivity|].
           rewrite T. split; [discriminate|reflexivity].
      * unfold after_posts. cbn [fold_left after_post]. unfold after_login. rewrite T.
        destruct (refused (w_req w)); split; try split; reflexivity.
      * left. exists [PLogin false (url_token t)], (Some tok). split; [reflexivity|congruence].
    + (* failed otherwise *)
      assert (G : forall A (f : exn -> A) (g : option Z -> A), match e with KAuth c => g c | x => f x end = f e).
      { intros. destruct e; try reflexivity. destruct (Ne code eq_refl). }
      replace (match e with
        | KAuth (Some c) => if c =? -1501 then _ else _
        | _ => _ end) with (mkSsl (st t) (expire_at t) (url_token t) [PLogin false (url_token t)], @Err unit e).
      2:{ destruct e; try reflexivity. destruct (Ne code eq_refl). }
      cbn [log]. split; [|split].
      * split_posts. split; [reflexivity|]. split; [exact HL|exact U].
      * unfold after_posts. cbn [fold_left after_post]. unfold after_login. rewrite T, R.
        unfold agrees in *. destruct k as [[? ?]|]; exact A.
      * right. exists e. split; [reflexivity|]. split; [repeat constructor|]. rewrite R. split; [intros _; eexists; reflexivity|].
        split; [discriminate|]. split; discriminate.
  - (* session live *)
    destruct (send_request_spec (fun tok => PRequest tok m) (w_req w) t) as (x & X & E).
    rewrite E. clear E. cbv zeta. rewrite L. cbn [app].
    assert (LG : log (match refused (w_req w) with
                  | Some _ => reset (mkSsl (st t) (expire_at t) (url_token t) [PRequest (url_token t) m])
                  | None => mkSsl (st t) (expire_at t) (url_token t) [PRequest (url_token t) m]
                  end) = [PRequest (url_token t) m]) by (destruct (refused (w_req w)); reflexivity).
    rewrite LG. split; [|split].
    + split_posts. split; [reflexivity|]. split; [reflexivity|]. left. auto.
    + unfold after_posts. cbn [fold_left after_post]. destruct (refused (w_req w)); [split; reflexivity|].
      unfold agrees in *. destruct k as [[? ?]|]; exact A.
    + left. exists [], (url_token t). split; [reflexivity|congruence].
Qed.

Definition plain_events (es : list event) : Prop := forall w m, In (ESend w m) es -> plain_world w.

Lemma step_agrees t k e : agrees t k -> log t = [] -> (forall w m, e = ESend w m -> plain_world w) ->
  let '(t', p, _) := step t e in
  agrees t' (known_after k [(e, p)]) /\ log t' = [].
Proof.
  intros A L P. destruct e as [w m|]; cbn [step].
  - pose proof (send_spec w m t k A L (P w m eq_refl)) as S. destruct (send w m t) as [t' r].
    destruct S as (_ & A' & _). cbn [known_after]. split; [|reflexivity].
    unfold agrees in *. destruct (after_posts w k (log t')) as [[? ?]|]; exact A'.
  - cbn [known_after]. split; [split; reflexivity|exact L].
Qed.

Lemma known_app k a b : known_after k (a ++ b) = known_after (known_after k a) b.
Proof. revert k. induction a as [|[[w m|] p] a IH]; intros k; cbn; auto. Qed.

Lemma run_agrees es : forall t k, agrees t k -> log t = [] -> plain_events es ->
  let (t', outs) := run t es in
  agrees t' (known_after k (combine es (map fst outs))) /\ log t' = [].
Proof.
  induction es as [|e es IH]; intros t k A L P; cbn [run]; [split; assumption|].
  assert (Pe : forall w m, e = ESend w m -> plain_world w) by (intros w m ->; apply (P w m); left; reflexivity).
  pose proof (step_agrees t k e A L Pe) as S. destruct (step t e) as [[t1 p] r]. destruct S as (A1 & L1).
  assert (Ps : plain_events es) by (intros w m H; apply (P w m); right; exact H).
  specialize (IH t1 _ A1 L1 Ps). destruct (run t1 es) as [t2 outs]. cbn [map fst combine].
  change ((e, p) :: combine es (map fst outs)) with ([(e, p)] ++ combine es (map fst outs)).
  rewrite known_app. exact IH.
Qed.

(** After any history of sends and resets, the next send posts only what it may. *)
Theorem ssl_order es t outs w m t' p r :
  plain_events (es ++ [ESend w m]) -> run init es = (t, outs) -> step t (ESend w m) = (t', p, r) ->
  lawful w m (known_after None (combine es (map fst outs))) p.
Proof.
  intros P R S.
  assert (A : agrees init None) by (split; reflexivity).
  pose proof (run_agrees es init None A eq_refl (fun w m H => P w m (in_or_app _ _ _ (or_introl H)))) as Q.
  rewrite R in Q. destruct Q as (Q & L).
  pose proof (send_spec w m t _ Q L (P w m (in_or_app es [ESend w m] _ (or_intror (or_introl eq_refl))))) as X.
  cbn [step] in S. destruct (send w m t) as [t2 r2]. injection S as <- <- <-. exact (proj1 X).
Qed.
Print Assumptions ssl_order.

(** With a live session, or a login that is accepted, the request is posted, once; otherwise the
    send fails as the login did.  What the send gives is what the reply says. *)
Definition answers (r : reply) (x : res json) : Prop :=
  (forall e, r = Err e -> x = Err e)
  /\ (forall status j, r = Ok (status, j) ->
      (status <> 200 -> x = Err KKasa)
      /\ (status = 200 ->
          (reports j 0 -> x = Ok j)
          /\ (forall c, reports j c -> refusal c -> x = Err (KAuth (Some c)))
          /\ (forall c, reports j c -> transient c -> x = Err (KRetry (Some c)))
          /\ (forall c, reports j c -> In c smart_error_codes -> c <> 0 -> ~ refusal c -> ~ transient c ->
                x = Err (KDevice (Some c))))).

Lemma answers_result r : answers r (post_result r).
Proof.
  split; [intros e ->; reflexivity|]. intros status j ->. unfold post_result. split.
  - intros H. apply Z.eqb_neq in H. rewrite H. reflexivity.
  - intros ->. cbn [Z.eqb Pos.eqb]. destruct (handle_spec j init) as (e & C & E). rewrite E. clear E.
    assert (K : forall c, reports j c -> In c smart_error_codes ->
      e = (if c =? 0 then Ok tt
           else if zmem c smart_retryable_errors then Err (KRetry (Some c))
           else if zmem c smart_authentication_errors then Err (KAuth (Some c))
           else Err (KDevice (Some c)))).
    { intros c (d & -> & Hd) Hin. cbn [coded] in C. unfold code in C. rewrite Hd in C.
      apply zmem_In in Hin. rewrite Hin in C. exact C. }
    split; [|split; [|split]].
    + intros H. rewrite (K 0 H); [reflexivity|]. cbn. auto.
    + intros c H Hr. destruct (refused_in_codes c Hr) as (A1 & A2 & A3 & A4). apply zmem_In in A1.
      rewrite (K c H A1), A2, A3, A4. reflexivity.
    + intros c H Hr. assert (A : In c smart_error_codes /\ (c =? 0) = false /\ zmem c smart_retryable_errors = true).
      { unfold transient in Hr. cbn [In] in Hr. decompose [or] Hr; subst; try contradiction;
          (split; [apply zmem_In; reflexivity|split; reflexivity]). }
      destruct A as (A1 & A2 & A3). rewrite (K c H A1), A2, A3. reflexivity.
    + intros c H Hin H0 Hr Ht. rewrite (K c H Hin). apply Z.eqb_neq in H0. rewrite H0.
      destruct (zmem c smart_retryable_errors) eqn:Z1; [apply zmem_In in Z1; contradiction|].
      destruct (zmem c smart_authentication_errors) eqn:Z2; [apply zmem_In in Z2; contradiction|]. reflexivity.
Qed.

Theorem ssl_outcome es t outs w m t' p r :
  plain_events (es ++ [ESend w m]) -> run init es = (t, outs) -> step t (ESend w m) = (t', p, Some r) ->
  let k := known_after None (combine es (map fst outs)) in
  let posted := exists tok, In (PRequest tok m) p in
  (posted -> answers (w_req w) r)
  /\ (live k (w_now w) -> posted)
  /\ (token_in (w_login w) <> None -> posted)
  /\ (refused (w_login w) = Some (-1501) -> token_in (w_login2 w) <> None -> posted)
  /\ (~ posted -> exists e, r = Err e
       /\ (forall c, refused (w_login w) = Some c -> c <> -1501 -> e = KAuth (Some c))
       /\ (refused (w_login w) = Some (-1501) -> forall c, refused (w_login2 w) = Some c -> e = KAuth (Some c))
       /\ (refused (w_login w) = Some (-1501) -> refused (w_login2 w) = None -> e = KKasa \/ e = Cancelled)).
Proof.
  intros P R S k posted.
  assert (A : agrees init None) by (split; reflexivity).
  pose proof (run_agrees es init None A eq_refl (fun w m H => P w m (in_or_app _ _ _ (or_introl H)))) as Q.
  rewrite R in Q. destruct Q as (Q & L).
  pose proof (P w m (in_or_app es [ESend w m] _ (or_intror (or_introl eq_refl)))) as (P1 & P2 & P3).
  pose proof (send_spec w m t _ Q L (conj P1 (conj P2 P3))) as X. fold k in X, Q.
  cbn [step] in S. destruct (send w m t) as [t2 r2] eqn:ES. injection S as <- <- <-.
  destruct X as (Lw & _ & X).
  assert (D : posted \/ ~ posted).
  { destruct X as [(pre & tok & E & _)|(e & _ & F & _)].
    - left. exists tok. rewrite E. apply in_or_app. right. left. reflexivity.
    - right. intros (tok & H). rewrite Forall_forall in F. exact (F _ H). }
  assert (NF : ~ posted -> exists e, r2 = Err e /\ Forall (fun p => match p with PRequest _ _ => False | _ => True end) (log t2)
           /\ (refused (w_login w) = None -> exists tk, log t2 = [PLogin false tk])
           /\ (forall c, refused (w_login w) = Some c -> c <> -1501 -> e = KAuth (Some c))
           /\ (refused (w_login w) = Some (-1501) -> forall c, refused (w_login2 w) = Some c -> e = KAuth (Some c))
           /\ (refused (w_login w) = Some (-1501) -> refused (w_login2 w) = None -> e = KKasa \/ e = Cancelled)).
  { intros N. destruct X as [(pre & tok & E & _)|H]; [|exact H]. exfalso. apply N. exists tok. rewrite E.
    apply in_or_app. right. left. reflexivity. }
  split; [|split; [|split; [|split]]].
  - intros (tok & H). destruct X as [(pre & tok' & _ & ->)|(e & _ & F & _)]; [apply answers_result|].
    rewrite Forall_forall in F. destruct (F _ H).
  - intros Hl. unfold send in ES.
    assert (G : (match st t with ESTABLISHED => session_expired t (w_now w) | _ => true end) = false).
    { destruct Hl as (tok & e & Ek & He). unfold agrees in Q. rewrite Ek in Q. destruct Q as (-> & Qe & _).
      unfold session_expired. rewrite Qe. apply Z.leb_gt. lia. }
    rewrite G in ES. destruct (send_request_spec (fun tok => PRequest tok m) (w_req w) t) as (x & _ & E).
    rewrite E in ES. injection ES as <- <-. exists (url_token t). cbv zeta.
    destruct (refused (w_req w)); cbn [reset log]; apply in_or_app; right; left; reflexivity.
  - intros Ht. destruct (match st t with ESTABLISHED => session_expired t (w_now w) | _ => true end) eqn:G; unfold send in ES; rewrite G in ES.
    + unfold perform_login in ES.
      destruct (try_login_spec false (w_login w) (w_login_at w) t P1) as
        [(c & R1 & T & E)|[(tok & R1 & T & E)|(R1 & T & e & Ne & E)]]; [congruence| |congruence].
      rewrite E in ES. cbv zeta in ES.
      match type of ES with send_request _ _ ?s = _ =>
        destruct (send_request_spec (fun tok => PRequest tok m) (w_req w) s) as (x & _ & E2) end.
      rewrite E2 in ES. injection ES as <- <-. exists (Some tok). cbv zeta.
      destruct (refused (w_req w)); cbn [reset log url_token]; apply in_or_app; right; left; reflexivity.
    + destruct (send_request_spec (fun tok => PRequest tok m) (w_req w) t) as (x & _ & E).
      rewrite E in ES. injection ES as <- <-. exists (url_token t). cbv zeta.
      destruct (refused (w_req w)); cbn [reset log]; apply in_or_app; right; left; reflexivity.
  - intros Hr Ht. destruct (match st t with ESTABLISHED => session_expired t (w_now w) | _ => true end) eqn:G; unfold send in ES; rewrite G in ES.
    + unfold perform_login in ES.
      destruct (try_login_spec false (w_login w) (w_login_at w) t P1) as
        [(c & R1 & T & E)|[(tok & R1 & T & E)|(R1 & T & e & Ne & E)]]; [|congruence|congruence].
      rewrite E in ES. rewrite Hr in R1. injection R1 as <-. change (-1501 =? -1501) with true in ES. cbv iota zeta in ES.
      match type of ES with context [try_login true _ _ ?s] =>
        destruct (try_login_spec true (w_login2 w) (w_login2_at w) s P2) as
          [(c2 & R2 & T2 & E2)|[(tok & R2 & T2 & E2)|(R2 & T2 & e & Ne & E2)]] end; [congruence| |congruence].
      rewrite E2 in ES. cbv zeta in ES.
      match type of ES with send_request _ _ ?s = _ =>
        destruct (send_request_spec (fun tok => PRequest tok m) (w_req w) s) as (x & _ & E3) end.
      rewrite E3 in ES. injection ES as <- <-. exists (Some tok). cbv zeta.
      destruct (refused (w_req w)); cbn [reset log url_token]; apply in_or_app; right; left; reflexivity.
    + destruct (send_request_spec (fun tok => PRequest tok m) (w_req w) t) as (x & _ & E).
      rewrite E in ES. injection ES as <- <-. exists (url_token t). cbv zeta.
      destruct (refused (w_req w)); cbn [reset log]; apply in_or_app; right; left; reflexivity.
  - intros N. destruct (NF N) as (e & H1 & _ & _ & H2 & H3 & H4). exists e. auto.
Qed.
Print Assumptions ssl_outcome.

(** A reply that can be understood: a known code, and a token with an accepted login. *)
Definition understood (login : bool) (r : reply) : Prop :=
  forall j, r = Ok (200, j) -> exists c, reports j c /\ In c smart_error_codes /\
    (login = true -> c = 0 -> token_in r <> None).

(** Then a send fails only with the library's exceptions, or by being cancelled. *)
Theorem ssl_errors_partial w m t t' e :
  plain_world w ->
  understood true (w_login w) -> understood true (w_login2 w) -> understood false (w_req w) ->
  send w m t = (t', Err e) -> is_kasa e = true \/ e = Cancelled.
Proof.
  intros (P1 & P2 & P3) U1 U2 U3.
  assert (K : forall b r e, plain r -> understood b r -> post_result r = Err e -> is_kasa e = true \/ e = Cancelled).
  { intros b r x P U H. destruct r as [[status j]|y].
    - unfold post_result in H. destruct (Z.eqb_spec status 200) as [->|]; [|injection H as <-; left; reflexivity].
      destruct (U j eq_refl) as (c & (d & -> & Hd) & Hin & _). destruct (handle_spec (JObj d) init) as (z & C & E).
      rewrite E in H. cbn [coded] in C. unfold code in C. rewrite Hd in C. apply zmem_In in Hin. rewrite Hin in C.
      left. destruct (c =? 0); [subst z; discriminate|].
      destruct (zmem c smart_retryable_errors); [subst z; injection H as <-; reflexivity|].
      destruct (zmem c smart_authentication_errors); subst z; injection H as <-; reflexivity.
    - injection H as <-. destruct (P y eq_refl) as [-> | [-> | [-> | ->]]]; auto. }
  assert (TL : forall dflt r at_ s s' x, plain r -> understood true r -> try_login dflt r at_ s = (s', Err x) -> is_kasa x = true \/ x = Cancelled).
  { intros dflt r at_ s s' x P U H. unfold try_login, mbind in H.
    destruct (send_request_spec (PLogin dflt) r s) as (y & Y & E). rewrite E in H. clear E. cbv zeta in H.
    destruct y as [j|z].
    2:{ assert (x = z) as -> by congruence. eapply K; eauto. }
    destruct (result_cases r P) as [(c & _ & _ & Z)|[(R & j' & d & -> & -> & Ec & Z)|(_ & _ & z & Z & _)]]; [congruence| |congruence].
    assert (j = JObj d) as -> by congruence. exfalso.
    destruct (U (JObj d) eq_refl) as (c & (d' & [= <-] & Hd) & Hin & Ht).
    assert (c = 0) as ->. { unfold code in Ec. rewrite Hd in Ec. congruence. }
    specialize (Ht eq_refl eq_refl). rewrite R in H.
    match type of H with context [handle_code ?a ?b] => destruct (handle_spec a b) as (q & C & E) end.
    rewrite E in H. cbn [coded] in C. rewrite Ec in C. cbn in C. subst q. cbn [mlift jitem] in H.
    unfold token_in, body in Ht. cbn [Z.eqb Pos.eqb] in Ht. rewrite Ec in Ht. unfold dindex in H.
    destruct (dget "result" d) as [[| | | | | |rd]|]; try (apply Ht; reflexivity).
    cbn [bind jitem] in H. unfold dindex in H. cbn [Z.eqb] in Ht. destruct (dget "token" rd); [discriminate H|].
    apply Ht. reflexivity. }
  unfold send. destruct (match st t with ESTABLISHED => session_expired t (w_now w) | _ => true end).
  - unfold perform_login. destruct (try_login false (w_login w) (w_login_at w) t) as [t1 [[]|x]] eqn:E1.
    + destruct (send_request_spec (fun tok => PRequest tok m) (w_req w) t1) as (y & Y & E). rewrite E. intros H.
      apply (K false (w_req w)); auto. congruence.
    + pose proof (TL _ _ _ _ _ _ P1 U1 E1) as Hx.
      assert (G : forall z, (match x with
        | KAuth (Some c) => if c =? -1501 then
            match try_login true (w_login2 w) (w_login2_at w) t1 with
            | (t2, Err (KAuth c2)) => (t2, Err (KAuth c2))
            | (t2, Err Cancelled) => (t2, Err Cancelled)
            | (t2, Err _) => (t2, Err KKasa)
            | r => r
            end else (t1, Err (KAuth (Some c)))
        | _ => (t1, @Err unit x) end) = z -> (exists t2, z = (t2, Ok tt)) \/ exists t2 y, z = (t2, Err y) /\ (is_kasa y = true \/ y = Cancelled)).
      { intros z <-. destruct x; try (right; eexists _, _; split; [reflexivity|]; exact Hx).
        destruct code as [c|]; [|right; eexists _, _; split; [reflexivity|]; exact Hx].
        destruct (c =? -1501); [|right; eexists _, _; split; [reflexivity|]; exact Hx].
        destruct (try_login true (w_login2 w) (w_login2_at w) t1) as [t2 [[]|y]] eqn:E2; [left; eexists; reflexivity|].
        right. pose proof (TL _ _ _ _ _ _ P2 U2 E2) as Hy.
        destruct y; eexists _, _; (split; [reflexivity|]); auto. }
      match goal with |- match ?z with _ => _ end = _ -> _ => destruct (G z) as [(t2 & Ez)|(t2 & y & Ez & Hy)] end.
      * destruct x as [| | | | |[c|]| | | | | | | | | | | | | | | |]; reflexivity.
      * rewrite Ez. destruct (send_request_spec (fun tok => PRequest tok m) (w_req w) t2) as (y & Y & E). rewrite E. intros H.
        apply (K false (w_req w)); auto. congruence.
      * rewrite Ez. intros H. congruence.
  - destruct (send_request_spec (fun tok => PRequest tok m) (w_req w) t) as (y & Y & E). rewrite E. intros H.
    apply (K false (w_req w)); auto. congruence.
Qed.
Print Assumptions ssl_errors_partial.

(** A code the library does not know, or none, makes the send fail with ValueError. *)
Theorem ssl_errors_refuted d : (forall c, dget "error_code" d = Some (JInt c) -> ~ In c smart_error_codes) ->
  dget "error_code" d <> Some (JBool false) ->
  forall tok e now a b c at1 at2 m, now < e ->
  snd (send (mkW now a at1 b at2 (Ok (200, JObj d))) m (mkSsl ESTABLISHED (Some e) (Some tok) c)) = Err PyValueError.
Proof.
  intros H H0 tok e now a b c at1 at2 m He. unfold send. cbn [st expire_at session_expired w_now].
  unfold session_expired. cbn [expire_at]. replace (e - now <=? 0) with false by (symmetry; apply Z.leb_gt; lia).
  match goal with |- context [send_request ?f ?r ?s] => destruct (send_request_spec f r s) as (x & X & E) end.
  rewrite E. cbn [snd]. rewrite <- X. unfold post_result. cbn [w_req Z.eqb Pos.eqb].
  destruct (handle_spec (JObj d) init) as (q & C & E'). rewrite E'. cbn [coded] in C. unfold code in C.
  destruct (dget "error_code" d) as [[|[]|z| | | |]|]; try (subst q; reflexivity); try congruence.
  destruct (zmem z smart_error_codes) eqn:Hz; [|subst q; reflexivity].
  apply zmem_In in Hz. destruct (H z eq_refl Hz).
Qed.
Print Assumptions ssl_errors_refuted.

(** A day with a vacuum: log in once, use the session, log in again when it has expired or was
    refused, and with the default parameters when the user's are wrong *)
Definition tok (s : string) : reply := Ok (200, JObj [("error_code", JInt 0); ("result", JObj [("token", JStr s)])]).
Definition says (c : Z) : reply := Ok (200, JObj [("error_code", JInt c)]).
Definition day : list event :=
  [ESend (mkW 0 (tok "a") 1 (tok "x") 1 (says 0)) "one";
   ESend (mkW 85200 (tok "b") 2 (tok "x") 2 (says 0)) "two";
   ESend (mkW 85201 (tok "c") 85203 (tok "x") 2 (says 1003)) "three";
   ESend (mkW 85204 (says (-1501)) 0 (tok "d") 85205 (says 0)) "four";
   EReset;
   ESend (mkW 85206 (says (-1501)) 0 (says (-1501)) 0 (says 0)) "five";
   ESend (mkW 85207 (Err KConn) 0 (tok "y") 0 (says 0)) "six";
   ESend (mkW 85208 (tok "e") 85209 (tok "y") 0 (says 4711)) "seven"].
Example ssl_day_ex : plain_events day /\
  snd (run init day) =
  [([PLogin false None; PRequest (Some (JStr "a")) "one"], Some (Ok (JObj [("error_code", JInt 0)])));
   ([PRequest (Some (JStr "a")) "two"], Some (Ok (JObj [("error_code", JInt 0)])));
   ([PLogin false (Some (JStr "a")); PRequest (Some (JStr "c")) "three"], Some (Err (KAuth (Some 1003))));
   ([PLogin false None; PLogin true None; PRequest (Some (JStr "d")) "four"], Some (Ok (JObj [("error_code", JInt 0)])));
   ([], None);
   ([PLogin false None; PLogin true None], Some (Err (KAuth (Some (-1501)))));
   ([PLogin false None], Some (Err KConn));
   ([PLogin false None; PRequest (Some (JStr "e")) "seven"], Some (Err PyValueError))].
Proof.
  split; [|vm_compute; reflexivity].
  intros w m H. unfold day in H. cbn [In] in H.
  repeat (destruct H as [H|H]; [try discriminate; injection H as <- <-;
    repeat split; intros e He; cbn in He; try discriminate; injection He as <-; unfold http_failure; auto|]).
  contradiction.
Qed.

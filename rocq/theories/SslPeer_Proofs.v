(** The vacuum's client and a device.  No statement of record lives here. *)
From Coq Require Import Lia.
From Verif Require Import Base Base_Lemmas Py Codes_Model Crypto_Model Ssl_Model SslPeer_Spec.
Open Scope string_scope.
Open Scope list_scope.
Open Scope Z_scope.

Section Proofs.
Variable json_loads : bytes -> option json.
Variable S : Type.
Variable app : S -> bytes -> S * bytes.
Variable accepts : bool -> bool.
Notation tg := (together json_loads S app accepts).
Notation serv := (served json_loads S app accepts).
Notation direc := (directly json_loads S app).
Notation und := (understood json_loads).

Lemma together_split es1 : forall x es2 y o, tg x (es1 ++ es2) y o ->
  exists y1 o1 o2, tg x es1 y1 o1 /\ tg y1 es2 y o2 /\ o = o1 ++ o2.
Proof.
  induction es1 as [|e es1 IH]; intros x es2 y o H; cbn [List.app] in H.
  - exists x, [], o. split; [constructor|auto].
  - inversion H; subst;
      match goal with H' : tg _ (es1 ++ es2) _ _ |- _ => destruct (IH _ _ _ _ H') as (y1 & o1 & o2 & A & B & ->) end;
      eexists _, _, _; (split; [econstructor; eassumption|split; [exact B|reflexivity]]).
Qed.
Lemma together_join x a y1 o1 b y o2 : tg x a y1 o1 -> tg y1 b y o2 -> tg x (a ++ b) y (o1 ++ o2).
Proof. induction 1; intros H'; cbn [List.app]; [exact H'|..]; econstructor; eauto. Qed.

(** A login *)
Lemma at_put x d : at_token S (ds_token x) (put_session S x d) = Some x.
Proof. unfold at_token, put_session. cbn [dv_sessions find]. now rewrite String.eqb_refl. Qed.

Definition in_session (t : ssl) (d : device S) (l : login) (at_ : Z) : Prop :=
  st t = ESTABLISHED /\ url_token t = Some (JStr (l_token l)) /\ expire_at t = Some (at_ + 85200) /\
  exists x, at_token S (l_token l) d = Some x /\ ds_until x = l_time l + l_life l.

Lemma login_one def at_ l d d1 r t t' o :
  on_login S accepts l def d = (d1, r) -> try_login def r at_ t = (t', o) ->
  log t' = log t ++ [PLogin def (url_token t)] /\ dv_state d1 = dv_state d /\
  match o with
  | Ok _ => l_fate l = Answered -> in_session t' d1 l at_
  | Err e => l_fate l = Answered -> accepts def = false /\ e = KAuth (Some (-1501)) /\ st t' = LOGIN_REQUIRED /\ d1 = d
  end.
Proof.
  unfold on_login, lost. intros Hd Ht.
  assert (Hlog : log t' = log t ++ [PLogin def (url_token t)]).
  { revert Ht. clear. unfold try_login, send_request, mbind, handle_code, mret, mlift.
    destruct r as [[s j]|e]; [|intros H; injection H as <- <-; reflexivity].
    destruct (negb (s =? 200)); [intros H; injection H as <- <-; reflexivity|].
    destruct (let! raw := jget "error_code" j in smart_error_code raw) as [c|e] eqn:Ec;
      [|intros H; injection H as <- <-; reflexivity].
    destruct (c =? 0) eqn:E0.
    - rewrite Ec, E0. destruct (let! result := jitem "result" j in jitem "token" result); intros H; injection H as <- <-; reflexivity.
    - destruct (zmem c smart_retryable_errors); [intros H; injection H as <- <-; reflexivity|].
      destruct (zmem c smart_authentication_errors); intros H; injection H as <- <-; reflexivity. }
  split; [exact Hlog|]. clear Hlog.
  destruct (l_fate l) as [|e|e] eqn:Ef.
  - destruct (accepts def) eqn:Ea; injection Hd as <- <-; cbv -[Z.add Z.sub List.app] in Ht; injection Ht as <- <-.
    + split; [reflexivity|]. intros _. unfold in_session. cbn [st url_token expire_at]. split; [reflexivity|]. split; [reflexivity|]. split; [f_equal; lia|].
      exists (mkD (l_token l) (l_time l + l_life l)). split; [apply at_put|reflexivity].
    + split; [reflexivity|]. intros _. repeat split.
  - injection Hd as <- <-. split; [reflexivity|]. destruct o; discriminate.
  - assert (Hs : dv_state d1 = dv_state d) by (destruct (accepts def); injection Hd as <- _; reflexivity).
    split; [exact Hs|]. destruct o; discriminate.
Qed.

Lemma serv_login h w d def tok p d' : serv h w d (PLogin def tok :: p) d' -> exists d1,
  on_login S accepts (if def then h_login2 h else h_login h) def d = (d1, if def then w_login2 w else w_login w) /\
  serv h w d1 p d'.
Proof. intros H. inversion H; subst. eauto. Qed.

Lemma login_log def r at_ t : exists l, log (fst (try_login def r at_ t)) = log t ++ l /\ l = [PLogin def (url_token t)].
Proof.
  eexists. split; [|reflexivity]. unfold try_login, send_request, mbind, handle_code, mret, mlift.
  destruct r as [[s j]|e]; [|reflexivity]. destruct (negb (s =? 200)); [reflexivity|].
  destruct (let! raw := jget "error_code" j in smart_error_code raw) as [c|e] eqn:Ec; [|reflexivity].
  destruct (c =? 0) eqn:E0.
  - rewrite Ec, E0. destruct (let! result := jitem "result" j in jitem "token" result); reflexivity.
  - destruct (zmem c smart_retryable_errors); [reflexivity|]. destruct (zmem c smart_authentication_errors); reflexivity.
Qed.

(** Both logins *)
Lemma logins w t t' o : perform_login w t = (t', o) ->
  exists ps, log t' = log t ++ ps /\
  forall h d rest d', serv h w d (ps ++ rest) d' ->
  exists d1, serv h w d1 rest d' /\ dv_state d1 = dv_state d /\
  match o with
  | Ok _ => healthy h w -> exists l at_, in_session t' d1 l at_ /\ healthy_login w l at_
  | Err _ => healthy h w -> ~ knows accepts
  end.
Proof.
  unfold perform_login. intros H.
  destruct (try_login false (w_login w) (w_login_at w) t) as [t1 o1] eqn:E1.
  pose proof (login_log false (w_login w) (w_login_at w) t) as (l1 & L1 & ->). rewrite E1 in L1. cbn [fst] in L1.
  assert (One : (t', o) = (t1, o1) -> (forall e, o = Err e -> e <> KAuth (Some (-1501))) ->
    exists ps, log t' = log t ++ ps /\
    forall h d rest d', serv h w d (ps ++ rest) d' ->
    exists d1, serv h w d1 rest d' /\ dv_state d1 = dv_state d /\
    match o with
    | Ok _ => healthy h w -> exists l at_, in_session t' d1 l at_ /\ healthy_login w l at_
    | Err _ => healthy h w -> ~ knows accepts
    end).
  { intros E N. injection E as -> ->. exists [PLogin false (url_token t)]. split; [exact L1|].
    intros h d rest d' Hv. cbn [List.app] in Hv. apply serv_login in Hv. destruct Hv as (d1 & Hon & Hv).
    exists d1. split; [exact Hv|]. destruct (login_one _ _ _ _ _ _ _ _ _ Hon E1) as (_ & Hs & HO). split; [exact Hs|].
    destruct o1 as [u|e].
    - intros (Hh & _). exists (h_login h), (w_login_at w). split; [apply HO, Hh|exact Hh].
    - intros (Hh & _). destruct (HO (proj1 Hh)) as (_ & -> & _). now destruct (N _ eq_refl). }
  assert (One' : (t1, o1) = (t', o) -> (forall e, o = Err e -> e <> KAuth (Some (-1501))) ->
    exists ps, log t' = log t ++ ps /\
    forall h d rest d', serv h w d (ps ++ rest) d' ->
    exists d1, serv h w d1 rest d' /\ dv_state d1 = dv_state d /\
    match o with
    | Ok _ => healthy h w -> exists l at_, in_session t' d1 l at_ /\ healthy_login w l at_
    | Err _ => healthy h w -> ~ knows accepts
    end) by (intros E; now apply One).
  clear One.
  destruct o1 as [u|e]; [apply One'; [exact H|]; injection H as <- <-; discriminate|].
  assert (Dec : (exists c, e = KAuth (Some c)) \/ (forall c, e <> KAuth (Some c))).
  { destruct e; try (right; discriminate). destruct code as [c|]; [left; eauto|right; discriminate]. }
  destruct Dec as [(c & ->)|Dec].
  2:{ assert (H' : (t1, @Err unit e) = (t', o)).
      { destruct e; try exact H. destruct code; [|exact H]. now destruct (Dec z). }
      apply One'; [exact H'|]. injection H' as <- <-. intros e' E'. injection E' as <-. apply Dec. }
  destruct (c =? -1501) eqn:Ez; [apply Z.eqb_eq in Ez; subst c|apply Z.eqb_neq in Ez].
  2:{ apply One'; [exact H|]. injection H as <- <-. intros e' E'. injection E' as <-. congruence. }
  clear One'.
  destruct (try_login true (w_login2 w) (w_login2_at w) t1) as [t2 o2] eqn:E2.
  pose proof (login_log true (w_login2 w) (w_login2_at w) t1) as (l2 & L2 & ->). rewrite E2 in L2. cbn [fst] in L2.
  assert (H' : t' = t2 /\ match o with Ok _ => exists u, o2 = Ok u | Err _ => exists e, o2 = Err e end).
  { destruct o2 as [u|e]; [injection H as <- <-; eauto|]. destruct e; injection H as <- <-; eauto. }
  destruct H' as (-> & Ho). clear H.
  exists ([PLogin false (url_token t)] ++ [PLogin true (url_token t1)]). split; [rewrite L2, L1; now rewrite app_assoc|].
  intros h d rest d' Hv. cbn [List.app] in Hv. apply serv_login in Hv. destruct Hv as (d1 & Hon & Hv).
  apply serv_login in Hv. destruct Hv as (d2 & Hon2 & Hv). exists d2. split; [exact Hv|].
  destruct (login_one _ _ _ _ _ _ _ _ _ Hon E1) as (_ & Hs & HO).
  destruct (login_one _ _ _ _ _ _ _ _ _ Hon2 E2) as (_ & Hs2 & HO2). split; [congruence|].
  destruct o as [u|e].
  - destruct Ho as (u' & ->). intros (_ & Hh & _). exists (h_login2 h), (w_login2_at w). split; [apply HO2, Hh|exact Hh].
  - destruct Ho as (e' & ->). intros (Hh & Hh2 & _) [K|K].
    + destruct (HO (proj1 Hh)) as (K' & _). congruence.
    + destruct (HO2 (proj1 Hh2)) as (K' & _). congruence.
Qed.

(** The request *)
Lemma heard_understood answer m t : exists t' ,
  send_request (fun tok => PRequest tok m) (heard json_loads answer) t = (t', und answer) /\
  log t' = log t ++ [PRequest (url_token t) m] /\ expire_at t' = expire_at t /\
  (st t' = st t /\ url_token t' = url_token t \/ st t' = LOGIN_REQUIRED).
Proof.
  unfold send_request, heard, understood. destruct (json_loads answer) as [j|]; [|eexists; repeat split; auto].
  cbn [negb Z.eqb Pos.eqb]. unfold mbind, handle_code, mret.
  destruct j as [| | | | | |dd]; try (eexists; repeat split; auto; fail). cbn [jget bind].
  destruct (dget "error_code" dd) as [[|[]|c| | | |]|]; try (eexists; repeat split; auto; fail).
  cbn [smart_error_code bind]. destruct (zmem c smart_error_codes); cbn [negb]; [|eexists; repeat split; auto].
  destruct (c =? 0); [eexists; repeat split; auto|]. destruct (zmem c smart_retryable_errors); [eexists; repeat split; auto|].
  destruct (zmem c smart_authentication_errors); eexists; repeat split; auto.
Qed.
Lemma request_log mk r t : log (fst (send_request mk r t)) = log t ++ [mk (url_token t)].
Proof.
  unfold send_request, mbind, handle_code, mret. destruct r as [[s j]|e]; [|reflexivity]. destruct (negb (s =? 200)); [reflexivity|].
  destruct (let! raw := jget "error_code" j in smart_error_code raw) as [c|e]; [|reflexivity]. destruct (c =? 0); [reflexivity|].
  destruct (zmem c smart_retryable_errors); [reflexivity|]. destruct (zmem c smart_authentication_errors); reflexivity.
Qed.
Lemma request_err mk e t : snd (send_request mk (Err e) t) = Err e.
Proof. reflexivity. Qed.

Definition alive (t : ssl) (d : device S) : Prop :=
  st t = ESTABLISHED -> exists tok e x, url_token t = Some (JStr tok) /\ expire_at t = Some e /\
    at_token S tok d = Some x /\ e + 600 <= ds_until x.

Lemma asked w h m t t' r d d' :
  send_request (fun tok => PRequest tok (string_of_list_ascii m)) (w_req w) t = (t', r) ->
  serv h w d [PRequest (url_token t) (string_of_list_ascii m)] d' ->
  ((dv_state d' = dv_state d /\ exists e, r = Err e) \/
   (dv_state d' = fst (app (dv_state d) m) /\ (r = und (snd (app (dv_state d) m)) \/ exists e, r = Err e))) /\
  (p_fate (h_request h) = Answered ->
   (exists tok x, url_token t = Some (JStr tok) /\ at_token S tok d = Some x /\ p_time (h_request h) < ds_until x) ->
   alive t d ->
   dv_state d' = fst (app (dv_state d) m) /\ r = und (snd (app (dv_state d) m)) /\ alive t' d').
Proof.
  intros Hq Hv. inversion Hv as [| |? d1 ? tok request p Hon Hv']; subst. inversion Hv'; subst. clear Hv Hv'.
  rewrite list_ascii_of_string_of_list_ascii in Hon. revert Hon. unfold on_request, lost.
  set (o := match url_token t with Some (JStr given) => _ | _ => _ end). intros Hon.
  assert (Ho : (fst o = d /\ snd o = no_session /\
                ~ (exists tok x, url_token t = Some (JStr tok) /\ at_token S tok d = Some x /\ p_time (h_request h) < ds_until x)) \/
               (fst o = mkDev (dv_sessions d) (fst (app (dv_state d) m)) /\ snd o = heard json_loads (snd (app (dv_state d) m)))).
  { subst o. destruct (url_token t) as [[| | | |given| |]|];
      try (left; repeat split; intros (tok & x & E & _); discriminate).
    destruct (at_token S given d) as [x|] eqn:Ea.
    2:{ left. repeat split. intros (tok & x & E & E' & _). injection E as <-. congruence. }
    destruct (Z.ltb_spec (p_time (h_request h)) (ds_until x)) as [Hl|Hl].
    - right. destruct (app (dv_state d) m). auto.
    - left. repeat split. intros (tok & x' & E & E' & E''). injection E as <-.
      assert (x' = x) as -> by congruence. lia. }
  destruct (p_fate (h_request h)) as [|e|e].
  - destruct Ho as [(O1 & O2 & O3)|(O1 & O2)].
    + destruct o as [od ow]. cbn [fst snd] in *. subst od ow. injection Hon as <- Ew. rewrite <- Ew in Hq.
      cbv -[Z.add Z.sub List.app string_of_list_ascii] in Hq. injection Hq as <- <-.
      split; [left; split; [reflexivity|eauto]|]. intros _ K. now destruct O3.
    + destruct o as [od ow]. cbn [fst snd] in *. subst od ow. injection Hon as <- Ew. rewrite <- Ew in Hq. cbn [dv_state].
      destruct (heard_understood (snd (app (dv_state d) m)) (string_of_list_ascii m) t) as (t2 & E2 & _ & E3 & E4).
      rewrite E2 in Hq. injection Hq as -> ->.
      split; [right; auto|]. intros _ _ HA. split; [reflexivity|]. split; [reflexivity|].
      intros Hst. destruct E4 as [(E4 & E5)|E4]; [|congruence].
      destruct HA as (tok & e & x & A1 & A2 & A3 & A4); [congruence|]. exists tok, e, x.
      rewrite E5, E3. auto.
  - injection Hon as <- Ew. rewrite <- Ew in Hq. injection Hq as <- <-. split; [left; eauto|discriminate].
  - injection Hon as <- Ew. rewrite <- Ew in Hq. injection Hq as <- <-. split; [|discriminate].
    destruct Ho as [(O1 & _)|(O1 & _)]; rewrite O1; cbn [dv_state]; [left|right]; eauto.
Qed.

Lemma sent w h m t t' r d d' : send w (string_of_list_ascii m) (cleared t) = (t', r) -> serv h w d (log t') d' ->
  ((dv_state d' = dv_state d /\ exists e, r = Err e) \/
   (dv_state d' = fst (app (dv_state d) m) /\ (r = und (snd (app (dv_state d) m)) \/ exists e, r = Err e))) /\
  (alive t d -> knows accepts -> healthy h w ->
   dv_state d' = fst (app (dv_state d) m) /\ r = und (snd (app (dv_state d) m)) /\ alive t' d').
Proof.
  unfold send. intros H Hv. change (st (cleared t)) with (st t) in H.
  assert (Hx : forall now, session_expired (cleared t) now = session_expired t now) by reflexivity. rewrite Hx in H. clear Hx.
  destruct (match st t with ESTABLISHED => session_expired t (w_now w) | _ => true end) eqn:Eb.
  - destruct (perform_login w (cleared t)) as [t1 o] eqn:El. destruct (logins _ _ _ _ El) as (ps & L & K).
    cbn [cleared log List.app] in L.
    destruct o as [u|e].
    + assert (L' : log t' = ps ++ [PRequest (url_token t1) (string_of_list_ascii m)]).
      { rewrite <- L. pose proof (request_log (fun tok => PRequest tok (string_of_list_ascii m)) (w_req w) t1) as Q.
        rewrite H in Q. exact Q. }
      rewrite L' in Hv. destruct (K h d _ d' Hv) as (d1 & Hv1 & Hs & Hh). rewrite <- Hs.
      destruct (asked _ _ _ _ _ _ _ _ H Hv1) as (P1 & P2). split; [exact P1|].
      intros _ _ HH. destruct (Hh HH) as (l & at_ & (S1 & S2 & S3 & x & S4 & S5) & (F1 & F2 & F3 & F4)).
      destruct HH as (_ & _ & R1 & R2). apply P2; [exact R1| |].
      * exists (l_token l), x. split; [exact S2|]. split; [exact S4|]. lia.
      * intros _. exists (l_token l), (at_ + 85200), x. split; [exact S2|]. split; [exact S3|]. split; [exact S4|]. lia.
    + injection H as <- <-. rewrite L in Hv. rewrite <- (app_nil_r ps) in Hv.
      destruct (K h d _ d' Hv) as (d1 & Hv1 & Hs & Hh). inversion Hv1; subst.
      split; [left; eauto|]. intros _ K1 K2. now destruct (Hh K2).
  - pose proof (request_log (fun tok => PRequest tok (string_of_list_ascii m)) (w_req w) (cleared t)) as Q. rewrite H in Q.
    cbn [fst cleared log List.app url_token] in Q. rewrite Q in Hv.
    destruct (asked _ _ _ (cleared t) _ _ _ _ H Hv) as (P1 & P2). split; [exact P1|].
    intros HA _ (_ & _ & R1 & R2). apply P2; [exact R1| |exact HA].
    destruct (st t) eqn:Es; [discriminate|]. destruct (HA Es) as (tok & e & x & A1 & A2 & A3 & A4).
    unfold session_expired in Eb. rewrite A2 in Eb. apply Z.leb_gt in Eb.
    exists tok, x. split; [exact A1|]. split; [exact A3|]. lia.
Qed.

Lemma together_once x es y o : tg x es y o ->
  Forall (fun z : bytes * S * S * res json => let '(m, s, s1, r) := z in
    (s1 = s /\ exists e, r = Err e) \/
    (s1 = fst (app s m) /\ (r = und (snd (app s m)) \/ exists e, r = Err e))) o.
Proof.
  induction 1; [constructor| |assumption..]. constructor; [|assumption].
  match goal with A : send _ _ _ = _, B : serv _ _ _ _ _ |- _ => exact (proj1 (sent _ _ _ _ _ _ _ _ A B)) end.
Qed.
Lemma together_alive x es y o : tg x es y o -> alive (fst x) (snd x) -> knows accepts -> all_healthy S es ->
  alive (fst y) (snd y) /\ dv_state (snd y) = fst (direc (dv_state (snd x)) es) /\ map snd o = snd (direc (dv_state (snd x)) es).
Proof.
  induction 1 as [x|t d t1 d1 x h w m r es outs Hs Hv _ IH|t d x es outs _ IH|t d f x es outs _ IH|t d keep x es outs _ IH];
    intros HA Hk Hh; cbn [fst snd] in *.
  - auto.
  - apply Forall_cons_iff in Hh. destruct Hh as (Hh & Hr).
    destruct (sent _ _ _ _ _ _ _ _ Hs Hv) as (_ & P). destruct (P HA Hk Hh) as (P1 & P2 & P3).
    destruct (IH P3 Hk Hr) as (I1 & I2 & I3). split; [exact I1|]. cbn [directly map]. rewrite P1 in I2, I3.
    destruct (app (dv_state d) m) as [s1 ans]. cbn [fst snd] in *. destruct (direc s1 es) as [s2 rs]. cbn [fst snd] in *.
    split; [exact I2|]. now rewrite I3, P2.
  - apply Forall_inv_tail in Hh. cbn [directly]. apply IH; auto. intros D. discriminate.
  - apply Forall_inv_tail in Hh. cbn [directly]. apply IH; auto.
  - apply Forall_inv in Hh. now destruct Hh.
Qed.
Lemma fresh_alive t d : alive (reset t) d /\ alive init d.
Proof. split; intros D; discriminate. Qed.
End Proofs.

(** C25, C68: the HTTP client. *)
From Verif Require Import Base Base_Lemmas Py Xor_Model Http_Model.
Open Scope list_scope.
Open Scope Z_scope.

(** * C25, the outcome of a request *)
(** What a caller is given for each fate. *)
Definition expected (json_loads : bytes -> option json) (want_json : bool) (f : fate) : res (Z * payload) :=
  match f with
  | FReply status body =>
      if status =? 200 then
        if want_json then match json_loads body with Some v => Ok (200, PJson v) | None => Err KKasa end
        else Ok (200, PRaw body)
      else if want_json && negb (match body with [] => true | _ => false end)
      then Ok (status, match json_loads body with Some v => PJson v | None => PRaw body end)
      else Ok (status, PRaw body)
  | FDisconnected | FOsError => Err KConn
  | FServerTimeout => Err KTimeout
  | FTotalTimeout | FOther => Err KKasa
  | FCancelled => Err Cancelled
  end.
Theorem http_outcome_partial : forall loads supplied h want_json now late took f,
  snd (post loads supplied h want_json now late took f) = expected loads want_json f /\
  (f <> FCancelled -> forall e, snd (post loads supplied h want_json now late took f) = Err e -> is_kasa e = true).
Proof.
  intros loads supplied h want_json now late took f. 
  assert (H : snd (post loads supplied h want_json now late took f) = expected loads want_json f).
  { unfold post. destruct f as [status body| | | | | |]; try reflexivity.
    unfold expected. destruct (Z.eqb_spec status 200) as [->|Hn].
    - destruct want_json; [|reflexivity]. destruct (loads body); reflexivity.
    - cbn [snd]. destruct want_json, body; reflexivity. }
  split; [exact H|]. intros Hc e He. rewrite H in He. destruct f as [status body| | | | | |]; cbn [expected] in He;
    try (injection He as <-; reflexivity); try (exfalso; apply Hc; reflexivity).
  destruct (status =? 200).
  - destruct want_json; [|discriminate]. destruct (loads body); [discriminate|]. injection He as <-. reflexivity.
  - destruct (want_json && _); discriminate.
Qed.
Print Assumptions http_outcome_partial.
Example http_outcome_ex : exists h, fst (fst (post (fun _ => None) false init true 1000 0 5 FOsError)) = h /\ waiting h = true /\ last_time h = 1005.
Proof. eexists. repeat split. Qed.
(** The configured timeout is the total one; running into it is not reported as a
    timeout. *)
Theorem total_timeout_refuted : forall loads supplied h want_json now late took,
  snd (post loads supplied h want_json now late took FTotalTimeout) = Err KKasa /\ KKasa <> KTimeout.
Proof. intros. split; [reflexivity | discriminate]. Qed.
Print Assumptions total_timeout_refuted.

(** * C25, the gap between requests *)
(** Requests one after the other: each begins after the one before has ended. *)
Fixpoint sequential (loads : bytes -> option json) (supplied : bool) (s : http * list exchange) (clock : Z) (es : list event) : Prop :=
  match es with
  | [] => True
  | EClose :: es' => sequential loads supplied (step loads supplied s EClose) clock es'
  | EPost j now late took f :: es' =>
      clock <= now /\ 0 <= late /\ 0 <= took /\
      sequential loads supplied (step loads supplied s (EPost j now late took f))
        (start_time (fst s) now late + took) es'
  end.
(** An error after which requests are spaced, and an end that is remembered. *)
Definition os_error (f : fate) : bool := match f with FDisconnected | FOsError => true | _ => false end.
Definition remembered (loads : bytes -> option json) (x : exchange) : Prop :=
  match x_fate x with
  | FDisconnected | FOsError => True
  | FReply s b => s <> 200 \/ loads b <> None
  | _ => False
  end.

(** Once an OS error happened, a request begins at least a quarter second after the
    end of each earlier request that ended in an OS error or a response. *)
Definition spaced (loads : bytes -> option json) (xs : list exchange) : Prop :=
  forall a x b y c, xs = a ++ [x] ++ b ++ [y] ++ c ->
    existsb (fun z => os_error (x_fate z)) (a ++ [x]) = true ->
    remembered loads x -> x_end x + 250 <= x_start y.

Section Gap.
Variable loads : bytes -> option json.
Variable supplied : bool.
Definition inv (h : http) (xs : list exchange) (clock : Z) : Prop :=
  (existsb (fun z => os_error (x_fate z)) xs = true <-> waiting h = true) /\
  (forall a x b, xs = a ++ [x] ++ b -> existsb (fun z => os_error (x_fate z)) (a ++ [x]) = true -> remembered loads x -> x_end x <= last_time h) /\
  (waiting h = true -> last_time h <= clock) /\
  (forall x, In x xs -> x_end x <= clock) /\ spaced loads xs.

Lemma split_snoc (xs : list exchange) y0 a x b y c : xs ++ [y0] = a ++ [x] ++ b ++ [y] ++ c ->
  (c = [] /\ y = y0 /\ xs = a ++ [x] ++ b) \/ (exists c', c = c' ++ [y0] /\ xs = a ++ [x] ++ b ++ [y] ++ c').
Proof.
  intro H. destruct c as [|z c] using rev_ind.
  - left. rewrite app_nil_r in H. rewrite !app_assoc in H. apply app_inj_tail in H. destruct H as [H ->].
    rewrite <- app_assoc in H. auto.
  - right. exists c. clear IHc. rewrite !app_assoc in H. apply app_inj_tail in H. destruct H as [H ->].
    split; [reflexivity|]. now rewrite <- !app_assoc in H.
Qed.
Lemma split_last (xs : list exchange) y0 a x b : xs ++ [y0] = a ++ [x] ++ b ->
  (b = [] /\ x = y0 /\ xs = a) \/ (exists b', b = b' ++ [y0] /\ xs = a ++ [x] ++ b').
Proof.
  intro H. destruct b as [|z b] using rev_ind.
  - left. rewrite app_nil_r in H. apply app_inj_tail in H. destruct H as [-> ->]. auto.
  - right. exists b. clear IHb. rewrite !app_assoc in H. apply app_inj_tail in H. destruct H as [H ->].
    split; [reflexivity|]. now rewrite <- !app_assoc in H.
Qed.

Lemma post_waiting h j now late took f : let h' := fst (fst (post loads supplied h j now late took f)) in
  waiting h' = waiting h || os_error f /\
  (last_time h' = last_time h \/ last_time h' = start_time h now late + took) /\
  (waiting h' = true -> remembered loads (mkEx 0 0 f) -> last_time h' = start_time h now late + took) /\
  (waiting h' = false -> last_time h' = last_time h).
Proof.
  assert (Hc : waiting (client supplied h) = waiting h /\ last_time (client supplied h) = last_time h)
    by (unfold client; destruct supplied, (own h); split; reflexivity).
  destruct Hc as [Hw Hl].
  assert (He : let h' := (if waiting (client supplied h) then mkHttp true (start_time h now late + took) (own (client supplied h)) (made (client supplied h)) (closed (client supplied h)) (used (client supplied h)) else client supplied h) in
     waiting h' = waiting h /\ (last_time h' = last_time h \/ last_time h' = start_time h now late + took) /\
     (waiting h' = true -> last_time h' = start_time h now late + took) /\ (waiting h' = false -> last_time h' = last_time h)).
  { cbv zeta. destruct (waiting (client supplied h)) eqn:E; cbn [waiting last_time].
    - rewrite <- Hw. repeat split; auto; discriminate.
    - rewrite E, <- Hw. repeat split; auto; discriminate. }
  cbv zeta in He. destruct He as (H1 & H2 & H3 & H4). rewrite H1 in H3, H4.
  destruct f as [status body| | | | | |]; cbn [post os_error]; cbv zeta; unfold post.
  - destruct (Z.eqb_spec status 200) as [->|Hn].
    + destruct j.
      * destruct (loads body) eqn:E; cbn [fst].
        -- rewrite H1, orb_false_r. auto.
        -- rewrite Hw, Hl, orb_false_r. repeat split; auto. cbn. intros _ [Hx|Hx]; [now elim Hx | congruence].
      * cbn [fst]. rewrite H1, orb_false_r. auto.
    + cbn [fst]. rewrite H1, orb_false_r. auto.
  - cbn [fst waiting last_time]. rewrite orb_true_r. repeat split; auto. discriminate.
  - cbn [fst waiting last_time]. rewrite orb_true_r. repeat split; auto. discriminate.
  - cbn [fst]. rewrite Hw, Hl, orb_false_r. repeat split; auto. intros _ [].
  - cbn [fst]. rewrite Hw, Hl, orb_false_r. repeat split; auto. intros _ [].
  - cbn [fst]. rewrite Hw, Hl, orb_false_r. repeat split; auto. intros _ [].
  - cbn [fst]. rewrite Hw, Hl, orb_false_r. repeat split; auto. intros _ [].
Qed.

Lemma start_bounds h now late : 0 <= late -> now <= start_time h now late /\
  (waiting h = true -> last_time h + 250 <= start_time h now late).
Proof.
  intro Hl. unfold start_time, WAIT. destruct (waiting h); [|split; [lia | discriminate]].
  destruct (Z.ltb_spec (now - last_time h) 250); split; lia.
Qed.

Lemma inv_step h xs clock j now late took f :
  inv h xs clock -> clock <= now -> 0 <= late -> 0 <= took ->
  let '(h', start, _) := post loads supplied h j now late took f in
  inv h' (xs ++ [mkEx start (start + took) f]) (start_time h now late + took).
Proof.
  intros (I1 & I2 & I3 & I4 & I5) Hc Hl Ht.
  pose proof (post_waiting h j now late took f) as P. cbv zeta in P.
  destruct (start_bounds h now late Hl) as [S1 S2].
  assert (Hs : snd (fst (post loads supplied h j now late took f)) = start_time h now late).
  { unfold post. destruct f as [status body| | | | | |]; try reflexivity. destruct (status =? 200); [destruct j; [destruct (loads body)|]|]; reflexivity. }
  destruct (post loads supplied h j now late took f) as [[h' start] r]. cbn [fst snd] in P, Hs. subst start.
  destruct P as (P1 & P2 & P3 & P4). set (y0 := mkEx (start_time h now late) (start_time h now late + took) f).
  split; [|split; [|split; [|split]]].
  - rewrite existsb_app. cbn [existsb x_fate y0]. rewrite orb_false_r, P1.
    destruct (existsb _ xs), (waiting h), (os_error f); cbn in *; tauto.
  - intros a x b He Hex Hr. apply split_last in He. destruct He as [(-> & -> & ->)|(b' & -> & ->)].
    + assert (Hw : waiting h' = true).
      { rewrite P1. rewrite existsb_app in Hex. cbn [existsb x_fate y0] in Hex. rewrite orb_false_r in Hex.
        destruct (existsb _ a); [now rewrite (proj1 I1 eq_refl) | cbn in Hex; now rewrite Hex, orb_true_r]. }
      rewrite (P3 Hw Hr). unfold y0. cbn. lia.
    + pose proof (I2 a x b' eq_refl Hex Hr) as G.
      assert (Hw : waiting h = true).
      { apply I1. rewrite app_assoc, existsb_app, Hex. reflexivity. }
      destruct P2 as [-> | ->]; [exact G|]. pose proof (I3 Hw). lia.
  - intro Hw. destruct P2 as [Hp|Hp]; rewrite Hp; [|lia].
    destruct (waiting h) eqn:E; [pose proof (I3 eq_refl); lia|].
    assert (Ho : os_error f = true) by (rewrite P1 in Hw; exact Hw).
    rewrite <- Hp, P3; [lia | exact Hw |]. destruct f; try discriminate Ho; exact I.
  - intros x Hin. apply in_app_or in Hin. destruct Hin as [Hin|[<-|[]]]; [pose proof (I4 x Hin); lia | cbn; lia].
  - intros a x b y c He Hex Hr. apply split_snoc in He. destruct He as [(-> & -> & ->)|(c' & -> & Hxs)].
    + pose proof (I2 a x b eq_refl Hex Hr) as G.
      assert (Hw : waiting h = true).
      { apply I1. rewrite app_assoc, existsb_app, Hex. reflexivity. }
      pose proof (S2 Hw). unfold y0. cbn [x_start]. lia.
    + eapply I5; eassumption.
Qed.

Lemma inv_run : forall es h xs clock, inv h xs clock -> sequential loads supplied (h, xs) clock es ->
  spaced loads (snd (fold_left (step loads supplied) es (h, xs))).
Proof.
  induction es as [|e es IH]; intros h xs clock Hi Hseq; [apply Hi|]. destruct e as [j now late took f|]; cbn [fold_left sequential] in *.
  - destruct Hseq as (H1 & H2 & H3 & H4). cbn [fst] in H4. pose proof (inv_step h xs clock j now late took f Hi H1 H2 H3) as G.
    unfold step in H4 |- *. fold (step loads supplied) in *.
    destruct (post loads supplied h j now late took f) as [[h' start] r]. eapply IH; [exact G | exact H4].
  - cbn [step] in *. eapply IH; [|exact Hseq]. unfold close. destruct (own h); exact Hi.
Qed.
End Gap.

Theorem http_gap_partial : forall loads supplied es, sequential loads supplied (init, []) 0 es ->
  spaced loads (snd (run loads supplied es)).
Proof.
  intros loads supplied es H. eapply inv_run; [|exact H]. split; [cbn; split; discriminate|].
  split; [intros a x b He; destruct a; discriminate|]. split; [discriminate|]. split; [contradiction|].
  intros a x b y c He. destruct a; discriminate.
Qed.
Print Assumptions http_gap_partial.
Definition ok_reply : fate := FReply 200 [].
Example http_gap_ex :
  let es := [EPost false 10 0 5 FOsError; EPost false 20 3 7 ok_reply; EPost false 300 0 2 ok_reply] in
  sequential (fun _ => Some JNull) false (init, []) 0 es /\
  map x_start (snd (run (fun _ => Some JNull) false es)) = [10; 268; 525].
Proof. cbn. repeat split; try lia. Qed.
(** A request that timed out is not remembered: the next one follows at once
    although the device needs the gap. *)
Theorem http_gap_refuted : exists es x y,
  sequential (fun _ => None) false (init, []) 0 es /\
  snd (run (fun _ => None) false es) = [mkEx 10 15 FOsError; x; y] /\ x_start y < x_end x + 250.
Proof.
  exists [EPost false 10 0 5 FOsError; EPost false 20 0 5000 FServerTimeout; EPost false 5265 0 5 ok_reply].
  eexists _, _. cbn. repeat split; try lia. 
Qed.
Print Assumptions http_gap_refuted.

(** * C68: the HTTP sessions *)
Definition isnone {A} (o : option A) : bool := match o with None => true | _ => false end.
(** The sessions made by the client: those closed, once each and in order, and the
    one still open, if any. *)
Definition sessions_ok (supplied : bool) (h : http) : Prop :=
  closed h ++ (match own h with Some n => [n] | None => [] end) = seq 0 (made h) /\
  (supplied = true -> made h = 0%nat /\ Forall (fun u => u = None) (used h)) /\
  (supplied = false -> Forall (fun u => exists n, u = Some n /\ (n < made h)%nat) (used h)).
Theorem http_sessions : forall loads supplied es, sessions_ok supplied (fst (run loads supplied es)).
Proof.
  intros loads supplied es. unfold run.
  assert (G : forall es h xs, sessions_ok supplied h -> sessions_ok supplied (fst (fold_left (step loads supplied) es (h, xs)))).
  { induction es0 as [|e es0 IH]; intros h xs Hh; [exact Hh|]. destruct e as [j now late took f|]; cbn [fold_left step].
    - assert (Hc : sessions_ok supplied (client supplied h)).
      { destruct Hh as (H1 & H2 & H3). unfold client. destruct supplied.
        - split; [exact H1|]. split; [|discriminate]. intros _. destruct (H2 eq_refl) as [Hm Hu]. split; [exact Hm|].
          cbn [used]. apply Forall_app. split; [exact Hu | constructor; auto].
        - destruct (own h) as [n|] eqn:Eo.
          + split; [cbn [closed own made]; exact H1|]. split; [discriminate|]. intros _.
            cbn [used made]. apply Forall_app. split; [exact (H3 eq_refl)|]. constructor; [|constructor]. exists n. split; [reflexivity|].
            assert (Hin : In n (seq 0 (made h))) by (rewrite <- H1; apply in_or_app; right; left; reflexivity).
            apply in_seq in Hin. lia.
          + split; [|split; [discriminate|]].
            * cbn [closed own made]. rewrite app_nil_r in H1. rewrite H1, seq_S. reflexivity.
            * intros _. cbn [used made]. apply Forall_app. split.
              -- eapply Forall_impl; [|exact (H3 eq_refl)]. intros u (n & -> & Hn). exists n. split; [reflexivity | lia].
              -- constructor; [|constructor]. eexists. split; [reflexivity | lia]. }
      destruct (post loads supplied h j now late took f) as [[h' start] r] eqn:E. apply IH.
      assert (Hs : forall w t, sessions_ok supplied (mkHttp w t (own (client supplied h)) (made (client supplied h)) (closed (client supplied h)) (used (client supplied h))))
        by (intros; exact Hc).
      unfold post in E.
      assert (He : forall t, sessions_ok supplied (if waiting (client supplied h) then mkHttp true t (own (client supplied h)) (made (client supplied h)) (closed (client supplied h)) (used (client supplied h)) else client supplied h))
        by (intro t; destruct (waiting (client supplied h)); [apply Hs | exact Hc]).
      destruct f as [status body| | | | | |]; try (injection E as <- _ _; first [apply Hs | exact Hc]).
      destruct (status =? 200); [destruct j; [destruct (loads body)|]|]; injection E as <- _ _; first [apply He | exact Hc].
    - apply IH. destruct Hh as (H1 & H2 & H3). unfold close. destruct (own h) as [n|] eqn:Eo; [|split; [now rewrite Eo|]; split; assumption].
      split; [|split; [exact H2 | exact H3]]. cbn [closed own made]. now rewrite app_nil_r. }
  apply G. split; [reflexivity|]. split; [|intros _; constructor]. intros _. split; [reflexivity | constructor].
Qed.
Print Assumptions http_sessions.
(** After closing, nothing the client made is open. *)
Theorem http_closed : forall loads supplied es, own (fst (run loads supplied (es ++ [EClose]))) = None.
Proof.
  intros loads supplied es. unfold run. rewrite fold_left_app. destruct (fold_left _ es _) as [h xs]. cbn. unfold close.
  destruct (own h) eqn:E; [reflexivity | exact E].
Qed.
Print Assumptions http_closed.
Example http_sessions_ex :
  let h := fst (run (fun _ => None) false [EPost false 0 0 1 ok_reply; EClose; EPost false 5 0 1 ok_reply]) in
  closed h = [0%nat] /\ own h = Some 1%nat /\ used h = [Some 0%nat; Some 1%nat].
Proof. repeat split. Qed.

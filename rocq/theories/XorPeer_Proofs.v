(** The legacy client and a device.  No statement of record lives here. *)
From Coq Require Import Lia.
From Verif Require Import Base Base_Lemmas Xor_Model Xor_Spec Xor_Proofs XorPeer_Spec.
Open Scope list_scope.
Open Scope Z_scope.

Lemma bxor_N a b : bxor a b = ascii_of_N (N.lxor (bval a) (bval b)).
Proof. rewrite <- bxor_lxor. unfold bval. now rewrite ascii_N_embedding. Qed.
Lemma mask_payload p : forall k, mask k p = xor_payload k p.
Proof. induction p as [|b p IH]; intros k; cbn; [reflexivity|]. rewrite <- bxor_N. now rewrite IH. Qed.
Lemma unmask_payload p : forall k, unmask k p = xor_encrypted_payload k p.
Proof. induction p as [|b p IH]; intros k; cbn; [reflexivity|]. rewrite <- bxor_N. now rewrite IH. Qed.
Lemma unmask_mask p k : unmask k (mask k p) = p.
Proof. rewrite unmask_payload, mask_payload. apply xor_round_trip. Qed.

Lemma hears_encrypt m f : encrypt m = Ok f -> hears f = Some m.
Proof.
  intros E. assert (H : (N.of_nat (length m) < 2 ^ 32)%N).
  { destruct (N.ltb_spec (N.of_nat (length m)) (2 ^ 32)%N) as [H|H]; [exact H|]. rewrite xor_too_long_lemma in E by exact H. discriminate. }
  destruct (xor_frame_lemma m H) as (pre & pay & E' & L & V & Lp & _ & D).
  rewrite E in E'. injection E' as ->. unfold hears.
  assert (F : firstn 4 (pre ++ pay) = pre /\ skipn 4 (pre ++ pay) = pay).
  { destruct pre as [|? [|? [|? [|? [|? ?]]]]]; try discriminate. auto. }
  destruct F as (-> & ->). rewrite V, Lp, N.eqb_refl. f_equal. rewrite unmask_payload. exact D.
Qed.

Section Proofs.
Variable json_loads : bytes -> option json.
Variable S : Type.
Variable app : S -> bytes -> S * bytes.
Notation tg := (together json_loads S app).
Notation direc := (directly json_loads S app).
Notation und := (understood json_loads).

Lemma together_split es1 : forall x es2 y o, tg x (es1 ++ es2) y o ->
  exists y1 o1 o2, tg x es1 y1 o1 /\ tg y1 es2 y o2 /\ o = o1 ++ o2.
Proof.
  induction es1 as [|e es1 IH]; intros x es2 y o H; cbn [List.app] in H.
  - exists x, [], o. split; [constructor|auto].
  - inversion H; subst;
      match goal with H' : tg _ (es1 ++ es2) _ _ |- _ => destruct (IH _ _ _ _ H') as (y1 & o1 & o2 & A & B & ->) end;
      eexists _, _, _; (split; [econstructor; eassumption|split; [exact B|reflexivity]]).
Qed.
Lemma together_join x a y1 o1 b y o2 : tg x a y1 o1 -> tg y1 b y o2 -> tg x (a ++ b) y (o1 ++ o2).
Proof. induction 1; intros H'; cbn [List.app]; [exact H'|..]; econstructor; eauto. Qed.

Lemma send_ok t m rep c x t1 j arrived : send json json_loads t m rep c x = (t1, Ok j) ->
  reaches t c x arrived = true /\ exists f, encrypt m = Ok f.
Proof.
  unfold send, connect, reaches. intros H. destruct (writer t) as [u|] eqn:Ew.
  - unfold execute_send in H. rewrite Ew in H. destruct (encrypt m) as [f|e]; [|discriminate].
    destruct x as [|fl got ans]; [split; eauto|]. destruct fl; discriminate.
  - destruct c as [|fl [|]]; [|destruct fl; discriminate..]. cbn [writer] in H.
    unfold execute_send in H. destruct (encrypt m) as [f|e]; [|discriminate].
    destruct x as [|fl got ans]; [split; eauto|]. destruct fl; discriminate.
Qed.
Lemma send_well t m rep t1 r : Inv t -> (N.of_nat (length rep) < 2 ^ 32)%N -> (N.of_nat (length m) < 2 ^ 32)%N ->
  send json json_loads t m rep COk XOk = (t1, r) -> r = und rep.
Proof.
  intros (HI & _) Hr Hm. unfold send, connect.
  destruct (encrypt_ok m Hm) as (pm & Em & _). destruct (encrypt_ok rep Hr) as (pr & Er & _).
  assert (Hx : execute_send json json_loads [] m rep XOk =
     ([], match json_loads rep with Some j => inl j | None => inr FException end)).
  { unfold execute_send, device_frame. rewrite Em, Er. cbn [List.app].
    pose proof (read_frame_encrypt rep _ [] Er) as Q. rewrite app_nil_r in Q. rewrite Q. destruct (json_loads rep); reflexivity. }
  unfold understood.
  destruct HI as [Ew|Ew]; rewrite Ew; cbn [writer]; [|rewrite Ew]; rewrite Hx;
    destruct (json_loads rep); intros H; now injection H.
Qed.

Hypothesis fit : fits S app.

Lemma sent t s c x arrived m s1 answer t1 r : Inv t ->
  on_exchange S app t c x arrived m s = (s1, answer) -> send json json_loads t m answer c x = (t1, r) ->
  Inv t1 /\
  ((s1 = s /\ exists e, r = Err e) \/
   (s1 = fst (app s m) /\ (r = und (snd (app s m)) \/ exists e, r = Err e))) /\
  (c = COk /\ x = XOk /\ (N.of_nat (length m) < 2 ^ 32)%N -> s1 = fst (app s m) /\ r = und (snd (app s m))).
Proof.
  intros HI Hon Hs. unfold on_exchange in Hon.
  assert (Hf : (N.of_nat (length answer) < 2 ^ 32)%N).
  { destruct (if reaches t c x arrived then _ else None) as [q|]; [|injection Hon as <- <-; reflexivity].
    pose proof (fit s q) as Q. rewrite Hon in Q. exact Q. }
  pose proof (send_spec json_loads t m answer c x HI Hf) as (Q1 & Q2). rewrite Hs in Q1, Q2. cbn [fst snd] in Q1, Q2.
  split; [exact Q1|]. split.
  - destruct r as [j|e].
    + destruct (send_ok _ _ _ _ _ _ _ arrived Hs) as (R & f & Ef). rewrite R, Ef, (hears_encrypt _ _ Ef) in Hon.
      right. rewrite Hon. cbn [fst snd]. split; [reflexivity|]. left. unfold understood. now rewrite (proj1 Q2).
    + destruct (reaches t c x arrived); [|injection Hon as <- <-; left; eauto].
      destruct (encrypt m) as [f|e'] eqn:Ef; [|injection Hon as <- <-; left; eauto].
      rewrite (hears_encrypt _ _ Ef) in Hon. right. rewrite Hon. eauto.
  - intros (-> & -> & Hm). destruct (encrypt_ok m Hm) as (pm & Em & _).
    assert (R : reaches t COk XOk arrived = true) by (unfold reaches; destruct (writer t); reflexivity).
    rewrite R, Em, (hears_encrypt _ _ Em) in Hon. rewrite Hon. cbn [fst snd]. split; [reflexivity|].
    exact (send_well _ _ _ _ _ HI Hf Hm Hs).
Qed.

Lemma reset_Inv t : Inv t -> Inv (reset t).
Proof. intros (_ & H). apply (Inv_close json_loads t H). Qed.

Lemma together_once x es y o : tg x es y o -> Inv (fst x) ->
  Inv (fst y) /\ Forall (fun z : bytes * S * S * res json => let '(m, s, s1, r) := z in
    (s1 = s /\ exists e, r = Err e) \/
    (s1 = fst (app s m) /\ (r = und (snd (app s m)) \/ exists e, r = Err e))) o.
Proof.
  induction 1 as [x|t s t1 s1 y c x arrived answer m r es outs Hon Hs _ IH|t s y es outs _ IH|t s f y es outs _ IH];
    intros HI; cbn [fst] in *.
  - auto.
  - destruct (sent _ _ _ _ _ _ _ _ _ _ HI Hon Hs) as (I1 & P & _). destruct (IH I1) as (I2 & F). split; [exact I2|]. constructor; assumption.
  - apply IH. now apply reset_Inv.
  - now apply IH.
Qed.
Lemma together_healthy x es y o : tg x es y o -> Inv (fst x) -> all_healthy S es ->
  snd y = fst (direc (snd x) es) /\ map snd o = snd (direc (snd x) es).
Proof.
  induction 1 as [x|t s t1 s1 y c x arrived answer m r es outs Hon Hs _ IH|t s y es outs _ IH|t s f y es outs _ IH];
    intros HI Hh; cbn [fst snd] in *.
  - auto.
  - apply Forall_cons_iff in Hh. destruct Hh as (Hh & Hr).
    destruct (sent _ _ _ _ _ _ _ _ _ _ HI Hon Hs) as (I1 & _ & P). destruct (P Hh) as (-> & ->).
    destruct (IH I1 Hr) as (I2 & I3). cbn [directly map snd].
    destruct (app s m) as [s1 ans]. cbn [fst snd] in *. destruct (direc s1 es) as [s2 rs]. cbn [fst snd] in *.
    split; [exact I2|]. now rewrite I3.
  - apply Forall_inv_tail in Hh. cbn [directly]. apply IH; auto. now apply reset_Inv.
  - apply Forall_inv_tail in Hh. cbn [directly]. apply IH; auto.
Qed.
End Proofs.

(** The three transports with their devices, as runs.  No statement of record lives here. *)
From Verif Require Import Base Base_Lemmas Py Crypto_Model Stack_Spec Stack_Proofs.
From Verif Require Klap_Model Klap_Spec KlapPeer_Spec KlapPeer_Proofs Aes_Model AesPeer_Spec AesPeer_Proofs
  Cam_Model Cam_Spec CamPeer_Spec CamPeer_Proofs.

Section Aes.
Import Aes_Model AesPeer_Spec AesPeer_Proofs.
Variables enc_block dec_block : bytes -> bytes -> bytes.
Variable json_loads : bytes -> option json.
Variable open_key : json -> res bytes.
Variable login_text : bool -> bytes.
Variable S : Type.
Variable app : S -> bytes -> S * bytes.
Variable accepts : bytes -> bool.
Variable welcome : string -> bytes.
Variable refusal : bytes.
Notation tg := (together enc_block dec_block json_loads open_key login_text S app accepts welcome refusal).
Notation hp := (@aes_happenings S).
Notation direc := (directly json_loads S app).
Definition aes_runs (x : aes * device S) (es : list (deed S (option (string -> bool) * choice * world))) (y : aes * device S) o := tg x (hp es) y o.

Lemma aes_nil x y o : aes_runs x [] y o -> y = x /\ o = [].
Proof. intros H. inversion H; subst. auto. Qed.
Lemma aes_app x a b y o : aes_runs x (a ++ b) y o -> exists y1 o1 o2, aes_runs x a y1 o1 /\ aes_runs y1 b y o2 /\ o = o1 ++ o2.
Proof.
  unfold aes_runs, aes_happenings. rewrite flat_map_app. destruct x as [t d]. intros H.
  destruct (together_split _ _ _ _ _ _ _ _ _ _ _ _ _ _ _ _ H) as (t1 & d1 & o1 & o2 & A & B & E). exists (t1, d1), o1, o2. auto.
Qed.
Lemma aes_join x a y1 o1 b y o2 : tg x a y1 o1 -> tg y1 b y o2 -> tg x (a ++ b) y (o1 ++ o2).
Proof. induction 1; intros H'; cbn [List.app]; [exact H'|..]; econstructor; eauto. Qed.
Lemma aes_send x f c m y o : aes_runs x [DSend f c m] y o ->
  exists r, aes_client enc_block dec_block json_loads open_key login_text c m (fst x) = (fst y, r) /\
    o = [(m, f (dv_state (snd x)), dv_state (snd y), r)].
Proof.
  unfold aes_runs. destruct c as [[k h] w]. cbn [aes_happenings flat_map]. rewrite app_nil_r. cbn [List.app]. intros H.
  inversion H as [| | |t d f' x1 es outs H1|]; subst.
  assert (H0 : exists dd, dv_state dd = f (dv_state d) /\ tg (t, dd) [HSend h w m] y o).
  { destruct k as [keep|]; cbn [List.app] in H1; [|eexists; split; [|exact H1]; reflexivity].
    inversion H1; subst. eexists. split; [|eassumption]. reflexivity. }
  clear H H1. cbn [fst snd]. destruct H0 as (dd & <- & H1). inversion H1; subst.
  match goal with H2 : tg _ [] _ _ |- _ => inversion H2; subst end.
  eexists. split; [eassumption|reflexivity].
Qed.
Lemma aes_reset x y o : aes_runs x [DReset] y o ->
  fst y = reset (fst x) /\ dv_state (snd y) = dv_state (snd x) /\ o = [].
Proof.
  unfold aes_runs. cbn [aes_happenings flat_map List.app]. intros H. inversion H as [| |t d x1 es outs H1| |]; subst.
  inversion H1; subst. auto.
Qed.
Lemma aes_served_det h w b d p d1 : served enc_block dec_block S app accepts welcome refusal h w b d p d1 ->
  forall d2, served enc_block dec_block S app accepts welcome refusal h w b d p d2 -> d2 = d1.
Proof.
  induction 1; intros d2 H'; inversion H'; subst; [reflexivity|..];
    match goal with A : _ = (?u, _), B : _ = (?v, _) |- _ => rewrite A in B; injection B as <- end; auto.
Qed.
Lemma aes_det' x es y o : tg x es y o -> forall y' o', tg x es y' o' -> y' = y.
Proof.
  induction 1 as [x|t d t1 d1 x h w m r es outs Hs Hv Hm _ IH|t d x es outs _ IH|t d f x es outs _ IH|t d keep x es outs _ IH];
    intros y' o' H'; inversion H'; subst; [reflexivity| |eauto|eauto|eauto].
  match goal with A : send _ _ _ _ _ _ _ _ = (?t2, ?r2) |- _ => rewrite Hs in A; injection A as <- <- end.
  match goal with A : served _ _ _ _ _ _ _ _ _ _ _ _ ?d2 |- _ => apply (aes_served_det _ _ _ _ _ _ Hv) in A; subst d2 end. eauto.
Qed.
Lemma aes_det x es y o y' o' : aes_runs x es y o -> aes_runs x es y' o' -> y' = y.
Proof. intros H H'. exact (aes_det' _ _ _ _ H _ _ H'). Qed.
Lemma aes_directly s a b : fst (direc s (a ++ b)) = fst (direc (fst (direc s a)) b) /\
  snd (direc s (a ++ b)) = snd (direc s a) ++ snd (direc (fst (direc s a)) b).
Proof.
  revert s. induction a as [|e a IH]; intros s; [split; reflexivity|]. destruct e as [h w m| |f|keep]; cbn [List.app directly]; try apply IH.
  destruct (app s m) as [s1 ans]. destruct (IH s1) as (I1 & I2).
  destruct (direc s1 (a ++ b)), (direc s1 a). cbn [fst snd] in *. split; [exact I1|]. now rewrite I2.
Qed.

Hypothesis enc_length : forall key b, length b = block -> length (enc_block key b) = block.
Hypothesis dec_enc : forall key b, length b = block -> dec_block key (enc_block key b) = b.
Hypothesis speak : speaks json_loads S app welcome refusal.
Lemma aes_once x0 es y o : linked S (fst x0) (snd x0) -> aes_runs x0 es y o ->
  Forall (fun z : bytes * S * S * res json => let '(m, s, s1, r) := z in
    (s1 = s /\ exists e, r = Err e) \/
    (s1 = fst (app s m) /\ (r = understood json_loads (snd (app s m)) \/ exists e, r = Err e))) o.
Proof.
  intros HL H. destruct x0 as [t d].
  exact (proj2 (together_linked enc_block dec_block json_loads open_key login_text S app accepts welcome refusal
    enc_length dec_enc speak _ _ _ _ _ H HL)).
Qed.
Lemma aes_hp a b : hp (a ++ b) = hp a ++ hp b.
Proof. apply flat_map_app. Qed.
Lemma aes_direct x0 F es f c m y1 o1 y r : alive S (fst x0) (snd x0) -> knows login_text accepts -> all_healthy S (hp F) ->
  (exists rest, F = (es ++ [DSend f c m]) ++ rest) ->
  aes_runs x0 es y1 o1 -> aes_runs y1 [DSend f c m] y [(m, f (dv_state (snd y1)), dv_state (snd y), r)] ->
  dv_state (snd y) = fst (app (f (dv_state (snd y1))) m) /\ r = understood json_loads (snd (app (f (dv_state (snd y1))) m)).
Proof.
  intros HA Hk Hh (rest & E) H1 H2. destruct x0 as [t d]. cbn [fst snd] in HA.
  unfold all_healthy in Hh. rewrite E, aes_hp in Hh. apply Forall_app in Hh. destruct Hh as (Hh & _).
  pose proof (aes_join _ _ _ _ _ _ _ H1 H2) as H3. rewrite <- aes_hp in H3.
  destruct (together_alive _ _ _ _ _ _ _ _ _ _  enc_length dec_enc speak _ _ _ _ _ H3 HA Hk Hh) as (_ & A1 & A2).
  rewrite aes_hp in Hh, A1, A2. apply Forall_app in Hh. destruct Hh as (Hh & Hc).
  destruct (together_alive _ _ _ _ _ _ _ _ _ _  enc_length dec_enc speak _ _ _ _ _ H1 HA Hk Hh) as (_ & B1 & B2).
  destruct (aes_directly (dv_state d) (hp es) (hp [DSend f c m])) as (C1 & C2).
  rewrite C1 in A1. rewrite C2, map_app, <- B2 in A2. apply app_inv_head in A2. rewrite <- B1 in A1, A2.
  destruct c as [[[keep|] h] w]; [cbn [aes_happenings flat_map List.app] in Hc; apply Forall_inv_tail, Forall_inv in Hc; now destruct Hc|].
  cbn [aes_happenings flat_map List.app directly] in A1, A2.
  destruct (app (f (dv_state (snd y1))) m) as [s1 ans]. cbn [fst snd map] in *. split; [exact A1|]. now injection A2.
Qed.
End Aes.

Section Cam.
Import Cam_Model Cam_Spec CamPeer_Spec CamPeer_Proofs.
Variables enc_block dec_block : bytes -> bytes -> bytes.
Variable json_loads : bytes -> option json.
Variables md5_hex sha256_hex : bytes -> string.
Variable sha256 : bytes -> bytes.
Variable str_int : Z -> string.
Variable str_json : json -> string.
Variable wrap : bytes -> bytes.
Variable cfg : config.
Variables user pass : string.
Variable S : Type.
Variable app : S -> bytes -> S * bytes.
Notation tg := (together enc_block dec_block json_loads md5_hex sha256_hex sha256 str_int str_json wrap cfg user pass S app).
Notation hp := (@cam_happenings S).
Notation direc := (directly json_loads S app).
Definition cam_runs (x : cam * device S) (es : list (deed S (option (string -> bool) * choice * world))) (y : cam * device S) o := tg x (hp es) y o.

Lemma cam_nil x y o : cam_runs x [] y o -> y = x /\ o = [].
Proof. intros H. inversion H; subst. auto. Qed.
Lemma cam_app x a b y o : cam_runs x (a ++ b) y o -> exists y1 o1 o2, cam_runs x a y1 o1 /\ cam_runs y1 b y o2 /\ o = o1 ++ o2.
Proof.
  unfold cam_runs, cam_happenings. rewrite flat_map_app. destruct x as [t d]. intros H.
  destruct (together_split _ _ _ _ _ _ _ _ _ _ _ _ _ _ _ _ _ _ _ _ H) as (t1 & d1 & o1 & o2 & A & B & E). exists (t1, d1), o1, o2. auto.
Qed.
Lemma cam_join x a y1 o1 b y o2 : tg x a y1 o1 -> tg y1 b y o2 -> tg x (a ++ b) y (o1 ++ o2).
Proof. induction 1; intros H'; cbn [List.app]; [exact H'|..]; econstructor; eauto. Qed.
Lemma cam_send x f c m y o : cam_runs x [DSend f c m] y o ->
  exists r, cam_client enc_block dec_block json_loads md5_hex sha256_hex sha256 str_int str_json wrap cfg c m (fst x) = (fst y, r) /\
    o = [(m, f (dv_state (snd x)), dv_state (snd y), r)].
Proof.
  unfold cam_runs. destruct c as [[k h] w]. cbn [cam_happenings flat_map]. rewrite app_nil_r. cbn [List.app]. intros H.
  inversion H as [| | |t d f' x1 es outs H1|]; subst.
  assert (H0 : exists dd, dv_state dd = f (dv_state d) /\ tg (t, dd) [HSend h w m] y o).
  { destruct k as [keep|]; cbn [List.app] in H1; [|eexists; split; [|exact H1]; reflexivity].
    inversion H1; subst. eexists. split; [|eassumption]. reflexivity. }
  clear H H1. cbn [fst snd]. destruct H0 as (dd & <- & H1). inversion H1; subst.
  match goal with H2 : tg _ [] _ _ |- _ => inversion H2; subst end.
  eexists. split; [eassumption|reflexivity].
Qed.
Lemma cam_reset x y o : cam_runs x [DReset] y o ->
  fst y = reset (fst x) /\ dv_state (snd y) = dv_state (snd x) /\ o = [].
Proof.
  unfold cam_runs. cbn [cam_happenings flat_map List.app]. intros H. inversion H as [| |t d x1 es outs H1| |]; subst.
  inversion H1; subst. auto.
Qed.
Lemma cam_served_det h w d p d1 : served enc_block dec_block sha256_hex sha256 str_int wrap user pass S app h w d p d1 ->
  forall d2, served enc_block dec_block sha256_hex sha256 str_int wrap user pass S app h w d p d2 -> d2 = d1.
Proof.
  induction 1; intros d2 H'; inversion H'; subst; [reflexivity|..];
    match goal with A : _ = (?u, _), B : _ = (?v, _) |- _ => rewrite A in B; injection B as <- end; auto.
Qed.
Lemma cam_det' x es y o : tg x es y o -> forall y' o', tg x es y' o' -> y' = y.
Proof.
  induction 1 as [x|t d t1 d1 x h w m r es outs Hs Hv _ IH|t d x es outs _ IH|t d f x es outs _ IH|t d keep x es outs _ IH];
    intros y' o' H'; inversion H'; subst; [reflexivity| |eauto|eauto|eauto].
  match goal with A : send _ _ _ _ _ _ _ _ _ _ _ _ _ = (?t2, ?r2) |- _ => rewrite Hs in A; injection A as <- <- end.
  match goal with A : served _ _ _ _ _ _ _ _ _ _ _ _ _ _ ?d2 |- _ => apply (cam_served_det _ _ _ _ _ Hv) in A; subst d2 end. eauto.
Qed.
Lemma cam_det x es y o y' o' : cam_runs x es y o -> cam_runs x es y' o' -> y' = y.
Proof. intros H H'. exact (cam_det' _ _ _ _ H _ _ H'). Qed.
Lemma cam_directly s a b : fst (direc s (a ++ b)) = fst (direc (fst (direc s a)) b) /\
  snd (direc s (a ++ b)) = snd (direc s a) ++ snd (direc (fst (direc s a)) b).
Proof.
  revert s. induction a as [|e a IH]; intros s; [split; reflexivity|]. destruct e as [h w m| |f|keep]; cbn [List.app directly]; try apply IH.
  destruct (app s m) as [s1 ans]. destruct (IH s1) as (I1 & I2).
  destruct (direc s1 (a ++ b)), (direc s1 a). cbn [fst snd] in *. split; [exact I1|]. now rewrite I2.
Qed.

Hypothesis enc_length : forall key b, length b = block -> length (enc_block key b) = block.
Hypothesis dec_enc : forall key b, length b = block -> dec_block key (enc_block key b) = b.
Hypothesis sha_length : forall b, length (sha256 b) = 32%nat.
Hypothesis str_text : forall s, str_json (JStr s) = s.
Hypothesis speak : speaks json_loads S app.
Hypothesis named : user <> ""%string.
Lemma cam_once x0 es y o : linked cfg user S (fst x0) (snd x0) -> cam_runs x0 es y o ->
  Forall (fun z : bytes * S * S * res json => let '(m, s, s1, r) := z in
    (s1 = s /\ exists e, r = Err e) \/
    (s1 = fst (app s m) /\ (r = understood json_loads (snd (app s m)) \/ exists e, r = Err e))) o.
Proof.
  intros HL H. destruct x0 as [t d].
  exact (proj2 (together_linked enc_block dec_block json_loads md5_hex sha256_hex sha256 str_int str_json wrap cfg user pass S app
    enc_length dec_enc sha_length str_text speak named _ _ _ _ _ H HL)).
Qed.
Lemma cam_hp a b : hp (a ++ b) = hp a ++ hp b.
Proof. apply flat_map_app. Qed.
Lemma cam_direct x0 F es f c m y1 o1 y r : alive cfg user pass S (fst x0) (snd x0) -> knows md5_hex sha256_hex cfg user pass ->
  all_healthy md5_hex sha256_hex cfg S (hp F) ->
  (exists rest, F = (es ++ [DSend f c m]) ++ rest) ->
  cam_runs x0 es y1 o1 -> cam_runs y1 [DSend f c m] y [(m, f (dv_state (snd y1)), dv_state (snd y), r)] ->
  dv_state (snd y) = fst (app (f (dv_state (snd y1))) m) /\ r = understood json_loads (snd (app (f (dv_state (snd y1))) m)).
Proof.
  intros HA Hk Hh (rest & E) H1 H2. destruct x0 as [t d]. cbn [fst snd] in HA.
  unfold all_healthy in Hh. rewrite E, cam_hp in Hh. apply Forall_app in Hh. destruct Hh as (Hh & _).
  pose proof (cam_join _ _ _ _ _ _ _ H1 H2) as H3. rewrite <- cam_hp in H3.
  destruct (together_alive _ _ _ _ _ _ _ _ _ _ _ _ _ _  enc_length dec_enc sha_length str_text speak named _ _ _ _ _ H3 HA Hk Hh) as (A1 & A2).
  rewrite cam_hp in Hh, A1, A2. apply Forall_app in Hh. destruct Hh as (Hh & Hc).
  destruct (together_alive _ _ _ _ _ _ _ _ _ _ _ _ _ _  enc_length dec_enc sha_length str_text speak named _ _ _ _ _ H1 HA Hk Hh) as (B1 & B2).
  destruct (cam_directly (dv_state d) (hp es) (hp [DSend f c m])) as (C1 & C2).
  rewrite C1 in A1. rewrite C2, map_app, <- B2 in A2. apply app_inv_head in A2. rewrite <- B1 in A1, A2.
  destruct c as [[[keep|] h] w]; [cbn [cam_happenings flat_map List.app] in Hc; apply Forall_inv_tail, Forall_inv in Hc; now destruct Hc|].
  cbn [cam_happenings flat_map List.app directly] in A1, A2.
  destruct (app (f (dv_state (snd y1))) m) as [s1 ans]. cbn [fst snd map] in *. split; [exact A1|]. now injection A2.
Qed.
End Cam.

Section Klap.
Import Klap_Model Klap_Spec KlapPeer_Spec KlapPeer_Proofs.
Variables md5 sha1 sha256 : bytes -> bytes.
Variables enc_block dec_block : bytes -> bytes -> bytes.
Variable json_loads : bytes -> option (option json).
Variable S : Type.
Variable app : S -> bytes -> S * bytes.
Variable auth : bytes.
Variable c : config.
Notation tg := (together md5 sha1 sha256 enc_block dec_block json json_loads S app auth c).
Notation hp := (@klap_happenings S).
Notation direc := (directly json json_loads S app).
Definition klap_runs (x : transport * device S) (es : list (deed S (option (string -> bool) * choice * world))) (y : transport * device S) o := tg x (hp es) y o.

Lemma klap_nil x y o : klap_runs x [] y o -> y = x /\ o = [].
Proof. intros H. inversion H; subst. auto. Qed.
Lemma klap_split x a b y o : tg x (a ++ b) y o -> exists y1 o1 o2, tg x a y1 o1 /\ tg y1 b y o2 /\ o = o1 ++ o2.
Proof.
  revert x o. induction a as [|e a IH]; intros x o H; cbn [List.app] in H.
  - exists x, [], o. split; [constructor|]. split; [exact H|reflexivity].
  - inversion H; subst;
      match goal with HT : tg _ (a ++ b) y ?oo |- _ => destruct (IH _ _ HT) as (y1 & o1 & o2 & A & B & ->) end;
      exists y1; [exists ((m, dv_state d, dv_state d1, r) :: o1)|exists o1|exists o1|exists o1];
      exists o2; (split; [econstructor; eassumption|split; [exact B|reflexivity]]).
Qed.
Lemma klap_app x a b y o : klap_runs x (a ++ b) y o -> exists y1 o1 o2, klap_runs x a y1 o1 /\ klap_runs y1 b y o2 /\ o = o1 ++ o2.
Proof. unfold klap_runs, klap_happenings. rewrite flat_map_app. apply klap_split. Qed.
Lemma klap_join x a y1 o1 b y o2 : tg x a y1 o1 -> tg y1 b y o2 -> tg x (a ++ b) y (o1 ++ o2).
Proof. induction 1; intros H'; cbn [List.app]; [exact H'|..]; econstructor; eauto. Qed.
Lemma klap_sends x f c0 m y o : klap_runs x [DSend f c0 m] y o ->
  exists r, klap_client md5 sha1 sha256 enc_block dec_block json_loads c c0 m (fst x) = (fst y, r) /\
    o = [(m, f (dv_state (snd x)), dv_state (snd y), r)].
Proof.
  unfold klap_runs. destruct c0 as [[k h] w]. cbn [klap_happenings flat_map]. rewrite app_nil_r. cbn [List.app]. intros H.
  inversion H as [| | |t d f' x1 es outs H1|]; subst.
  assert (H0 : exists dd, dv_state dd = f (dv_state d) /\ tg (t, dd) [HSend h w m] y o).
  { destruct k as [keep|]; cbn [List.app] in H1; [|eexists; split; [|exact H1]; reflexivity].
    inversion H1; subst. eexists. split; [|eassumption]. reflexivity. }
  clear H H1. cbn [fst snd]. destruct H0 as (dd & <- & H1). inversion H1; subst.
  match goal with H2 : tg _ [] _ _ |- _ => inversion H2; subst end.
  eexists. split; [|reflexivity]. unfold klap_client. cbn [snd fst].
  match goal with A : klap_send _ _ _ _ _ _ _ _ _ _ _ = _ |- _ => rewrite A end. reflexivity.
Qed.
Lemma klap_resets x y o : klap_runs x [DReset] y o ->
  fst y = klap_reset (fst x) /\ dv_state (snd y) = dv_state (snd x) /\ o = [].
Proof.
  unfold klap_runs. cbn [klap_happenings flat_map List.app]. intros H. inversion H as [| |t d x1 es outs H1| |]; subst.
  inversion H1; subst. auto.
Qed.
Lemma klap_served_det h w d p d1 : served sha256 enc_block dec_block S app (c_version c) auth h w d p d1 ->
  forall d2, served sha256 enc_block dec_block S app (c_version c) auth h w d p d2 -> d2 = d1.
Proof.
  induction 1; intros d2 H'; inversion H'; subst; [reflexivity|..];
    match goal with A : _ = (?u, _), B : _ = (?v, _) |- _ => rewrite A in B; injection B as <- end; auto.
Qed.
Lemma klap_det' x es y o : tg x es y o -> forall y' o', tg x es y' o' -> y' = y.
Proof.
  induction 1 as [x|t d t1 d1 x h w m p r es outs Hs Hv Hm Ha _ IH|t d x es outs _ IH|t d f x es outs _ IH|t d keep x es outs _ IH];
    intros y' o' H'; inversion H'; subst; [reflexivity| |eauto|eauto|eauto].
  match goal with A : klap_send _ _ _ _ _ _ _ _ _ _ _ = (?t2, ?p2, ?r2) |- _ => rewrite Hs in A; injection A as <- <- <- end.
  match goal with A : served _ _ _ _ _ _ _ _ _ _ _ ?d2 |- _ => apply (klap_served_det _ _ _ _ _ Hv) in A; subst d2 end. eauto.
Qed.
Lemma klap_det x es y o y' o' : klap_runs x es y o -> klap_runs x es y' o' -> y' = y.
Proof. intros H H'. exact (klap_det' _ _ _ _ H _ _ H'). Qed.
Lemma klap_directly s a b : fst (direc s (a ++ b)) = fst (direc (fst (direc s a)) b) /\
  snd (direc s (a ++ b)) = snd (direc s a) ++ snd (direc (fst (direc s a)) b).
Proof.
  revert s. induction a as [|e a IH]; intros s; [split; reflexivity|]. destruct e as [h w m| |f|keep]; cbn [List.app directly]; try apply IH.
  destruct (app s m) as [s1 ans]. destruct (IH s1) as (I1 & I2).
  destruct (direc s1 (a ++ b)), (direc s1 a). cbn [fst snd] in *. split; [exact I1|]. now rewrite I2.
Qed.

Hypothesis sha256_length : forall m, length (sha256 m) = 32%nat.
Hypothesis enc_length : forall key b, length b = block -> length (enc_block key b) = block.
Hypothesis dec_enc : forall key b, length b = block -> dec_block key (enc_block key b) = b.
Lemma klap_once' x es y o : tg x es y o -> linked sha256 S auth (fst x) (snd x) ->
  Forall (fun z : bytes * S * S * res json => let '(m, s, s1, r) := z in
    (s1 = s /\ exists e, r = Err e) \/
    (s1 = fst (app s m) /\ (r = understood json json_loads (snd (app s m)) \/ exists e, r = Err e))) o.
Proof.
  induction 1 as [x|t d t1 d1 x h w m p r es outs Hk Hs Hm Ha _ IH|t d x es outs _ IH|t d f x es outs _ IH
                 |t d keep x es outs _ IH]; cbn [fst snd] in *; intros HL.
  - constructor.
  - destruct (send_linked md5 sha1 sha256 enc_block dec_block json json_loads S app auth c sha256_length enc_length dec_enc
               _ _ _ _ _ _ _ _ _ Hk Hs Hm Ha HL) as (L & E).
    constructor; [|apply IH, L]. destruct E as [E|(E1 & [E2|(e & _ & E3)])]; [now left|right; auto|right; eauto].
  - apply IH. intros D. discriminate.
  - apply IH. exact HL.
  - apply IH. intros D. destruct (HL D) as (s & k & l & r & T1 & T2 & T3 & T4 & T5 & T6).
    exists s, k, l, r. repeat (split; [assumption|]). intros x' Hx'. apply T6. eapply forget_at, Hx'.
Qed.
Lemma klap_once x0 es y o : linked sha256 S auth (fst x0) (snd x0) -> klap_runs x0 es y o ->
  Forall (fun z : bytes * S * S * res json => let '(m, s, s1, r) := z in
    (s1 = s /\ exists e, r = Err e) \/
    (s1 = fst (app s m) /\ (r = understood json json_loads (snd (app s m)) \/ exists e, r = Err e))) o.
Proof. intros HL H. exact (klap_once' _ _ _ _ H HL). Qed.
Lemma healthy_less n n' h w : (n' <= n)%nat -> healthy sha256 auth n h w -> healthy sha256 auth n' h w.
Proof. intros Hn (H1 & H2 & H3 & H4 & H5 & H6 & H7 & H8). repeat (split; [assumption|]). lia. Qed.
Lemma healthy_prefix a b : all_healthy sha256 S auth (a ++ b) -> all_healthy sha256 S auth a.
Proof.
  induction a as [|e a IH]; intros H; [exact I|]. destruct e as [h w m| |f|keep]; cbn [List.app all_healthy] in *; auto.
  destruct H as (H1 & H2). split; [|auto]. eapply healthy_less; [|exact H1]. cbn [length]. rewrite app_length. lia.
Qed.
Lemma klap_hp a b : hp (a ++ b) = hp a ++ hp b.
Proof. apply flat_map_app. Qed.
Lemma healthy_suffix a b : all_healthy sha256 S auth (a ++ b) -> all_healthy sha256 S auth b.
Proof.
  induction a as [|e a IH]; intros H; [exact H|]. destruct e as [h w m| |f|keep]; cbn [List.app all_healthy] in *; auto; [|now destruct H].
  now apply IH.
Qed.
Lemma klap_direct x0 F es f c0 m y1 o1 y r : (forall n, alive sha256 S auth n (fst x0) (snd x0)) ->
  In auth (candidates md5 sha1 sha256 c) -> all_healthy sha256 S auth (hp F) ->
  (exists rest, F = (es ++ [DSend f c0 m]) ++ rest) ->
  klap_runs x0 es y1 o1 -> klap_runs y1 [DSend f c0 m] y [(m, f (dv_state (snd y1)), dv_state (snd y), r)] ->
  dv_state (snd y) = fst (app (f (dv_state (snd y1))) m) /\ r = understood json json_loads (snd (app (f (dv_state (snd y1))) m)).
Proof.
  intros HA Hk Hh (rest & E) H1 H2.
  rewrite E, klap_hp in Hh. apply healthy_prefix in Hh.
  pose proof (klap_join _ _ _ _ _ _ _ H1 H2) as H3. rewrite <- klap_hp in H3.
  destruct (together_alive _ _ _ _ _ _ _ _ _ _ _ sha256_length enc_length dec_enc _ _ _ _ H3 Hk Hh (HA _)) as (A1 & A2).
  rewrite klap_hp in Hh, A1, A2. pose proof (healthy_suffix _ _ Hh) as Hc. apply healthy_prefix in Hh.
  destruct (together_alive _ _ _ _ _ _ _ _ _ _ _ sha256_length enc_length dec_enc _ _ _ _ H1 Hk Hh (HA _)) as (B1 & B2).
  destruct (klap_directly (dv_state (snd x0)) (hp es) (hp [DSend f c0 m])) as (C1 & C2).
  rewrite C1 in A1. rewrite C2, map_app, <- B2 in A2. apply app_inv_head in A2. rewrite <- B1 in A1, A2.
  destruct c0 as [[[keep|] h] w]; [cbn in Hc; now destruct Hc|].
  cbn [klap_happenings flat_map List.app directly] in A1, A2.
  destruct (app (f (dv_state (snd y1))) m) as [s1 ans]. cbn [fst snd map] in *. split; [exact A1|]. now injection A2.
Qed.
End Klap.

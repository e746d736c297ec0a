(** The three other transports with their devices, as runs.  No statement of record lives here. *)
From Verif Require Import Base Base_Lemmas Py Crypto_Model Stack_Spec Stack_Proofs Stack2_Spec.
From Verif Require Ssl_Model SslPeer_Spec SslPeer_Proofs Xor_Model Xor_Proofs XorPeer_Spec XorPeer_Proofs
  Linkie_Model LinkiePeer_Spec LinkiePeer_Proofs.

Section Ssl.
Import Ssl_Model SslPeer_Spec SslPeer_Proofs.
Variable json_loads : bytes -> option json.
Variable S : Type.
Variable app : S -> bytes -> S * bytes.
Variable accepts : bool -> bool.
Notation tg := (together json_loads S app accepts).
Notation hp := (@ssl_happenings S).
Notation direc := (directly json_loads S app).
Definition ssl_runs (x : ssl * device S) (es : list (deed S (option (string -> bool) * choice * world))) (y : ssl * device S) o := tg x (hp es) y o.

Lemma ssl_nil x y o : ssl_runs x [] y o -> y = x /\ o = [].
Proof. intros H. inversion H; subst. auto. Qed.
Lemma ssl_app x a b y o : ssl_runs x (a ++ b) y o -> exists y1 o1 o2, ssl_runs x a y1 o1 /\ ssl_runs y1 b y o2 /\ o = o1 ++ o2.
Proof. unfold ssl_runs, ssl_happenings. rewrite flat_map_app. apply together_split. Qed.
Lemma ssl_send x f c m y o : ssl_runs x [DSend f c m] y o ->
  exists r, ssl_client c m (fst x) = (fst y, r) /\ o = [(m, f (dv_state (snd x)), dv_state (snd y), r)].
Proof.
  unfold ssl_runs. destruct c as [[k h] w]. cbn [ssl_happenings flat_map]. rewrite app_nil_r. cbn [List.app]. intros H.
  inversion H as [| | |t d f' x1 es outs H1|]; subst.
  assert (H0 : exists dd, dv_state dd = f (dv_state d) /\ tg (t, dd) [HSend h w m] y o).
  { destruct k as [keep|]; cbn [List.app] in H1; [|eexists; split; [|exact H1]; reflexivity].
    inversion H1; subst. eexists. split; [|eassumption]. reflexivity. }
  clear H H1. cbn [fst snd]. destruct H0 as (dd & <- & H1). inversion H1; subst.
  match goal with H2 : tg _ [] _ _ |- _ => inversion H2; subst end.
  eexists. split; [eassumption|reflexivity].
Qed.
Lemma ssl_reset x y o : ssl_runs x [DReset] y o ->
  fst y = reset (fst x) /\ dv_state (snd y) = dv_state (snd x) /\ o = [].
Proof.
  unfold ssl_runs. cbn [ssl_happenings flat_map List.app]. intros H. inversion H as [| |t d x1 es outs H1| |]; subst.
  inversion H1; subst. auto.
Qed.
Lemma ssl_served_det h w d p d1 : served json_loads S app accepts h w d p d1 ->
  forall d2, served json_loads S app accepts h w d p d2 -> d2 = d1.
Proof.
  induction 1; intros d2 H'; inversion H'; subst; [reflexivity|..];
    match goal with A : _ = (?u, _), B : _ = (?v, _) |- _ => rewrite A in B; injection B as <- end; auto.
Qed.
Lemma ssl_det' x es y o : tg x es y o -> forall y' o', tg x es y' o' -> y' = y.
Proof.
  induction 1 as [x|t d t1 d1 x h w m r es outs Hs Hv _ IH|t d x es outs _ IH|t d f x es outs _ IH|t d keep x es outs _ IH];
    intros y' o' H'; inversion H'; subst; [reflexivity| |eauto|eauto|eauto].
  match goal with A : send _ _ _ = (?t2, ?r2) |- _ => rewrite Hs in A; injection A as <- <- end.
  match goal with A : served _ _ _ _ _ _ _ _ ?d2 |- _ => apply (ssl_served_det _ _ _ _ _ Hv) in A; subst d2 end. eauto.
Qed.
Lemma ssl_det x es y o y' o' : ssl_runs x es y o -> ssl_runs x es y' o' -> y' = y.
Proof. intros H H'. exact (ssl_det' _ _ _ _ H _ _ H'). Qed.
Lemma ssl_once x0 es y o : ssl_runs x0 es y o ->
  Forall (fun z : bytes * S * S * res json => let '(m, s, s1, r) := z in
    (s1 = s /\ exists e, r = Err e) \/
    (s1 = fst (app s m) /\ (r = understood json_loads (snd (app s m)) \/ exists e, r = Err e))) o.
Proof. intros H. exact (together_once _ _ _ _ _ _ _ _ H). Qed.
Lemma ssl_hp a b : hp (a ++ b) = hp a ++ hp b.
Proof. apply flat_map_app. Qed.
Lemma ssl_direct x0 F es f c m y1 o1 y r : alive S (fst x0) (snd x0) -> knows accepts -> all_healthy S (hp F) ->
  (exists rest, F = (es ++ [DSend f c m]) ++ rest) ->
  ssl_runs x0 es y1 o1 -> ssl_runs y1 [DSend f c m] y [(m, f (dv_state (snd y1)), dv_state (snd y), r)] ->
  dv_state (snd y) = fst (app (f (dv_state (snd y1))) m) /\ r = understood json_loads (snd (app (f (dv_state (snd y1))) m)).
Proof.
  intros HA Hk Hh (rest & E) H1 H2.
  unfold all_healthy in Hh. rewrite E, !ssl_hp in Hh. apply Forall_app in Hh. destruct Hh as (Hh & _).
  apply Forall_app in Hh. destruct Hh as (Hh & Hc).
  destruct (together_alive _ _ _ _ _ _ _ _ H1 HA Hk Hh) as (HA1 & _).
  destruct (together_alive _ _ _ _ _ _ _ _ H2 HA1 Hk Hc) as (_ & A1 & A2).
  destruct c as [[[keep|] h] w]; [cbn [ssl_happenings flat_map List.app] in Hc; apply Forall_inv_tail, Forall_inv in Hc; now destruct Hc|].
  cbn [ssl_happenings flat_map List.app directly] in A1, A2.
  destruct (app (f (dv_state (snd y1))) m) as [s1 ans]. cbn [fst snd map] in *. split; [exact A1|]. now injection A2.
Qed.
End Ssl.

Section Xor.
Import Xor_Model Xor_Proofs XorPeer_Spec XorPeer_Proofs.
Variable json_loads : bytes -> option json.
Variable S : Type.
Variable app : S -> bytes -> S * bytes.
Notation tg := (together json_loads S app).
Notation hp := (@xor_happenings S).
Definition same (s : S) : S := s.
Definition xor_runs (x : transport * S) (es : list (deed S (connect_fate * exec_fate * bool * bytes))) (y : transport * S) o := tg x (hp es) y o.

Lemma xor_nil x y o : xor_runs x [] y o -> y = x /\ o = [].
Proof. intros H. inversion H; subst. auto. Qed.
Lemma xor_app x a b y o : xor_runs x (a ++ b) y o -> exists y1 o1 o2, xor_runs x a y1 o1 /\ xor_runs y1 b y o2 /\ o = o1 ++ o2.
Proof. unfold xor_runs, xor_happenings. rewrite flat_map_app. apply together_split. Qed.
Lemma xor_send x f c m y o : xor_runs x [DSend f c m] y o ->
  exists r, xor_client json_loads c m (fst x) = (fst y, r) /\ o = [(m, f (snd x), snd y, r)].
Proof.
  unfold xor_runs. destruct c as [[[c x1] a] answer]. cbn [xor_happenings flat_map List.app]. intros H.
  inversion H as [| | |t s f' y' es outs H1]; subst. inversion H1; subst.
  match goal with H2 : tg _ [] _ _ |- _ => inversion H2; subst end.
  eexists. split; [eassumption|reflexivity].
Qed.
Lemma xor_reset x y o : xor_runs x [DReset] y o -> fst y = reset (fst x) /\ snd y = snd x /\ o = [].
Proof.
  unfold xor_runs. cbn [xor_happenings flat_map List.app]. intros H. inversion H as [| |t s y' es outs H1|]; subst.
  inversion H1; subst. auto.
Qed.
Lemma xor_det' x es y o : tg x es y o -> forall y' o', tg x es y' o' -> y' = y.
Proof.
  induction 1 as [x|t s t1 s1 y c x arrived answer m r es outs Hon Hs _ IH|t s y es outs _ IH|t s f y es outs _ IH];
    intros y' o' H'; inversion H'; subst; [reflexivity| |eauto|eauto].
  match goal with A : on_exchange _ _ _ _ _ _ _ _ = (?t2, ?r2) |- _ => rewrite Hon in A; injection A as <- end.
  match goal with A : send _ _ _ _ _ _ _ = (?t2, ?r2) |- _ => rewrite Hs in A; injection A as <- <- end. eauto.
Qed.
Lemma xor_det x es y o y' o' : xor_runs x es y o -> xor_runs x es y' o' -> y' = y.
Proof. intros H H'. exact (xor_det' _ _ _ _ H _ _ H'). Qed.
Hypothesis fit : fits S app.
Lemma xor_once x0 es y o : Inv (fst x0) -> xor_runs x0 es y o ->
  Forall (fun z : bytes * S * S * res json => let '(m, s, s1, r) := z in
    (s1 = s /\ exists e, r = Err e) \/
    (s1 = fst (app s m) /\ (r = understood json_loads (snd (app s m)) \/ exists e, r = Err e))) o.
Proof. intros HI H. exact (proj2 (together_once _ _ _ fit _ _ _ _ H HI)). Qed.
Lemma xor_hp a b : hp (a ++ b) = hp a ++ hp b.
Proof. apply flat_map_app. Qed.
Lemma xor_direct x0 F es f c m y1 o1 y r : Inv (fst x0) -> all_healthy S (hp F) ->
  (exists rest, F = (es ++ [DSend f c m]) ++ rest) ->
  xor_runs x0 es y1 o1 -> xor_runs y1 [DSend f c m] y [(m, f (snd y1), snd y, r)] ->
  snd y = fst (app (f (snd y1)) m) /\ r = understood json_loads (snd (app (f (snd y1)) m)).
Proof.
  intros HA Hh (rest & E) H1 H2.
  unfold all_healthy in Hh. rewrite E, !xor_hp in Hh. apply Forall_app in Hh. destruct Hh as (Hh & _).
  apply Forall_app in Hh. destruct Hh as (_ & Hc).
  destruct (together_once _ _ _ fit _ _ _ _ H1 HA) as (HA1 & _).
  destruct (together_healthy _ _ _ fit _ _ _ _ H2 HA1 Hc) as (A1 & A2).
  destruct c as [[[c x1] a] answer]. cbn [xor_happenings flat_map List.app directly] in A1, A2.
  destruct (app (f (snd y1)) m) as [s1 ans]. cbn [fst snd map] in *. split; [exact A1|]. now injection A2.
Qed.
End Xor.

Section Linkie.
Import Linkie_Model LinkiePeer_Spec LinkiePeer_Proofs.
Variable b64d : bytes -> res bytes.
Variable json_loads : bytes -> option json.
Variable S : Type.
Variable app : S -> bytes -> S * bytes.
Notation tg := (together b64d json_loads S app).
Notation hp := (@linkie_happenings S).
Definition linkie_runs (x : unit * S) (es : list (deed S (fate * res (Z * bytes)))) (y : unit * S) o := tg (snd x) (hp es) (snd y) o.

Lemma unit_eq (x y : unit * S) : snd x = snd y -> x = y.
Proof. destruct x as [[] a], y as [[] b]. cbn. congruence. Qed.
Lemma linkie_nil x y o : linkie_runs x [] y o -> y = x /\ o = [].
Proof. intros H. inversion H; subst. split; [now apply unit_eq|reflexivity]. Qed.
Lemma linkie_app x a b y o : linkie_runs x (a ++ b) y o -> exists y1 o1 o2, linkie_runs x a y1 o1 /\ linkie_runs y1 b y o2 /\ o = o1 ++ o2.
Proof.
  unfold linkie_runs, linkie_happenings. rewrite flat_map_app. intros H.
  destruct (together_split _ _ _ _ _ _ _ _ _ H) as (y1 & o1 & o2 & A). exists (tt, y1), o1, o2. exact A.
Qed.
Lemma linkie_send x f c m y o : linkie_runs x [DSend f c m] y o ->
  exists r, linkie_client b64d json_loads c m (fst x) = (fst y, r) /\ o = [(m, f (snd x), snd y, r)].
Proof.
  unfold linkie_runs, linkie_client. destruct c as [h r]. cbn [linkie_happenings flat_map List.app snd]. intros H.
  inversion H as [| | |s f' y' es outs H1]; subst. inversion H1; subst.
  match goal with H2 : tg _ [] _ _ |- _ => inversion H2; subst end.
  eexists. split; [|reflexivity]. destruct (fst y). f_equal. match goal with A : send _ _ _ _ _ _ = _ |- _ => now rewrite A end.
Qed.
Lemma linkie_resets x y o : linkie_runs x [DReset] y o -> fst y = linkie_reset (fst x) /\ snd y = snd x /\ o = [].
Proof.
  unfold linkie_runs. cbn [linkie_happenings flat_map List.app]. intros H. inversion H as [| |s y' es outs H1|]; subst.
  inversion H1; subst. destruct (fst y). auto.
Qed.
Lemma linkie_served_det f r s l s1 : served S app f r s l s1 -> forall s2, served S app f r s l s2 -> s2 = s1.
Proof.
  induction 1; intros d2 H'; inversion H'; subst; [reflexivity|].
  match goal with A : _ = (?u, _), B : _ = (?v, _) |- _ => rewrite A in B; injection B as <- end; auto.
Qed.
Lemma linkie_det' x es y o : tg x es y o -> forall y' o', tg x es y' o' -> y' = y.
Proof.
  induction 1 as [x|s s1 y f r m l o es outs Hs Hv _ IH|s y es outs _ IH|s f y es outs _ IH];
    intros y' o' H'; inversion H'; subst; [reflexivity| |eauto|eauto].
  match goal with A : send _ _ _ _ _ _ = (?t2, ?r2) |- _ => rewrite Hs in A; injection A as <- <- end.
  match goal with A : served _ _ _ _ _ _ ?d2 |- _ => apply (linkie_served_det _ _ _ _ _ Hv) in A; subst d2 end. eauto.
Qed.
Lemma linkie_det x es y o y' o' : linkie_runs x es y o -> linkie_runs x es y' o' -> y' = y.
Proof. intros H H'. apply unit_eq. exact (linkie_det' _ _ _ _ H _ _ H'). Qed.
Hypothesis b64 : forall m, b64d (b64encode m) = Ok m.
Lemma linkie_once x0 es y o : linkie_runs x0 es y o ->
  Forall (fun z : bytes * S * S * res json => let '(m, s, s1, r) := z in
    (s1 = s /\ exists e, r = Err e) \/
    (s1 = fst (app s m) /\ (r = understood json_loads (snd (app s m)) \/ exists e, r = Err e))) o.
Proof. intros H. exact (together_once _ _ _ _ b64 _ _ _ _ H). Qed.
Lemma linkie_hp a b : hp (a ++ b) = hp a ++ hp b.
Proof. apply flat_map_app. Qed.
Lemma linkie_direct (x0 : unit * S) F es f c m y1 o1 y r : all_healthy S (hp F) ->
  (exists rest, F = (es ++ [DSend f c m]) ++ rest) ->
  linkie_runs x0 es y1 o1 -> linkie_runs y1 [DSend f c m] y [(m, f (snd y1), snd y, r)] ->
  snd y = fst (app (f (snd y1)) m) /\ r = understood json_loads (snd (app (f (snd y1)) m)).
Proof.
  intros Hh (rest & E) H1 H2.
  unfold all_healthy in Hh. rewrite E, !linkie_hp in Hh. apply Forall_app in Hh. destruct Hh as (Hh & _).
  apply Forall_app in Hh. destruct Hh as (_ & Hc).
  destruct (together_healthy _ _ _ _ b64 _ _ _ _ H2 Hc) as (A1 & A2).
  destruct c as [h r']. cbn [linkie_happenings flat_map List.app directly] in A1, A2.
  destruct (app (f (snd y1)) m) as [s1 ans]. cbn [fst snd map] in *. split; [exact A1|]. now injection A2.
Qed.
End Linkie.

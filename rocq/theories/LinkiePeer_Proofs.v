(** The legacy camera's client and a camera.  No statement of record lives here. *)
From Coq Require Import Lia.
From Verif Require Import Base Base_Lemmas Py Crypto_Model Crypto_Proofs Linkie_Model XorPeer_Spec XorPeer_Proofs LinkiePeer_Spec.
From Verif Require Klap_Model Xor_Model Xor_Proofs.
Open Scope string_scope.
Open Scope list_scope.
Open Scope Z_scope.

Lemma form_char c rest : form_value (quote_char c ++ rest) = c :: form_value rest.
Proof. destruct c as [[] [] [] [] [] [] [] []]; reflexivity. Qed.
Lemma form_quote s : form_value (quote s) = s.
Proof.
  induction s as [|c s IH]; [reflexivity|]. unfold quote in *. cbn [flat_map]. rewrite form_char, IH. reflexivity.
Qed.
Lemma skipn4_app (a b : bytes) : length a = 4%nat -> skipn 4 (a ++ b) = b.
Proof. destruct a as [|? [|? [|? [|? [|? ?]]]]]; try discriminate. reflexivity. Qed.

Section Proofs.
Variable b64d : bytes -> res bytes.
Variable json_loads : bytes -> option json.
Variable S : Type.
Variable app : S -> bytes -> S * bytes.
Notation tg := (together b64d json_loads S app).
Notation direc := (directly json_loads S app).
Notation und := (understood json_loads).

Lemma together_split es1 : forall x es2 y o, tg x (es1 ++ es2) y o ->
  exists y1 o1 o2, tg x es1 y1 o1 /\ tg y1 es2 y o2 /\ o = o1 ++ o2.
Proof.
  induction es1 as [|e es1 IH]; intros x es2 y o H; cbn [List.app] in H.
  - exists x, [], o. split; [constructor|auto].
  - inversion H; subst;
      match goal with H' : tg _ (es1 ++ es2) _ _ |- _ => destruct (IH _ _ _ _ H') as (y1 & o1 & o2 & A & B & ->) end;
      eexists _, _, _; (split; [econstructor; eassumption|split; [exact B|reflexivity]]).
Qed.
Lemma together_join x a y1 o1 b y o2 : tg x a y1 o1 -> tg y1 b y o2 -> tg x (a ++ b) y (o1 ++ o2).
Proof. induction 1; intros H'; cbn [List.app]; [exact H'|..]; econstructor; eauto. Qed.

Hypothesis b64 : forall m, b64d (b64encode m) = Ok m.

Lemma send_cases r m : 
  (exists e, send b64d json json_loads r m [] = ([], Err e)) /\ (2 ^ 32 <= N.of_nat (length m))%N \/
  exists body, request_in body = Some m /\ (N.of_nat (length m) < 2 ^ 32)%N /\
    send b64d json json_loads r m [] = ([body],
      match r with
      | Err e => Err (if is_exception e then KRetry None else e)
      | Ok (status, response) =>
          if status =? 200 then
            match (let! b := b64d response in
                   match json_loads (Xor_Model.decrypt b) with Some j => Ok j | None => Err PyValueError end) with
            | Ok j => Ok j
            | Err _ => Err (KRetry None)
            end
          else Err (KRetry None)
      end).
Proof.
  destruct (N.ltb_spec (N.of_nat (length m)) (2 ^ 32)) as [H|H].
  - right. destruct (Xor_Proofs.encrypt_ok m H) as (pre & E & L & _).
    exists (Klap_Model.lit "content=" ++ quote (b64encode (Xor_Model.xor_payload Xor_Model.IV m))). split; [|split; [exact H|]].
    + unfold request_in. change (firstn 8 (Klap_Model.lit "content=" ++ ?x)) with (Klap_Model.lit "content=").
      change (skipn 8 (Klap_Model.lit "content=" ++ ?x)) with x. rewrite form_quote, b64_round_trip.
      destruct (list_eq_dec ascii_dec _ _) as [_|N]; [|now destruct N].
      f_equal. rewrite unmask_payload. apply Xor_Proofs.xor_round_trip.
    + unfold send, execute_send, mbind, mlift. rewrite E, skipn4_app by exact L.
      destruct r as [[st b]|e]; [|reflexivity]. destruct (st =? 200); [|reflexivity]. cbn [negb].
      destruct (b64d b) as [x|]; [|reflexivity]. cbn [bind]. destruct (json_loads (Xor_Model.decrypt x)); reflexivity.
  - left. split; [|exact H]. unfold send, execute_send, mbind, mlift. rewrite Xor_Proofs.xor_too_long_lemma by exact H.
    cbn [is_exception]. eauto.
Qed.

Lemma sent f r m s l s1 o : send b64d json json_loads r m [] = (l, o) -> served S app f r s l s1 ->
  ((s1 = s /\ exists e, o = Err e) \/
   (s1 = fst (app s m) /\ (o = und (snd (app s m)) \/ exists e, o = Err e))) /\
  (f = Answered /\ (N.of_nat (length m) < 2 ^ 32)%N -> s1 = fst (app s m) /\ o = und (snd (app s m))).
Proof.
  intros Hs Hv. destruct (send_cases r m) as [((e & E) & Hl)|(body & Hb & Hl & E)]; rewrite E in Hs; injection Hs as <- Ho.
  - inversion Hv; subst. split; [left; eauto|]. intros (_ & H). lia.
  - inversion Hv as [|? s2 ? ? ? Hon Hv']; subst. inversion Hv'; subst. clear Hv Hv' E.
    unfold on_post in Hon. rewrite Hb in Hon. destruct (app s m) as [sa answer]. cbn [fst snd] in *.
    destruct f as [|e|e]; cbn [lost fst snd] in Hon; injection Hon as <- <-.
    + assert (Q : forall X, (let! b := b64d (answered answer) in X b) = X (mask first_key answer) :> res json).
      { intros X. unfold answered. now rewrite b64. }
      cbn [Z.eqb Pos.eqb]. rewrite Q. rewrite mask_payload. unfold Xor_Model.decrypt, first_key.
      change (ascii_of_N 171) with Xor_Model.IV. rewrite Xor_Proofs.xor_round_trip.
      unfold understood. destruct (json_loads answer); auto.
    + split; [left; eauto|]. intros (D & _). discriminate.
    + split; [right; eauto|]. intros (D & _). discriminate.
Qed.

Lemma together_once x es y o : tg x es y o ->
  Forall (fun z : bytes * S * S * res json => let '(m, s, s1, r) := z in
    (s1 = s /\ exists e, r = Err e) \/
    (s1 = fst (app s m) /\ (r = und (snd (app s m)) \/ exists e, r = Err e))) o.
Proof.
  induction 1; [constructor| |assumption..]. constructor; [|assumption].
  match goal with A : send _ _ _ _ _ _ = _, B : served _ _ _ _ _ _ _ |- _ => exact (proj1 (sent _ _ _ _ _ _ _ A B)) end.
Qed.
Lemma together_healthy x es y o : tg x es y o -> all_healthy S es ->
  y = fst (direc x es) /\ map snd o = snd (direc x es).
Proof.
  induction 1 as [x|s s1 y f r m l o es outs Hs Hv _ IH|s y es outs _ IH|s f y es outs _ IH]; intros Hh.
  - auto.
  - apply Forall_cons_iff in Hh. destruct Hh as (Hh & Hr).
    destruct (sent _ _ _ _ _ _ _ Hs Hv) as (_ & P). destruct (P Hh) as (-> & ->).
    destruct (IH Hr) as (I2 & I3). cbn [directly map snd].
    destruct (app s m) as [s1 ans]. cbn [fst snd] in *. destruct (direc s1 es) as [s2 rs]. cbn [fst snd] in *.
    split; [exact I2|]. now rewrite I3.
  - apply Forall_inv_tail in Hh. cbn [directly]. now apply IH.
  - apply Forall_inv_tail in Hh. cbn [directly]. now apply IH.
Qed.
End Proofs.

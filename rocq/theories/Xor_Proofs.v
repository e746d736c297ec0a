From Verif Require Import Base Base_Lemmas Xor_Model Xor_Spec.
From Coq Require Import Lia ZifyNat ZifyN ZifyBool.
Ltac Zify.zify_post_hook ::= Z.div_mod_to_equations.

Lemma bxor_cancel a b : bxor a (bxor a b) = b.
Proof.
  destruct a, b; cbn [bxor].
  rewrite <- !xorb_assoc, !xorb_nilpotent, !xorb_false_l. reflexivity.
Qed.

Definition all_bytes : list ascii := map (fun n => ascii_of_N (N.of_nat n)) (seq 0 256).

Lemma all_bytes_complete b : In b all_bytes.
Proof.
  unfold all_bytes. apply in_map_iff. exists (N.to_nat (N_of_ascii b)). split.
  - rewrite N2Nat.id. apply ascii_N_embedding.
  - apply in_seq. assert (N_of_ascii b < 256)%N by apply N_ascii_bounded. lia.
Qed.

Lemma bxor_lxor_all :
  forallb (fun a => forallb (fun b => N.eqb (bval (bxor a b)) (N.lxor (bval a) (bval b)))
                            all_bytes) all_bytes = true.
Proof. vm_compute. reflexivity. Qed.

Lemma bxor_lxor a b : bval (bxor a b) = N.lxor (bval a) (bval b).
Proof.
  pose proof bxor_lxor_all as H. rewrite forallb_forall in H.
  specialize (H a (all_bytes_complete a)). rewrite forallb_forall in H.
  specialize (H b (all_bytes_complete b)). now apply N.eqb_eq in H.
Qed.

Lemma xor_payload_length k l : length (xor_payload k l) = length l.
Proof. revert k; induction l as [|b l IH]; intros k; cbn; [reflexivity|now rewrite IH]. Qed.

Lemma xor_round_trip l : forall k, xor_encrypted_payload k (xor_payload k l) = l.
Proof.
  induction l as [|b l IH]; intros k; cbn; [reflexivity|].
  now rewrite bxor_cancel, IH.
Qed.

Lemma xor_payload_wire l : forall k i p, nth_error l i = Some p ->
  exists prev c, nth_error (k :: xor_payload k l) i = Some prev /\
    nth_error (xor_payload k l) i = Some c /\ bval c = N.lxor (bval prev) (bval p).
Proof.
  induction l as [|b l IH]; intros k i p H; [destruct i; discriminate|].
  destruct i as [|i]; cbn in H.
  - injection H as ->. exists k, (bxor k p). cbn. split; [reflexivity|]. split; [reflexivity|].
    apply bxor_lxor.
  - destruct (IH (bxor k b) i p H) as [prev [c [H1 [H2 H3]]]].
    exists prev, c. cbn [xor_payload nth_error]. auto.
Qed.

Lemma bval_ascii n : (n < 256)%N -> bval (ascii_of_N n) = n.
Proof. intros H; apply N_ascii_embedding; exact H. Qed.

Lemma pack_ok n : (n < 2 ^ 32)%N -> exists b3 b2 b1 b0,
  pack_u32 n = Ok [b3; b2; b1; b0] /\
  (bval b3 * 16777216 + bval b2 * 65536 + bval b1 * 256 + bval b0 = n)%N.
Proof.
  intros H. unfold pack_u32.
  destruct (n <? 2 ^ 32)%N eqn:E; [|apply N.ltb_ge in E; lia].
  do 4 eexists; split; [reflexivity|].
  rewrite !bval_ascii by (apply N.mod_lt; discriminate).
  change (2 ^ 32)%N with 4294967296%N in H. lia.
Qed.

Lemma unpack_pack n b : pack_u32 n = Ok b -> unpack_u32 b = Ok n /\ length b = 4 /\ (n < 2 ^ 32)%N.
Proof.
  intros H. assert (Hn : (n < 2 ^ 32)%N).
  { unfold pack_u32 in H. destruct (n <? 2 ^ 32)%N eqn:E; [now apply N.ltb_lt|discriminate]. }
  destruct (pack_ok n Hn) as (b3 & b2 & b1 & b0 & Hp & Hv).
  rewrite Hp in H. injection H as <-. cbn [unpack_u32 length]. rewrite Hv. auto.
Qed.

Lemma encrypt_ok r : (N.of_nat (length r) < 2 ^ 32)%N ->
  exists prefix, encrypt r = Ok (prefix ++ xor_payload IV r) /\
    length prefix = 4 /\ pack_u32 (N.of_nat (length r)) = Ok prefix.
Proof.
  intros H. unfold encrypt. destruct (pack_ok _ H) as (b3 & b2 & b1 & b0 & Hp & _).
  rewrite Hp. cbn [bind]. eexists; split; [reflexivity|split; reflexivity].
Qed.

Lemma xor_frame_lemma r : (N.of_nat (length r) < 2 ^ 32)%N ->
  exists prefix payload,
    encrypt r = Ok (prefix ++ payload) /\
    length prefix = 4 /\ be_value prefix = N.of_nat (length r) /\
    length payload = length r /\ wire_format r payload /\ decrypt payload = r.
Proof.
  intros H. unfold encrypt. destruct (pack_ok _ H) as (b3 & b2 & b1 & b0 & Hp & Hv).
  rewrite Hp. cbn [bind]. exists [b3; b2; b1; b0], (xor_payload IV r).
  split; [reflexivity|]. split; [reflexivity|]. split.
  { unfold be_value; cbn [fold_left]. lia. }
  split; [apply xor_payload_length|]. split.
  - split; [apply xor_payload_length|]. intros i p Hi. apply xor_payload_wire; exact Hi.
  - apply xor_round_trip.
Qed.

Lemma xor_too_long_lemma r : (2 ^ 32 <= N.of_nat (length r))%N -> encrypt r = Err PyStructError.
Proof.
  intros H. unfold encrypt, pack_u32.
  destruct (N.of_nat (length r) <? 2 ^ 32)%N eqn:E; [apply N.ltb_lt in E; lia|reflexivity].
Qed.

Lemma readexactly_app a b : readexactly (length a) (a ++ b) = Some (a, b).
Proof.
  unfold readexactly. rewrite app_length.
  destruct (Nat.leb_spec (length a) (length a + length b)) as [_|H]; [|lia].
  rewrite firstn_app, firstn_all, Nat.sub_diag, skipn_app, skipn_all, Nat.sub_diag.
  cbn. now rewrite app_nil_r.
Qed.

Lemma read_frame_encrypt r f rest : encrypt r = Ok f -> read_frame (f ++ rest) = Some (r, rest).
Proof.
  intros H. unfold encrypt in H.
  destruct (pack_u32 (N.of_nat (length r))) as [prefix|] eqn:E; cbn [bind] in H; [|discriminate].
  injection H as <-. destruct (unpack_pack _ _ E) as [Hu [Hl Hn]].
  unfold read_frame. rewrite <- app_assoc.
  rewrite <- Hl, readexactly_app, Hu.
  rewrite app_length, xor_payload_length.
  destruct (N.leb_spec (N.of_nat (length r)) (N.of_nat (length r + length rest))) as [_|H]; [|lia].
  rewrite Nat2N.id. rewrite <- (xor_payload_length IV r) at 1.
  rewrite readexactly_app. unfold decrypt. now rewrite xor_round_trip.
Qed.

Fixpoint encrypt_all (rs : list bytes) : res bytes :=
  match rs with
  | [] => Ok []
  | r :: rs' => let! f := encrypt r in let! fs := encrypt_all rs' in Ok (f ++ fs)
  end.

Lemma read_frames_concat rs : forall fs rest,
  Forall2 (fun r f => encrypt r = Ok f) rs fs ->
  read_frames (length rs) (concat fs ++ rest) = Some (rs, rest).
Proof.
  induction rs as [|r rs IH]; intros fs rest H; inversion H as [|? f ? fs' H1 H2]; subst.
  - reflexivity.
  - cbn [concat length read_frames]. rewrite <- app_assoc, (read_frame_encrypt _ _ _ H1).
    rewrite (IH fs' rest H2). reflexivity.
Qed.

Lemma frames_unambiguous_lemma r1 r2 f1 f2 x y :
  encrypt r1 = Ok f1 -> encrypt r2 = Ok f2 -> f1 ++ x = f2 ++ y -> r1 = r2 /\ f1 = f2 /\ x = y.
Proof.
  intros H1 H2 He.
  pose proof (read_frame_encrypt _ _ x H1) as E1.
  pose proof (read_frame_encrypt _ _ y H2) as E2.
  rewrite He in E1. rewrite E1 in E2. injection E2 as -> ->.
  split; [reflexivity|]. split; [congruence|reflexivity].
Qed.

Section T.
Context {J : Type} (loads : bytes -> option J).
Notation run := (run J loads).
Notation step := (step J loads).
Notation send := (send J loads).

(** Nothing is left unread on an open connection, and no connection is leaked. *)
Definition Inv (t : transport) : Prop :=
  (writer t = None \/ writer t = Some []) /\
  opened t = closed t + match writer t with Some _ => 1 | None => 0 end.

Lemma Inv_close t : opened t = closed t + match writer t with Some _ => 1 | None => 0 end ->
  Inv (close_without_wait t) /\ writer (close_without_wait t) = None.
Proof.
  unfold Inv, close_without_wait. destruct (writer t) as [u|]; cbn; intros H.
  - split; [split; [now left|lia]|reflexivity].
  - split; [split; [now left|lia]|reflexivity].
Qed.

Lemma send_spec t req rep c x : Inv t -> (N.of_nat (length rep) < 2 ^ 32)%N ->
  Inv (fst (send t req rep c x)) /\
  match snd (send t req rep c x) with
  | Ok j => loads rep = Some j /\ writer (fst (send t req rep c x)) = Some []
  | Err e => transport_error e /\ writer (fst (send t req rep c x)) = None
  end.
Proof.
  intros [Hw Hc] Hrep. unfold Xor_Model.send.
  assert (Hframe : exists f, device_frame rep = f /\ encrypt rep = Ok f).
  { destruct (encrypt_ok rep Hrep) as [p [Hp _]]. unfold device_frame. rewrite Hp. eauto. }
  destruct Hframe as [f [Hf He]].
  assert (Hconn : exists t1 o, connect t c = (t1, o) /\
            opened t1 = closed t1 + (match writer t1 with Some _ => 1 | None => 0 end) /\
            (o = None -> writer t1 = Some [])).
  { unfold connect. destruct (writer t) as [u|] eqn:Ew.
    - do 2 eexists; split; [reflexivity|]. rewrite Ew. split; [exact Hc|].
      intros _. destruct Hw as [Hw|Hw]; congruence.
    - destruct c as [|fl [|]]; do 2 eexists; (split; [reflexivity|]); cbn; (split; [lia|]); congruence. }
  destruct Hconn as (t1 & o & Hco & Hc1 & Ho). rewrite Hco.
  destruct o as [fl|].
  - destruct (Inv_close t1 Hc1) as [HI Hn].
    destruct fl; cbn [fst snd connect_exn]; unfold reset; unfold transport_error; auto 10.
  - rewrite (Ho eq_refl) in *.
    assert (Hex : forall u', Inv (close_without_wait (mkT (Some u') (opened t1) (closed t1))) /\
               writer (close_without_wait (mkT (Some u') (opened t1) (closed t1))) = None).
    { intros u'. apply Inv_close; cbn. exact Hc1. }
    unfold execute_send. destruct (encrypt req) as [fr|] eqn:Er.
    + destruct x as [|fl got ans].
      * cbn [app]. rewrite Hf. pose proof (read_frame_encrypt rep f [] He) as Hr.
        rewrite app_nil_r in Hr. rewrite Hr.
        destruct (loads rep) as [j|] eqn:Ej; cbn [fst snd].
        -- split; [split; cbn; [now right|exact Hc1]|]. auto.
        -- destruct (Hex []) as [HI Hn]. unfold reset. cbn [exec_exn]. unfold transport_error. auto 10.
      * match goal with |- context [Some ?u'] => destruct (Hex u') as [HI Hn] end.
        destruct fl; cbn [fst snd exec_exn]; unfold reset; unfold transport_error; auto 10.
    + destruct (Hex []) as [HI Hn]. cbn [fst snd exec_exn]. unfold reset, transport_error. auto 10.
Qed.

Lemma step_Inv t e : Inv t -> reply_fits e -> Inv (fst (step t e)).
Proof.
  intros HI He. destruct e as [req rep c x| |]; cbn [Xor_Model.step reply_fits] in *.
  - pose proof (send_spec t req rep c x HI He) as [H _].
    destruct (send t req rep c x); exact H.
  - apply Inv_close, HI.
  - apply Inv_close, HI.
Qed.

Lemma step_own t e : Inv t -> reply_fits e -> own_reply loads e (snd (step t e)).
Proof.
  intros HI He. destruct e as [req rep c x| |]; cbn [Xor_Model.step reply_fits own_reply] in *; auto.
  pose proof (send_spec t req rep c x HI He) as [_ H].
  destruct (send t req rep c x) as [t' [j|e]]; cbn in *; tauto.
Qed.

Lemma run_own es : forall t, Inv t -> Forall reply_fits es ->
  Forall2 (own_reply loads) es (snd (run t es)) /\ Inv (fst (run t es)).
Proof.
  induction es as [|e es IH]; intros t HI HF; cbn [Xor_Model.run].
  - split; [constructor|exact HI].
  - inversion HF as [|? ? H1 H2]; subst.
    pose proof (step_Inv t e HI H1) as Hs. pose proof (step_own t e HI H1) as Ho.
    destruct (step t e) as [t1 o]; cbn [fst snd] in *.
    specialize (IH t1 Hs H2). destruct (run t1 es) as [t2 os]; cbn [fst snd] in *.
    destruct IH as [IH1 IH2]. split; [constructor; assumption|exact IH2].
Qed.

Lemma Inv_init : Inv init.
Proof. split; cbn; auto. Qed.

Lemma run_app es1 : forall t es2, fst (run t (es1 ++ es2)) = fst (run (fst (run t es1)) es2).
Proof.
  induction es1 as [|e es IH]; intros t es2; cbn [Xor_Model.run app fst]; [reflexivity|].
  destruct (step t e) as [t1 o]. specialize (IH t1 es2).
  destruct (run t1 (es ++ es2)) as [t2 os]; destruct (run t1 es) as [t3 os']. cbn [fst] in *. exact IH.
Qed.

Lemma xor_own_reply_lemma es : Forall reply_fits es ->
  Forall2 (own_reply loads) es (snd (run init es)).
Proof. intros H. apply run_own; [apply Inv_init|exact H]. Qed.

Lemma xor_reachable_lemma es t : Forall reply_fits es -> fst (run init es) = t -> Inv t.
Proof. intros H <-. apply (run_own es init Inv_init H). Qed.

Lemma xor_clean_exchange_lemma es req rep j :
  Forall reply_fits es ->
  (N.of_nat (length req) < 2 ^ 32)%N -> (N.of_nat (length rep) < 2 ^ 32)%N ->
  loads rep = Some j ->
  snd (send (fst (run init es)) req rep COk XOk) = Ok j.
Proof.
  intros HF Hq Hr Hj. pose proof (xor_reachable_lemma es _ HF eq_refl) as [Hw _].
  set (t := fst (run init es)) in *. unfold Xor_Model.send, connect.
  destruct (encrypt_ok req Hq) as [p [Hp _]].
  destruct (encrypt_ok rep Hr) as [q [Hq' _]].
  assert (Hrf : forall u, u = @nil ascii -> read_frame (u ++ device_frame rep) = Some (rep, [])).
  { intros u ->. unfold device_frame. rewrite Hq'. cbn [app].
    pose proof (read_frame_encrypt _ _ [] Hq') as E. now rewrite app_nil_r in E. }
  destruct Hw as [Hw|Hw]; rewrite Hw; cbn [writer]; [|rewrite Hw];
    unfold execute_send; rewrite Hp, (Hrf _ eq_refl), Hj; reflexivity.
Qed.

Lemma xor_failure_drops_lemma es req rep c x e :
  Forall reply_fits es -> (N.of_nat (length rep) < 2 ^ 32)%N ->
  snd (send (fst (run init es)) req rep c x) = Err e ->
  let t' := fst (send (fst (run init es)) req rep c x) in
  writer t' = None /\ opened t' = closed t' /\ transport_error e.
Proof.
  intros HF Hr He t'. pose proof (xor_reachable_lemma es _ HF eq_refl) as HI.
  pose proof (send_spec _ req rep c x HI Hr) as [H1 H2]. rewrite He in H2. fold t' in H1, H2.
  destruct H2 as [H2 H3]. destruct H1 as [_ H1]. rewrite H3 in H1. split; [exact H3|]. split; [lia|exact H2].
Qed.

(** Failure while connecting, from a state without a connection. *)
Lemma xor_connect_class_lemma t req rep f est x : writer t = None ->
  snd (send t req rep (CFail f est) x) = Err (caller_sees true f).
Proof.
  intros Hw. unfold Xor_Model.send, connect. rewrite Hw.
  destruct est, f; reflexivity.
Qed.

(** Failure during the exchange. *)
Lemma xor_exec_class_lemma es req rep f n a :
  Forall reply_fits es -> (N.of_nat (length req) < 2 ^ 32)%N ->
  snd (send (fst (run init es)) req rep COk (XFail f n a)) = Err (caller_sees false f).
Proof.
  intros HF Hq. pose proof (xor_reachable_lemma es _ HF eq_refl) as [Hw _].
  set (t := fst (run init es)) in *. unfold Xor_Model.send, connect.
  destruct (encrypt_ok req Hq) as [p [Hp _]].
  destruct Hw as [Hw|Hw]; rewrite Hw; cbn [writer]; [|rewrite Hw];
    unfold execute_send; rewrite Hp; destruct f; reflexivity.
Qed.
End T.

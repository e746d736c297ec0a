(** Proofs about discovery. *)
From Verif Require Import Base Base_Lemmas Py Xor_Model Factory_Model Factory_Spec Factory_Proofs Disc_Model Disc_Spec.
Open Scope string_scope.
Open Scope list_scope.
Open Scope Z_scope.

Section Disc.
Variable V : env.
Variable O : options.

Lemma handle_recorded s ip : recorded (handle_event O s) ip = recorded s ip.
Proof. unfold handle_event. destruct (is_seen _ _); reflexivity. Qed.
Lemma handle_callbacks s : callbacks (handle_event O s) = callbacks s.
Proof. unfold handle_event. destruct (is_seen _ _); reflexivity. Qed.
Lemma handle_seen s : seen (handle_event O s) = seen s.
Proof. unfold handle_event. destruct (is_seen _ _); reflexivity. Qed.
Lemma tick_recorded s ip : recorded (tick O s) ip = recorded s ip.
Proof. unfold tick. destruct (_ && _); reflexivity. Qed.
Lemma tick_callbacks s : callbacks (tick O s) = callbacks s.
Proof. unfold tick. destruct (_ && _); reflexivity. Qed.
Lemma tick_seen s : seen (tick O s) = seen s.
Proof. unfold tick. destruct (_ && _); reflexivity. Qed.

(** The callbacks of a reply. *)
Definition cbs_of (ip : string) (x : list callback * res (option found)) : list callback :=
  fst x ++ match verdict_of (snd x) with
           | Device d => if has_on_discovered O then [CDiscovered ip d] else []
           | Unsupported => if has_on_unsupported O then [CUnsupported ip] else []
           | _ => []
           end.

Lemma datagram_spec s data ip port : is_seen ip s = false ->
  let s' := fst (datagram V O s data ip port) in let x := read_datagram V O data ip port in
  seen s' = ip :: seen s /\ callbacks s' = callbacks s ++ cbs_of ip x /\
  discovered s' = (match verdict_of (snd x) with Device d => dset ip d (discovered s) | _ => discovered s end) /\
  unsupported s' = (match verdict_of (snd x) with Unsupported => dset ip KUnsupported (unsupported s) | _ => unsupported s end) /\
  invalid s' = (match verdict_of (snd x) with Invalid e => dset ip e (invalid s) | _ => invalid s end).
Proof.
  intros Hs s' x. subst s'. unfold datagram. rewrite Hs. fold x. unfold cbs_of. destruct x as [cbs r]. cbn [fst snd].
  assert (H : forall s0, discovered (handle_event O s0) = discovered s0 /\ unsupported (handle_event O s0) = unsupported s0 /\
     invalid (handle_event O s0) = invalid s0) by (intro s0; unfold handle_event; destruct (is_seen _ s0); repeat split).
  destruct r as [[d|]|e]; cbn [verdict_of fst].
  - rewrite handle_seen, handle_callbacks. cbn [seen callbacks]. split; [reflexivity|]. split; [now rewrite app_assoc|].
    rewrite !(proj1 (H _)), !(proj1 (proj2 (H _))), !(proj2 (proj2 (H _))). repeat split.
  - cbn [fst seen callbacks discovered unsupported invalid]. rewrite app_nil_r. repeat split.
  - destruct e; cbn [is_kasa fst]; rewrite ?handle_seen, ?handle_callbacks; cbn [seen callbacks]; rewrite ?app_nil_r, ?app_assoc;
      (split; [reflexivity|]); (split; [reflexivity|]); rewrite ?(proj1 (H _)), ?(proj1 (proj2 (H _))), ?(proj2 (proj2 (H _))); repeat split.
Qed.

Lemma read_cb_ip data ip port c : In c (fst (read_datagram V O data ip port)) -> c = CRaw ip.
Proof.
  unfold read_datagram. destruct (port =? discovery_port O).
  - destruct (json_legacy V data); cbn [fst]; [|contradiction]. destruct (has_on_raw O); cbn; intros H; [destruct H as [H|[]]; auto | contradiction].
  - destruct (port =? DISCOVERY_PORT_2); [|contradiction].
    destruct (json_new V data); cbn [fst]; [|contradiction]. destruct (has_on_raw O); cbn; intros H; [destruct H as [H|[]]; auto | contradiction].
Qed.
Lemma cbs_of_ip data ip port c : In c (cbs_of ip (read_datagram V O data ip port)) -> cb_ip c = ip.
Proof.
  unfold cbs_of. intro H. apply in_app_or in H. destruct H as [H|H].
  - apply read_cb_ip in H. now subst c.
  - destruct (verdict_of _); try contradiction.
    + destruct (has_on_discovered O); [destruct H as [<-|[]]; reflexivity | contradiction].
    + destruct (has_on_unsupported O); [destruct H as [<-|[]]; reflexivity | contradiction].
Qed.
Lemma filter_all {A} (f : A -> bool) l : (forall x, In x l -> f x = true) -> filter f l = l.
Proof. induction l as [|x l IH]; intro H; [reflexivity|]. cbn. rewrite (H x (or_introl eq_refl)). f_equal. apply IH. intros y Hy. apply H. now right. Qed.
Lemma filter_none {A} (f : A -> bool) l : (forall x, In x l -> f x = false) -> filter f l = [].
Proof. induction l as [|x l IH]; intro H; [reflexivity|]. cbn. rewrite (H x (or_introl eq_refl)). apply IH. intros y Hy. apply H. now right. Qed.

Lemma seen_step s e ip : is_seen ip (step V O s e) =
  is_seen ip s || (match e with EDatagram _ i _ => String.eqb ip i | ETick => false end).
Proof.
  destruct e as [data i port|]; cbn [step].
  - destruct (is_seen i s) eqn:E.
    + unfold datagram. rewrite E. cbn [fst]. destruct (String.eqb ip i) eqn:Ei; [|now rewrite orb_false_r].
      apply String.eqb_eq in Ei. subst i. now rewrite E.
    + unfold is_seen at 1. rewrite (proj1 (datagram_spec s data i port E)). cbn [existsb]. apply orb_comm.
  - unfold is_seen. rewrite tick_seen. now rewrite orb_false_r.
Qed.

(** A datagram of another host leaves a host alone. *)
Lemma other_step s e ip : (match e with EDatagram _ i _ => String.eqb ip i = false \/ is_seen i s = true | ETick => True end) ->
  recorded (step V O s e) ip = recorded s ip /\ callbacks_of ip (step V O s e) = callbacks_of ip s.
Proof.
  destruct e as [data i port|]; cbn [step]; intro H.
  - destruct (is_seen i s) eqn:E.
    + unfold datagram. rewrite E. split; reflexivity.
    + destruct H as [H|H]; [|discriminate]. destruct (datagram_spec s data i port E) as (_ & Hc & Hd & Hu & Hi).
      unfold recorded, callbacks_of. rewrite Hc, Hd, Hu, Hi.
      assert (Hn : ip <> i) by now apply String.eqb_neq.
      assert (Hk : forall A (v : A) d, dget ip (dset i v d) = dget ip d) by (intros; apply dget_dset_other; congruence).
      split.
      * destruct (verdict_of _); rewrite ?Hk; reflexivity.
      * rewrite filter_app, (filter_none _ (cbs_of _ _)); [apply app_nil_r|]. intros c Hin. apply cbs_of_ip in Hin. now rewrite Hin.
  - unfold callbacks_of. rewrite tick_recorded, tick_callbacks. split; reflexivity.
Qed.
Lemma own_step s data ip port : is_seen ip s = false -> recorded s ip = (None, None, None) -> callbacks_of ip s = [] ->
  let x := read_datagram V O data ip port in let s' := fst (datagram V O s data ip port) in
  recorded s' ip = record_of (verdict_of (snd x)) /\ callbacks_of ip s' = cbs_of ip x.
Proof.
  intros Hs Hr Hc x s'. destruct (datagram_spec s data ip port Hs) as (_ & Hc' & Hd & Hu & Hi).
  unfold recorded, callbacks_of in *. subst s'. rewrite Hc', Hd, Hu, Hi. fold x. injection Hr as Hr1 Hr2 Hr3. split.
  - assert (Hk : forall A (v : A) d, dget ip (dset ip v d) = Some v) by (intros; apply dget_dset_same).
    destruct (verdict_of (snd x)); cbn [record_of]; rewrite ?Hk, ?Hr1, ?Hr2, ?Hr3; reflexivity.
  - rewrite filter_app, Hc. cbn [app]. apply filter_all. intros c Hin. apply cbs_of_ip in Hin. rewrite Hin. apply String.eqb_refl.
Qed.

Lemma seen_run es : forall s ip, is_seen ip s = true -> recorded (run V O s es) ip = recorded s ip /\ callbacks_of ip (run V O s es) = callbacks_of ip s.
Proof.
  induction es as [|e es IH]; intros s ip Hs; [split; reflexivity|]. cbn [run fold_left].
  change (fold_left (step V O) es (step V O s e)) with (run V O (step V O s e) es).
  destruct (IH (step V O s e) ip) as [H1 H2]; [now rewrite seen_step, Hs|]. rewrite H1, H2. apply other_step.
  destruct e as [data i port|]; [|exact I]. destruct (String.eqb ip i) eqn:E; [|auto]. apply String.eqb_eq in E. subst i. auto.
Qed.
Lemma first_decides es : forall s ip, is_seen ip s = false -> recorded s ip = (None, None, None) -> callbacks_of ip s = [] ->
  recorded (run V O s es) ip = record_of (match first_from ip es with Some (data, port) => verdict_of (snd (read_datagram V O data ip port)) | None => Nothing end) /\
  callbacks_of ip (run V O s es) = (match first_from ip es with Some (data, port) => cbs_of ip (read_datagram V O data ip port) | None => [] end).
Proof.
  induction es as [|e es IH]; intros s ip Hs Hr Hc; [split; assumption|]. cbn [run fold_left].
  change (fold_left (step V O) es (step V O s e)) with (run V O (step V O s e) es).
  destruct e as [data i port|]; cbn [first_from].
  - destruct (String.eqb ip i) eqn:E.
    + apply String.eqb_eq in E. subst i.
      destruct (seen_run es (step V O s (EDatagram data ip port)) ip) as [H1 H2]; [now rewrite seen_step, String.eqb_refl, orb_true_r|].
      rewrite H1, H2. apply own_step; assumption.
    + destruct (other_step s (EDatagram data i port) ip (or_introl E)) as [H1 H2].
      apply IH; [now rewrite seen_step, Hs, E | congruence | congruence].
  - destruct (other_step s ETick ip I) as [H1 H2].
    apply IH; [now rewrite seen_step, Hs | congruence | congruence].
Qed.

(** Sending *)
Lemma sent_step s e : (sent (step V O s e) <= Nat.max (sent s) (packets O))%nat /\
  (is_seen (target O) s = true -> sent (step V O s e) = sent s) /\
  (sending s = false -> sent (step V O s e) = sent s /\ sending (step V O s e) = false) /\
  (target_discovered (step V O s e) = true -> target_discovered s = true \/ is_seen (target O) (step V O s e) = true).
Proof.
  destruct e as [data ip port|]; cbn [step].
  - assert (H : sent (fst (datagram V O s data ip port)) = sent s /\ (sending s = false -> sending (fst (datagram V O s data ip port)) = false)
      /\ (target_discovered (fst (datagram V O s data ip port)) = true -> target_discovered s = true \/ is_seen (target O) (fst (datagram V O s data ip port)) = true)).
    { unfold datagram. destruct (is_seen ip s); [cbn; tauto|]. destruct (read_datagram V O data ip port) as [cbs r].
      destruct r as [[d|]|e].
      - unfold fst, handle_event. destruct (is_seen (target O) _) eqn:E; cbn [sent sending target_discovered]; auto.
      - cbn. auto.
      - destruct e; cbn [is_kasa fst]; unfold handle_event; try (cbn; auto; fail);
          destruct (is_seen (target O) _) eqn:E; cbn [sent sending target_discovered]; auto. }
    destruct H as (H1 & H2 & H3). rewrite H1. repeat split; auto. apply Nat.le_max_l.
  - unfold tick. destruct (sending s) eqn:E1; cbn [andb]; [|cbn; repeat split; auto; apply Nat.le_max_l].
    destruct (Nat.ltb (sent s) (packets O)) eqn:E2; cbn [andb]; [|cbn; repeat split; auto; try discriminate; apply Nat.le_max_l].
    destruct (is_seen (target O) s) eqn:E3; cbn; repeat split; auto; try discriminate;
      apply Nat.ltb_lt in E2; lia.
Qed.
End Disc.

From Verif Require Import Base Base_Lemmas Xor_Model Xor_Proofs Conc_Model Conc_Spec.
From Coq Require Import Lia.

Section P.
Variable J : Type.
Variable loads : bytes -> option J.
Notation state := (state J).
Notation task := (task J).
Notation step := (step J loads).
Notation run := (run J loads).

Lemma upd_same {A} (f : nat -> A) k v : upd f k v k = v.
Proof. unfold upd. now rewrite Nat.eqb_refl. Qed.
Lemma upd_other {A} (f : nat -> A) k v i : i <> k -> upd f k v i = f i.
Proof. unfold upd. intros H. now apply Nat.eqb_neq in H as ->. Qed.

Definition quiet (v : conn) : Prop := c_asked v = [] /\ c_flight v = [] /\ c_buf v = [].

Definition owed (s : state) (t : tid) (req : bytes) (v : conn) : Prop :=
  (c_asked v = [(t, req)] /\ c_flight v = [] /\ c_buf v = []) \/
  (c_asked v = [] /\ exists rep, In (t, req, rep) (answered s) /\
     c_buf v ++ c_flight v = device_frame rep).

Definition owed_body (s : state) (t : tid) (req : bytes) (v : conn) (n : N) : Prop :=
  c_asked v = [] /\ exists rep hdr, In (t, req, rep) (answered s) /\
    encrypt rep = Ok (hdr ++ c_buf v ++ c_flight v) /\ length hdr = 4 /\
    N.of_nat (length (c_buf v ++ c_flight v)) = n.

Definition shared (s : state) : Prop :=
  (forall c, writer s = Some c -> c < fresh s) /\
  (forall c, c_open (conns s c) = true -> writer s = Some c) /\
  (forall t req rep, In (t, req, rep) (answered s) ->
     exists k, tasks s t = Some k /\ request k = req) /\
  (forall c t req, In (t, req) (c_asked (conns s c)) ->
     exists k, tasks s t = Some k /\ request k = req) /\
  uninterrupted (wrote s) /\
  (forall t, In t (wrote s) -> tasks s t <> None).

Definition wrote_n (s : state) (t : tid) (n : nat) : Prop :=
  exists rest, wrote s = repeat t n ++ rest /\ ~ In t rest.

Definition at_most (s : state) (t : tid) (n : nat) : Prop :=
  count_occ Nat.eq_dec (wrote s) t <= n.

(** What holds of the call [t] suspended at [p]. *)
Definition fine (s : state) (t : tid) (req : bytes) (tries : nat) (p : pc J) : Prop :=
  match p with
  | Waiting => ~ In t (wrote s) /\ holder s <> Some t
  | Finished r => holder s <> Some t /\ at_most s t (S tries) /\
      forall j, r = Ok j -> exists rep, In (t, req, rep) (answered s) /\ loads rep = Some j
  | Opening retry => holder s = Some t /\ writer s = None /\ retry <= tries /\
      exists n, wrote_n s t n /\ n <= retry
  | Closing retry _ => holder s = Some t /\ writer s = None /\ retry <= tries /\
      exists n, wrote_n s t n /\ n <= S retry
  | Resting retry => holder s = Some t /\ writer s = None /\ retry < tries /\
      exists n, wrote_n s t n /\ n <= S retry
  | Draining retry c | Header retry c => holder s = Some t /\
      (writer s = None \/ writer s = Some c) /\ retry <= tries /\
      (exists n, wrote_n s t n /\ n <= S retry) /\ owed s t req (conns s c)
  | Body retry c n => holder s = Some t /\
      (writer s = None \/ writer s = Some c) /\ retry <= tries /\
      (exists n, wrote_n s t n /\ n <= S retry) /\ owed_body s t req (conns s c) n
  end.

Definition Inv (s : state) : Prop :=
  shared s /\
  (forall t k, tasks s t = Some k -> fine s t (request k) (retries k) (at_ k)) /\
  (holder s = None -> forall c, writer s = Some c -> quiet (conns s c)) /\
  (forall t, holder s = Some t -> exists k, tasks s t = Some k).

(** The same in the middle of a step of [t], whose place is about to change. *)
Definition Mid (s : state) (t : tid) (k : task) (n : nat) : Prop :=
  shared s /\ holder s = Some t /\
  (exists p, tasks s t = Some (mkTask (request k) (retries k) p)) /\
  (forall u k', u <> t -> tasks s u = Some k' -> fine s u (request k') (retries k') (at_ k')) /\
  wrote_n s t n.

Lemma count_wrote s t n : wrote_n s t n -> count_occ Nat.eq_dec (wrote s) t = n.
Proof.
  intros (rest & -> & H). rewrite count_occ_app.
  apply (count_occ_not_In Nat.eq_dec) in H. unfold tid in *. rewrite H, Nat.add_0_r. clear H.
  induction n as [|n IH]; [reflexivity|]. cbn. destruct (Nat.eq_dec t t); [now rewrite IH|easy].
Qed.

Lemma eta_task (k : task) : mkTask (request k) (retries k) (at_ k) = k.
Proof. now destruct k. Qed.

(** [fine] of somebody outside the lock survives what the holder does. *)
Lemma fine_other s s' u req tries p t :
  u <> t -> holder s = Some t -> (holder s' = Some t \/ holder s' = None) ->
  fine s u req tries p ->
  (wrote s' = wrote s \/ wrote s' = t :: wrote s) ->
  answered s' = answered s ->
  fine s' u req tries p.
Proof.
  intros Hu Hh Hh' Hf Hw Ha.
  assert (Hn : holder s' <> Some u) by (destruct Hh' as [->| ->]; congruence).
  destruct p; cbn in Hf |- *; try (destruct Hf as (Hc & _); congruence).
  - destruct Hf as [Hi _]. split; [|exact Hn].
    destruct Hw as [->| ->]; [exact Hi|]. intros [He|He]; [congruence|auto].
  - destruct Hf as (_ & Hm & Hj). split; [exact Hn|]. split.
    + unfold at_most in *. destruct Hw as [->| ->]; [exact Hm|].
      rewrite count_occ_cons_neq by congruence. exact Hm.
    + rewrite Ha. exact Hj.
Qed.

Lemma shared_same s s' :
  shared s -> fresh s' = fresh s -> writer s' = writer s -> conns s' = conns s ->
  wrote s' = wrote s -> answered s' = answered s ->
  (forall t k, tasks s t = Some k -> exists k', tasks s' t = Some k' /\ request k' = request k) ->
  shared s'.
Proof.
  intros (H1 & H2 & H3 & H4 & H5 & H6) Hf Hw Hc Hr Ha Ht.
  unfold shared. rewrite Hf, Hw, Hc, Hr, Ha. repeat split; auto.
  - intros t req rep Hi. destruct (H3 _ _ _ Hi) as (k & Hk & Hq).
    destruct (Ht _ _ Hk) as (k' & Hk' & Hq'). exists k'. split; congruence.
  - intros c t req Hi. destruct (H4 _ _ _ Hi) as (k & Hk & Hq).
    destruct (Ht _ _ Hk) as (k' & Hk' & Hq'). exists k'. split; congruence.
  - intros t Hi Hn. specialize (H6 t Hi).
    destruct (tasks s t) as [k|] eqn:E; [|congruence].
    destruct (Ht _ _ E) as (k' & Hk' & _). congruence.
Qed.

Lemma tasks_goto s t k p u k0 :
  tasks s t = Some k0 -> request k0 = request k ->
  forall k1, tasks s u = Some k1 ->
  exists k', tasks (goto J s t k p) u = Some k' /\ request k' = request k1.
Proof.
  intros H0 Hr k1 H1. cbn. unfold upd. destruct (Nat.eqb_spec u t) as [->|Hn].
  - eexists. split; [reflexivity|]. cbn. congruence.
  - eauto.
Qed.

Lemma goto_Inv s t k n p : Mid s t k n ->
  fine s t (request k) (retries k) p -> (forall r, p <> Finished r) -> p <> Waiting ->
  Inv (goto J s t k p).
Proof.
  intros (Hs & Hh & (p0 & Ht) & Ho & Hw) Hf Hnf Hnw. split; [|split; [|split]].
  - eapply shared_same; try exact Hs; try reflexivity.
    intros u k1. eapply tasks_goto; [exact Ht|reflexivity].
  - intros u k1. cbn. unfold upd. destruct (Nat.eqb_spec u t) as [->|Hn].
    + intros [= <-]. cbn. exact Hf.
    + intros H. apply (Ho u k1 Hn H).
  - cbn. congruence.
  - cbn. intros u Hu. rewrite Hh in Hu. injection Hu as <-. rewrite upd_same. eauto.
Qed.

Lemma finish_Inv s t k n r : Mid s t k n -> n <= S (retries k) ->
  (forall c, writer s = Some c -> quiet (conns s c)) ->
  (forall j, r = Ok j -> exists rep, In (t, request k, rep) (answered s) /\ loads rep = Some j) ->
  Inv (finish J s t k r).
Proof.
  intros (Hs & Hh & (p0 & Ht) & Ho & Hw) Hle Hq Hj. split; [|split; [|split]].
  - eapply shared_same; try exact Hs; try reflexivity.
    intros u k1. cbn -[goto]. eapply (tasks_goto s t k (Finished r)); [exact Ht|reflexivity].
  - intros u k1. cbn. unfold upd. destruct (Nat.eqb_spec u t) as [->|Hn].
    + intros [= <-]. cbn. split; [discriminate|]. split; [|exact Hj].
      unfold at_most. cbn. rewrite (count_wrote _ _ _ Hw). exact Hle.
    + intros H. eapply (fine_other s); eauto.
  - cbn. auto.
  - cbn. discriminate.
Qed.

Lemma close_Mid s t k n : Mid s t k n -> Mid (close_without_wait J s) t k n /\
  writer (close_without_wait J s) = None.
Proof.
  intros HM. unfold close_without_wait. destruct (writer s) as [c|] eqn:E; [|auto].
  split; [|reflexivity]. destruct HM as ((H1 & H2 & H3 & H4 & H5 & H6) & Hh & Ht & Ho & Hw).
  repeat split; cbn; auto.
  - discriminate.
  - intros c'. unfold upd. destruct (Nat.eqb_spec c' c) as [->|Hn]; cbn; [discriminate|].
    intros Hx. apply H2 in Hx. congruence.
  - intros c' u req. unfold upd. destruct (Nat.eqb_spec c' c) as [->|Hn]; cbn; apply H4.
  - intros u k' Hn Hu. eapply (fine_other s); eauto.
Qed.

Lemma reset_Inv s t k n retry e : Mid s t k n -> retry <= retries k -> n <= S retry ->
  Inv (reset_and_raise J s t k retry e).
Proof.
  intros HM Hr Hn. destruct (close_Mid _ _ _ _ HM) as [HM' Hw].
  unfold reset_and_raise. eapply goto_Inv; [exact HM'| |discriminate|discriminate].
  destruct HM' as (_ & Hh & _ & _ & Hx). cbn. repeat split; auto. eauto.
Qed.

Lemma uninterrupted_cons t n rest :
  uninterrupted (repeat t n ++ rest) -> ~ In t rest -> uninterrupted (t :: repeat t n ++ rest).
Proof.
  intros H Hn before between after u He v Hv.
  destruct before as [|b before]; cbn in He; injection He as He1 He2.
  - subst u.
    assert (Hin : forall n' l m, repeat t n' ++ rest = l ++ t :: m -> forall x, In x l -> x = t).
    { clear - Hn. induction n' as [|n' IH]; intros l m He x Hx.
      - cbn in He. subst rest. exfalso. apply Hn. apply in_or_app. right. now left.
      - destruct l as [|y l]; [easy|]. cbn in He. injection He as <- He.
        destruct Hx as [<-|Hx]; [reflexivity|]. eapply IH; eauto. }
    eapply Hin; eauto.
  - subst b. eapply H; eauto.
Qed.

Lemma write_Inv s t k n retry c : Mid s t k n -> retry <= retries k -> n <= retry ->
  writer s = Some c -> quiet (conns s c) -> Inv (write J s t k retry c).
Proof.
  intros HM Hr Hn Hw Hq. unfold write.
  destruct (encrypt (request k)) as [f|e] eqn:E.
  2:{ eapply reset_Inv; eauto. }
  destruct HM as ((H1 & H2 & H3 & H4 & H5 & H6) & Hh & (p0 & Ht) & Ho & (rest & Hwr & Hni)).
  destruct Hq as (Q1 & Q2 & Q3).
  eapply (goto_Inv _ t k (S n)); [| |discriminate|discriminate].
  - split; [|split; [|split; [|split]]]; cbn.
    + repeat split; cbn; auto.
      * intros c'. unfold upd. destruct (Nat.eqb_spec c' c) as [->|Hnc]; cbn; auto.
      * intros c' u req. unfold upd. destruct (Nat.eqb_spec c' c) as [->|Hnc]; cbn; [|apply H4].
        rewrite Q1. cbn. intros [[= <- <-]|[]]. eexists. split; [exact Ht|reflexivity].
      * rewrite Hwr. apply uninterrupted_cons; [now rewrite <- Hwr|exact Hni].
      * intros u [<-|Hu]; [congruence|auto].
    + exact Hh.
    + eauto.
    + intros u k' Hnu Hu. eapply (fine_other s); eauto.
    + exists rest. cbn. rewrite Hwr. auto.
  - cbn. split; [exact Hh|]. split; [now right|]. split; [exact Hr|]. split.
    + exists (S n). split; [|lia]. exists rest. cbn. rewrite Hwr. auto.
    + rewrite upd_same. left. cbn. rewrite Q1, Q2, Q3. auto.
Qed.

Lemma attempt_Inv s t k n retry : Mid s t k n -> retry <= retries k -> n <= retry ->
  (forall c, writer s = Some c -> quiet (conns s c)) -> Inv (attempt J s t k retry).
Proof.
  intros HM Hr Hn Hq. unfold attempt. destruct (writer s) as [c|] eqn:E.
  - eapply write_Inv; eauto.
  - eapply goto_Inv; [exact HM| |discriminate|discriminate].
    destruct HM as (_ & Hh & _ & _ & Hx). cbn. repeat split; auto. eauto.
Qed.

Lemma caught_Inv s t k n retry e : Mid s t k n -> retry <= retries k -> n <= S retry ->
  writer s = None -> Inv (caught J s t k retry e).
Proof.
  intros HM Hr Hn Hw. destruct (close_Mid _ _ _ _ HM) as [HM' Hw'].
  assert (Hq : forall c, writer s = Some c -> quiet (conns s c)) by congruence.
  assert (Hq' : forall c, writer (close_without_wait J s) = Some c ->
                quiet (conns (close_without_wait J s) c)) by congruence.
  assert (Hf : Inv (finish J (close_without_wait J s) t k (Err e))).
  { eapply finish_Inv; eauto; [lia|discriminate]. }
  assert (Hf0 : Inv (finish J s t k (Err e))).
  { eapply finish_Inv; eauto; [lia|discriminate]. }
  unfold caught. destruct e; try exact Hf; try exact Hf0; cbn [is_kasa]; try exact Hf; try exact Hf0;
    destruct (Nat.leb_spec (retries k) retry) as [Hl|Hl]; try exact Hf; try exact Hf0.
  all: try (eapply attempt_Inv; eauto; lia).
  eapply goto_Inv; [exact HM'| |discriminate|discriminate].
  destruct HM' as (_ & Hh & _ & _ & Hx). cbn. repeat split; auto. eauto.
Qed.

Lemma raised_Inv s t k n retry e : Mid s t k n -> retry <= retries k -> n <= S retry ->
  Inv (raised J s t k retry e).
Proof.
  intros HM Hr Hn. unfold raised. destruct (writer s) as [c|] eqn:E.
  - eapply reset_Inv; eauto.
  - eapply caught_Inv; eauto.
Qed.

Lemma cancelled_Inv s t k n : Mid s t k n -> n <= S (retries k) -> Inv (cancelled J s t k).
Proof.
  intros HM Hn. destruct (close_Mid _ _ _ _ HM) as [HM' Hw]. unfold cancelled.
  eapply finish_Inv; eauto; [congruence|discriminate].
Qed.

Lemma Inv_Mid s t k n : Inv s -> tasks s t = Some k -> holder s = Some t -> wrote_n s t n ->
  Mid s t k n.
Proof.
  intros (Hs & Hf & Hq & Hh) Ht Hho Hw. split; [exact Hs|]. split; [exact Hho|].
  split; [exists (at_ k); now rewrite eta_task|]. split; auto.
Qed.

(** Changing only the bytes of one connection. *)
Lemma set_conn_Mid s t k n c v : Mid s t k n -> c_open v = c_open (conns s c) ->
  c_asked v = c_asked (conns s c) -> Mid (set_conn J s c v) t k n.
Proof.
  intros ((H1 & H2 & H3 & H4 & H5 & H6) & Hh & Ht & Ho & Hw) Hop Has.
  split; [|split; [|split; [|split]]]; cbn; auto.
  - repeat split; cbn; auto.
    + intros c'. unfold upd. destruct (Nat.eqb_spec c' c) as [->|Hn]; [rewrite Hop|]; auto.
    + intros c' u req. unfold upd. destruct (Nat.eqb_spec c' c) as [->|Hn]; [rewrite Has|]; apply H4.
  - intros u k' Hn Hu. eapply (fine_other s); eauto.
Qed.

Lemma readexactly_split n l a b : readexactly n l = Some (a, b) -> l = a ++ b /\ length a = n.
Proof.
  unfold readexactly. destruct (Nat.leb_spec n (length l)) as [H|H]; [|discriminate].
  intros [= <- <-]. split; [symmetry; apply firstn_skipn|now rewrite firstn_length_le].
Qed.

Lemma encrypt_parts rep f : encrypt rep = Ok f -> exists hdr,
  f = hdr ++ xor_payload IV rep /\ length hdr = 4 /\ unpack_u32 hdr = Ok (N.of_nat (length rep)) /\
  length (xor_payload IV rep) = length rep.
Proof.
  intros H. unfold encrypt in H.
  destruct (pack_u32 (N.of_nat (length rep))) as [hdr|] eqn:E; cbn [bind] in H; [|discriminate].
  injection H as <-. destruct (unpack_pack _ _ E) as (Hu & Hl & _).
  exists hdr. repeat split; auto. apply xor_payload_length.
Qed.

Lemma app_split {A} (a b c d : list A) : a ++ b = c ++ d -> length a = length c -> a = c /\ b = d.
Proof.
  revert c. induction a as [|x a IH]; intros [|y c] H Hl; cbn in *; try discriminate; auto.
  injection H as -> H. injection Hl as Hl. destruct (IH _ H Hl) as [-> ->]. auto.
Qed.

(** Reading the header leaves exactly the body to come. *)
Lemma read_header s t req v hdr rest :
  owed s t req v -> readexactly 4 (c_buf v) = Some (hdr, rest) ->
  exists n, unpack_u32 hdr = Ok n /\
    owed_body s t req (mkConn (c_open v) (c_asked v) (c_flight v) rest) n.
Proof.
  intros Ho Hr. apply readexactly_split in Hr as [Hb Hl].
  destruct Ho as [(_ & _ & H)|(Ha & rep & Hi & Hf)].
  { rewrite H in Hb. symmetry in Hb. apply app_eq_nil in Hb as [-> _]. discriminate. }
  unfold device_frame in Hf. destruct (encrypt rep) as [f|e] eqn:E.
  2:{ apply app_eq_nil in Hf as [H _]. rewrite H in Hb. symmetry in Hb.
      apply app_eq_nil in Hb as [-> _]. discriminate. }
  destruct (encrypt_parts _ _ E) as (hdr' & -> & Hl' & Hu & Hp).
  rewrite Hb, <- app_assoc in Hf. destruct (app_split _ _ _ _ Hf) as [-> Hx]; [congruence|].
  exists (N.of_nat (length rep)). split; [exact Hu|]. split; [exact Ha|].
  exists rep, hdr'. cbn [c_buf c_flight]. rewrite Hx. repeat split; auto.
Qed.

(** Reading the body yields the device's answer and empties the connection. *)
Lemma read_body s t req v n buffer rest :
  owed_body s t req v n -> readexactly (N.to_nat n) (c_buf v) = Some (buffer, rest) ->
  exists rep, In (t, req, rep) (answered s) /\ decrypt buffer = rep /\
    c_asked v = [] /\ c_flight v = [] /\ rest = [].
Proof.
  intros (Ha & rep & hdr & Hi & He & Hl & Hn) Hr.
  apply readexactly_split in Hr as [Hb Hlb]. exists rep. split; [exact Hi|].
  assert (Hz : length buffer = length (c_buf v ++ c_flight v)) by lia.
  rewrite Hb, !app_length in Hz.
  assert (rest = []) by (destruct rest; [auto|cbn in Hz; lia]).
  assert (c_flight v = []) by (destruct (c_flight v); [auto|cbn in Hz; lia]).
  subst rest. rewrite app_nil_r in Hb. split; [|auto].
  destruct (encrypt_parts _ _ He) as (hdr' & Hf & Hl' & _ & _).
  destruct (app_split _ _ _ _ Hf) as [-> Hx]; [congruence|].
  rewrite H0, app_nil_r, Hb in Hx. rewrite Hx. apply xor_round_trip.
Qed.

(** A connection changing on its own, without anything of the client's. *)
Lemma device_Inv s c v extra :
  Inv s -> c_open v = c_open (conns s c) ->
  (forall t req, In (t, req) (c_asked v) -> In (t, req) (c_asked (conns s c))) ->
  (forall t req rep, In (t, req, rep) extra -> In (t, req) (c_asked (conns s c))) ->
  (quiet (conns s c) -> quiet v) ->
  (forall s' t req, answered s' = extra ++ answered s -> owed s t req (conns s c) -> owed s' t req v) ->
  (forall s' t req n, answered s' = extra ++ answered s ->
     owed_body s t req (conns s c) n -> owed_body s' t req v n) ->
  Inv (mkState (holder s) (upd (conns s) c v) (fresh s) (writer s) (tasks s) (wrote s)
         (extra ++ answered s)).
Proof.
  intros ((H1 & H2 & H3 & H4 & H5 & H6) & Hf & Hq & Hh) Hop Has Hex Hqv Hov Hbv.
  split; [|split; [|split]]; cbn; auto.
  - repeat split; cbn; auto.
    + intros c'. unfold upd. destruct (Nat.eqb_spec c' c) as [->|Hn]; [rewrite Hop|]; auto.
    + intros t req rep Hi. apply in_app_or in Hi as [Hi|Hi]; eauto.
    + intros c' u req. unfold upd. destruct (Nat.eqb_spec c' c) as [->|Hn]; [|apply H4].
      intros Hi. apply (H4 c). auto.
  - intros t k Ht. specialize (Hf t k Ht).
    assert (Hin : forall rep, In (t, request k, rep) (answered s) ->
              In (t, request k, rep) (extra ++ answered s)) by (intros; apply in_or_app; auto).
    assert (Hoo : forall c' s', answered s' = extra ++ answered s ->
              owed s t (request k) (conns s c') -> owed s' t (request k) (upd (conns s) c v c')).
    { intros c' s' Ea Ho. unfold upd. destruct (Nat.eqb_spec c' c) as [->|Hn]; [eauto|].
      destruct Ho as [Ho|(Ha & rep & Hi & Hb)]; [now left|right].
      split; [exact Ha|]. exists rep. rewrite Ea. auto. }
    assert (Hbb : forall c' n s', answered s' = extra ++ answered s ->
              owed_body s t (request k) (conns s c') n ->
              owed_body s' t (request k) (upd (conns s) c v c') n).
    { intros c' n s' Ea Ho. unfold upd. destruct (Nat.eqb_spec c' c) as [->|Hn]; [eauto|].
      destruct Ho as (Ha & rep & hdr & Hi & Hb). split; [exact Ha|]. exists rep, hdr.
      rewrite Ea. intuition. }
    destruct (at_ k); cbn in Hf |- *; auto.
    + destruct Hf as (F1 & F2 & F3 & F4 & F5). split; [exact F1|]. split; [exact F2|].
      split; [exact F3|]. split; [exact F4|]. now apply Hoo.
    + destruct Hf as (F1 & F2 & F3 & F4 & F5). split; [exact F1|]. split; [exact F2|].
      split; [exact F3|]. split; [exact F4|]. now apply Hoo.
    + destruct Hf as (F1 & F2 & F3 & F4 & F5). split; [exact F1|]. split; [exact F2|].
      split; [exact F3|]. split; [exact F4|]. now apply Hbb.
    + destruct Hf as (F1 & F2 & F3). repeat split; auto.
      intros j Hj. destruct (F3 j Hj) as (rep & Hi & Hl). eauto.
  - intros Hn c' Hw. unfold upd. destruct (Nat.eqb_spec c' c) as [->|Hnc]; auto.
Qed.

Lemma answer_Inv s c rep : Inv s -> Inv (step s (EAnswer c rep)).
Proof.
  intros HI. cbn [Conc_Model.step]. destruct (c_asked (conns s c)) as [|[t req] rest] eqn:E; [exact HI|].
  apply (device_Inv s c _ [(t, req, rep)] HI); cbn; auto.
  - rewrite E. cbn. auto.
  - rewrite E. intros u q r [[= <- <- <-]|[]]. now left.
  - intros (Q1 & _). congruence.
  - intros s' u q Ea [(O1 & O2 & O3)|(O1 & _)]; [|congruence].
    rewrite E in O1. injection O1 as -> -> ->. right. cbn. split; [reflexivity|].
    exists rep. rewrite Ea, O2, O3. cbn. auto.
  - intros s' u q n Ea (O1 & _). congruence.
Qed.

Lemma deliver_Inv s c n : Inv s -> Inv (step s (EDeliver c n)).
Proof.
  intros HI. cbn [Conc_Model.step].
  assert (Hb : (c_buf (conns s c) ++ firstn n (c_flight (conns s c))) ++ skipn n (c_flight (conns s c))
               = c_buf (conns s c) ++ c_flight (conns s c))
    by now rewrite <- app_assoc, firstn_skipn.
  apply (device_Inv s c _ [] HI); cbn; auto.
  - intros ? ? ? [].
  - intros (Q1 & Q2 & Q3). unfold quiet. cbn. rewrite Q1, Q2, Q3. now destruct n.
  - intros s' u q Ea [(O1 & O2 & O3)|(O1 & r & Hi & Hx)].
    + left. cbn. rewrite O1, O2, O3. now destruct n.
    + right. cbn. split; [exact O1|]. exists r. rewrite Ea, Hb. auto.
  - intros s' u q m Ea (O1 & r & hdr & Hi & Hx & Hl & Hm). split; [exact O1|].
    exists r, hdr. cbn. rewrite Ea, Hb. auto.
Qed.

Lemma disconnect_Inv s : Inv s -> Inv (close_without_wait J s).
Proof.
  intros HI. unfold close_without_wait. destruct (writer s) as [c|] eqn:E; [|exact HI].
  destruct HI as ((H1 & H2 & H3 & H4 & H5 & H6) & Hf & Hq & Hh).
  split; [|split; [|split]]; cbn; auto.
  - repeat split; cbn; auto; try discriminate.
    + intros c'. unfold upd. destruct (Nat.eqb_spec c' c) as [->|Hn]; cbn; [discriminate|].
      intros Hx. apply H2 in Hx. congruence.
    + intros c' u req. unfold upd. destruct (Nat.eqb_spec c' c) as [->|Hn]; cbn; apply H4.
  - intros t k Ht. specialize (Hf t k Ht).
    destruct (at_ k); cbn in Hf |- *; intuition.
    all: unfold upd; match goal with |- context [Nat.eqb ?a ?b] => destruct (Nat.eqb_spec a b) as [->|] end; auto.
  - discriminate.
Qed.

Lemma step_Inv s e : Inv s -> Inv (step s e).
Proof.
  intros HI. destruct e as [t req n|t|t bad|t|t|t f|t|t|c rep|c n|].
  10: now apply deliver_Inv.
  9: now apply answer_Inv.
  9: now apply disconnect_Inv.
  all: cbn [Conc_Model.step]; unfold on_task.
  - (* EQuery *)
    destruct (tasks s t) as [k|] eqn:Et; [exact HI|].
    destruct HI as (Hs & Hf & Hq & Hh).
    assert (Hno : forall u k, tasks s u = Some k -> u <> t) by congruence.
    split; [|split; [|split]]; cbn; auto.
    + eapply shared_same; try exact Hs; try reflexivity.
      intros u k1 Hu. cbn. rewrite upd_other by eauto. eauto.
    + intros u k1. unfold upd. destruct (Nat.eqb_spec u t) as [->|Hn].
      * intros [= <-]. cbn. split; [|intros Hx; destruct (Hh _ Hx); congruence].
        intros Hi. destruct Hs as (_ & _ & _ & _ & _ & H6). now apply (H6 t Hi).
      * intros Hu. apply (Hf u k1 Hu).
    + intros u Hu. destruct (Hh u Hu) as (k & Hk). exists k. rewrite upd_other by eauto. exact Hk.
  - (* EAcquire *)
    destruct (tasks s t) as [k|] eqn:Et; [|exact HI].
    destruct (at_ k) eqn:Ep; try exact HI. destruct (holder s) as [h|] eqn:Eh; [exact HI|].
    pose proof HI as (Hs & Hf & Hq & Hh).
    eapply (attempt_Inv _ t k 0); [|lia|lia|].
    + split; [|split; [|split; [|split]]]; cbn; auto.
      * exists (at_ k). now rewrite eta_task.
      * intros u k' Hn Hu. specialize (Hf u k' Hu).
        destruct (at_ k'); cbn in Hf |- *; try (destruct Hf as (Hc & _); congruence).
        -- split; [tauto|congruence].
        -- split; [congruence|tauto].
      * exists (wrote s). split; [reflexivity|].
        pose proof (Hf t k Et) as Hx. rewrite Ep in Hx. apply Hx.
    + cbn. auto.
  - (* EOpened *)
    destruct (tasks s t) as [k|] eqn:Et; [|exact HI].
    destruct (at_ k) eqn:Ep; try exact HI.
    pose proof HI as (Hs & Hf & Hq & Hh). pose proof (Hf t k Et) as Hx. rewrite Ep in Hx.
    destruct Hx as (Hho & Hw & Hr & n & Hn & Hle).
    assert (HM : Mid (mkState (holder s) (upd (conns s) (fresh s) (mkConn true [] [] []))
              (S (fresh s)) (Some (fresh s)) (tasks s) (wrote s) (answered s)) t k n).
    { pose proof (Inv_Mid _ _ _ _ HI Et Hho Hn) as ((H1 & H2 & H3 & H4 & H5 & H6) & M2 & M3 & M4 & M5).
      split; [|split; [|split; [|split]]]; cbn; auto.
      - repeat split; cbn; auto.
        + intros c [= <-]. lia.
        + intros c. unfold upd. destruct (Nat.eqb_spec c (fresh s)) as [->|Hnc]; [auto|].
          intros Hc. apply H2 in Hc. congruence.
        + intros c u req. unfold upd. destruct (Nat.eqb_spec c (fresh s)) as [->|Hnc]; [intros []|apply H4].
      - intros u k' Hnu Hu. eapply (fine_other s); eauto. }
    destruct bad as [f|].
    + assert (Hc : Inv (cancelled J (mkState (holder s) (upd (conns s) (fresh s) (mkConn true [] [] []))
              (S (fresh s)) (Some (fresh s)) (tasks s) (wrote s) (answered s)) t k))
        by (eapply cancelled_Inv; [exact HM|lia]).
      destruct f; try exact Hc; (eapply raised_Inv; [exact HM|lia|lia]).
    + eapply write_Inv; [exact HM|lia|lia|reflexivity|]. cbn. rewrite upd_same. now repeat split.
  - (* EDrained *)
    destruct (tasks s t) as [k|] eqn:Et; [|exact HI].
    destruct (at_ k) eqn:Ep; try exact HI.
    pose proof HI as (Hs & Hf & Hq & Hh). pose proof (Hf t k Et) as Hx. rewrite Ep in Hx.
    destruct Hx as (Hho & Hw & Hr & (n & Hn & Hle) & Ho).
    pose proof (Inv_Mid _ _ _ _ HI Et Hho Hn) as HM.
    destruct (writer s) as [c'|] eqn:Ew.
    + eapply goto_Inv; [exact HM| |discriminate|discriminate].
      destruct Hw as [Hw|Hw]; [discriminate|]. injection Hw as ->.
      cbn. repeat split; auto. eauto.
    + eapply raised_Inv; [exact HM|lia|lia].
  - (* ERead *)
    destruct (tasks s t) as [k|] eqn:Et; [|exact HI].
    destruct (at_ k) eqn:Ep; try exact HI.
    + pose proof HI as (Hs & Hf & Hq & Hh). pose proof (Hf t k Et) as Hx. rewrite Ep in Hx.
      destruct Hx as (Hho & Hw & Hr & (n & Hn & Hle) & Ho).
      pose proof (Inv_Mid _ _ _ _ HI Et Hho Hn) as HM.
      destruct (readexactly 4 (c_buf (conns s c))) as [[hdr rest]|] eqn:Er; [|exact HI].
      destruct (read_header _ _ _ _ _ _ Ho Er) as (m & Hu & Hb). rewrite Hu.
      assert (HM' := set_conn_Mid s t k n c
        (mkConn (c_open (conns s c)) (c_asked (conns s c)) (c_flight (conns s c)) rest) HM eq_refl eq_refl).
      destruct (writer _) as [c'|] eqn:Ew.
      * eapply goto_Inv; [exact HM'| |discriminate|discriminate].
        destruct Hw as [Hw|Hw]; [congruence|].
        assert (c' = c) as -> by congruence.
        cbn. split; [exact Hho|]. split; [now right|]. split; [exact Hr|]. split; [eauto|].
        rewrite upd_same. exact Hb.
      * eapply raised_Inv; [exact HM'|lia|lia].
    + pose proof HI as (Hs & Hf & Hq & Hh). pose proof (Hf t k Et) as Hx. rewrite Ep in Hx.
      destruct Hx as (Hho & Hw & Hr & (m & Hn & Hle) & Ho).
      pose proof (Inv_Mid _ _ _ _ HI Et Hho Hn) as HM.
      destruct (n <=? N.of_nat (length (c_buf (conns s c))))%N; [|exact HI].
      destruct (readexactly (N.to_nat n) (c_buf (conns s c))) as [[buffer rest]|] eqn:Er; [|exact HI].
      destruct (read_body _ _ _ _ _ _ _ Ho Er) as (rep & Hi & Hd & Ha & Hfl & ->).
      assert (HM' := set_conn_Mid s t k m c
        (mkConn (c_open (conns s c)) (c_asked (conns s c)) (c_flight (conns s c)) []) HM eq_refl eq_refl).
      destruct (loads (decrypt buffer)) as [j|] eqn:El.
      * eapply finish_Inv; [exact HM'|lia| |].
        -- intros c' Hc'. cbn in Hc' |- *. destruct Hw as [Hw|Hw]; [congruence|].
           rewrite Hw in Hc'. injection Hc' as <-. rewrite upd_same. repeat split; cbn; auto.
        -- intros j' [= <-]. exists rep. subst rep. auto.
      * eapply raised_Inv; [exact HM'|lia|lia].
  - (* EFault *)
    destruct (tasks s t) as [k|] eqn:Et; [|exact HI].
    pose proof HI as (Hs & Hf & Hq & Hh). pose proof (Hf t k Et) as Hx.
    destruct (at_ k) eqn:Ep; cbn in Hx.
    + assert (Hw : Inv (goto J s t k (Finished (Err Cancelled)))).
      { destruct Hx as (Hni & Hho). split; [|split; [|split]]; cbn; auto.
        - eapply shared_same; try exact Hs; try reflexivity.
          intros u k1. eapply tasks_goto; [exact Et|reflexivity].
        - intros u k1. unfold upd. destruct (Nat.eqb_spec u t) as [->|Hn].
          + intros [= <-]. cbn. split; [exact Hho|]. split; [|discriminate].
            unfold at_most. cbn. apply (count_occ_not_In Nat.eq_dec) in Hni. unfold tid in *. rewrite Hni. lia.
          + intros Hu. apply (Hf u k1 Hu).
        - intros u Hu. destruct (Hh u Hu) as (k1 & Hk1). exists k1.
          rewrite upd_other by congruence. exact Hk1. }
      destruct f; first [exact Hw|exact HI].
    + destruct Hx as (Hho & Hw & Hr & n & Hn & Hle).
      pose proof (Inv_Mid _ _ _ _ HI Et Hho Hn) as HM.
      destruct f; first [eapply raised_Inv; [exact HM|lia|lia]|eapply cancelled_Inv; [exact HM|lia]].
    + destruct Hx as (Hho & Hw & Hr & (n & Hn & Hle) & Ho).
      pose proof (Inv_Mid _ _ _ _ HI Et Hho Hn) as HM.
      destruct f; first [eapply raised_Inv; [exact HM|lia|lia]|eapply cancelled_Inv; [exact HM|lia]].
    + destruct Hx as (Hho & Hw & Hr & (n & Hn & Hle) & Ho).
      pose proof (Inv_Mid _ _ _ _ HI Et Hho Hn) as HM.
      destruct f; first [eapply raised_Inv; [exact HM|lia|lia]|eapply cancelled_Inv; [exact HM|lia]].
    + destruct Hx as (Hho & Hw & Hr & (n0 & Hn & Hle) & Ho).
      pose proof (Inv_Mid _ _ _ _ HI Et Hho Hn) as HM.
      destruct f; first [eapply raised_Inv; [exact HM|lia|lia]|eapply cancelled_Inv; [exact HM|lia]].
    + destruct Hx as (Hho & Hw & Hr & n & Hn & Hle).
      pose proof (Inv_Mid _ _ _ _ HI Et Hho Hn) as HM.
      destruct f; try exact HI. eapply finish_Inv; [exact HM|lia|congruence|discriminate].
    + destruct Hx as (Hho & Hw & Hr & n & Hn & Hle).
      pose proof (Inv_Mid _ _ _ _ HI Et Hho Hn) as HM.
      destruct f; try exact HI. eapply finish_Inv; [exact HM|lia|congruence|discriminate].
    + destruct f; exact HI.
  - (* EClosed *)
    destruct (tasks s t) as [k|] eqn:Et; [|exact HI].
    destruct (at_ k) eqn:Ep; try exact HI.
    pose proof HI as (Hs & Hf & Hq & Hh). pose proof (Hf t k Et) as Hx. rewrite Ep in Hx.
    destruct Hx as (Hho & Hw & Hr & n & Hn & Hle).
    pose proof (Inv_Mid _ _ _ _ HI Et Hho Hn) as HM.
    eapply caught_Inv; [exact HM|lia|lia|exact Hw].
  - (* ESlept *)
    destruct (tasks s t) as [k|] eqn:Et; [|exact HI].
    destruct (at_ k) eqn:Ep; try exact HI.
    pose proof HI as (Hs & Hf & Hq & Hh). pose proof (Hf t k Et) as Hx. rewrite Ep in Hx.
    destruct Hx as (Hho & Hw & Hr & n & Hn & Hle).
    pose proof (Inv_Mid _ _ _ _ HI Et Hho Hn) as HM.
    eapply attempt_Inv; [exact HM|lia|lia|congruence].
Qed.

Lemma init_Inv : Inv init.
Proof.
  split; [|split; [|split]]; cbn; try discriminate.
  repeat split; cbn; try discriminate; try easy.
  intros [|b before] between after t He; discriminate.
Qed.

Lemma run_Inv es : forall s, Inv s -> Inv (run s es).
Proof.
  unfold Conc_Model.run. induction es as [|e es IH]; intros s HI; cbn; [exact HI|].
  apply IH. now apply step_Inv.
Qed.

Lemma reachable_Inv s : reachable loads s -> Inv s.
Proof. intros (es & ->). apply run_Inv, init_Inv. Qed.
End P.

From Verif Require Import Base Base_Lemmas Serial_Model.
From Coq Require Import Lia.

(** * One query after the other (specification) *)
Section Spec.
Variables S I W R A : Type.
Variable world : W -> S -> S.
Variable query_body : R -> S -> S * coroutine S I A.

(** A coroutine running with no other query around, from state [s] to [s'],
    where it stands at [co']. *)
Inductive alone : S * coroutine S I A -> S * coroutine S I A -> Prop :=
| alone_here x : alone x x
| alone_world x s co w : alone x (s, co) -> alone x (world w s, co)
| alone_step x s next i : alone x (s, Await next) -> alone x (next i s).

(** [h]: the queries, latest first, made one at a time, each to its end;
    the world may change things in between. *)
Inductive one_by_one (req : nat -> R -> Prop) (s0 : S) : list (nat * res A) -> S -> Prop :=
| ob_none : one_by_one req s0 [] s0
| ob_world h s w : one_by_one req s0 h s -> one_by_one req s0 h (world w s)
| ob_query h s t r s' v :
    one_by_one req s0 h s -> req t r ->
    alone (query_body r s) (s', Return v) ->
    one_by_one req s0 ((t, v) :: h) s'.
End Spec.

Section P.
Variables S I W R A : Type.
Variable world : W -> S -> S.
Variable query_body : R -> S -> S * coroutine S I A.
Notation state := (state S I R A).
Notation step := (step S I W R A world query_body).
Notation run := (run S I W R A world query_body).
Notation alone := (alone S I W A world).
Notation one_by_one := (one_by_one S I W R A world query_body).

Definition called (c : state) (t : nat) (r : R) : Prop :=
  exists k, tasks c t = Some k /\ request k = r.
Definition returned (c : state) (t : nat) (v : res A) : Prop :=
  exists k, tasks c t = Some k /\ at_ k = Done v.
Definition inside (c : state) (t : nat) (co : coroutine S I A) : Prop :=
  exists k, tasks c t = Some k /\ at_ k = Inside co.

Definition Inv (s0 : S) (c : state) : Prop :=
  (forall t co, inside c t co -> holder c = Some t) /\
  (forall t v, In (t, v) (finished c) -> returned c t v) /\
  (forall t v, returned c t v -> In (t, v) (finished c) \/ v = Err Cancelled) /\
  NoDup (map fst (finished c)) /\
  match holder c with
  | None => one_by_one (called c) s0 (finished c) (shared c)
  | Some t => exists r co s, called c t r /\ inside c t co /\
      one_by_one (called c) s0 (finished c) s /\ alone (query_body r s) (shared c, co)
  end.

Lemma upd_same {B} (f : nat -> B) k v : upd f k v k = v.
Proof. unfold upd. now rewrite Nat.eqb_refl. Qed.
Lemma upd_other {B} (f : nat -> B) k v i : i <> k -> upd f k v i = f i.
Proof. unfold upd. intros H. now apply Nat.eqb_neq in H as ->. Qed.

Lemma one_by_one_mono (q q' : nat -> R -> Prop) s0 h s :
  (forall t r, q t r -> q' t r) -> one_by_one q s0 h s -> one_by_one q' s0 h s.
Proof.
  intros H Ho. induction Ho; [constructor|now constructor|]. eapply ob_query; eauto.
Qed.

(** Replacing the place of [t], with the same request, keeps who was called. *)
Lemma called_goto c t r p h sh f : called c t r ->
  forall u q, called c u q -> called (mkState h sh (goto S I R A c t r p) f) u q.
Proof.
  intros (k & Hk & Hr) u q (k' & Hk' & Hq). unfold called, goto. cbn. unfold upd.
  destruct (Nat.eqb_spec u t) as [->|Hn]; [|eauto].
  eexists. split; [reflexivity|]. cbn. congruence.
Qed.

Lemma settle_Inv s0 c t k s1 x :
  tasks c t = Some k -> (forall v, at_ k <> Done v) ->
  (forall u co, u <> t -> ~ inside c u co) ->
  (forall u v, In (u, v) (finished c) -> returned c u v) ->
  (forall u v, returned c u v -> In (u, v) (finished c) \/ v = Err Cancelled) ->
  NoDup (map fst (finished c)) ->
  one_by_one (called c) s0 (finished c) s1 ->
  alone (query_body (request k) s1) x ->
  Inv s0 (settle S I R A c t (request k) x).
Proof.
  intros Ht Hnd Hni Hf Hr Hd Ho Ha.
  assert (Hc : called c t (request k)) by (exists k; auto).
  assert (Hout : ~ In t (map fst (finished c))).
  { intros Hi. apply in_map_iff in Hi as ((u & v) & He & Hi). cbn in He. subst u.
    destruct (Hf _ _ Hi) as (k' & Hk' & Hd'). rewrite Ht in Hk'. injection Hk' as <-.
    now apply (Hnd v). }
  destruct x as [s2 [v|next]]; unfold settle; cbn [fst snd].
  - split; [|split; [|split; [|split]]]; cbn.
    + intros u co (k' & Hk' & Hi). cbn in Hk'. unfold goto, upd in Hk'.
      destruct (Nat.eqb_spec u t) as [->|Hn]; [injection Hk' as <-; discriminate|].
      exfalso. eapply (Hni u co Hn). exists k'. auto.
    + intros u w [[= -> ->]|Hi].
      * eexists. cbn. unfold goto. rewrite upd_same. split; reflexivity.
      * destruct (Hf _ _ Hi) as (k' & Hk' & Hd'). exists k'. cbn. unfold goto.
        rewrite upd_other; [auto|]. intros ->. apply Hout. apply in_map_iff. exists (t, w). auto.
    + intros u w (k' & Hk' & Hd'). cbn in Hk'. unfold goto, upd in Hk'.
      destruct (Nat.eqb_spec u t) as [->|Hn].
      * injection Hk' as <-. cbn in Hd'. injection Hd' as ->. auto.
      * destruct (Hr u w) as [Hx|Hx]; [exists k'; auto|auto|auto].
    + now constructor.
    + eapply ob_query; [| |exact Ha].
      * eapply one_by_one_mono; [|exact Ho]. now apply called_goto.
      * now apply called_goto.
  - split; [|split; [|split; [|split]]]; cbn.
    + intros u co (k' & Hk' & Hi). cbn in Hk'. unfold goto, upd in Hk'.
      destruct (Nat.eqb_spec u t) as [->|Hn]; [reflexivity|].
      exfalso. eapply (Hni u co Hn). exists k'. auto.
    + intros u w Hi. destruct (Hf _ _ Hi) as (k' & Hk' & Hd'). exists k'. cbn. unfold goto.
      rewrite upd_other; [auto|]. intros ->. apply Hout. apply in_map_iff. exists (t, w). auto.
    + intros u w (k' & Hk' & Hd'). cbn in Hk'. unfold goto, upd in Hk'.
      destruct (Nat.eqb_spec u t) as [->|Hn]; [injection Hk' as <-; discriminate|].
      apply (Hr u w). exists k'. auto.
    + exact Hd.
    + exists (request k), (Await next), s1. split; [now apply called_goto|]. split; [|split].
      * eexists. cbn. unfold goto. rewrite upd_same. split; reflexivity.
      * eapply one_by_one_mono; [|exact Ho]. now apply called_goto.
      * exact Ha.
Qed.

(** Changing the place of somebody who is not inside. *)
Lemma outside_Inv s0 c t r p :
  Inv s0 c -> (forall k, tasks c t = Some k -> request k = r /\ at_ k = Waiting) ->
  (p = Waiting \/ (tasks c t <> None /\ p = Done (Err Cancelled))) ->
  Inv s0 (mkState (holder c) (shared c) (goto S I R A c t r p) (finished c)).
Proof.
  intros (H1 & H2 & H3 & H4 & H5) Hk Hp.
  assert (Hm : forall u q, called c u q ->
    called (mkState (holder c) (shared c) (goto S I R A c t r p) (finished c)) u q).
  { intros u q (k' & Hk' & Hq). unfold called, goto. cbn. unfold upd.
    destruct (Nat.eqb_spec u t) as [->|Hn]; [|eauto].
    destruct (Hk _ Hk') as [Hr _]. eexists. split; [reflexivity|]. cbn. congruence. }
  assert (Hin : forall u co, inside c u co ->
    inside (mkState (holder c) (shared c) (goto S I R A c t r p) (finished c)) u co).
  { intros u co (k' & Hk' & Hi). exists k'. cbn. unfold goto. rewrite upd_other; [auto|].
    intros ->. destruct (Hk _ Hk'). congruence. }
  split; [|split; [|split; [|split]]]; cbn.
  - intros u co (k' & Hk' & Hi). cbn in Hk'. unfold goto, upd in Hk'.
    destruct (Nat.eqb_spec u t) as [->|Hn].
    + injection Hk' as <-. cbn in Hi. destruct Hp as [->|(_ & ->)]; discriminate.
    + apply (H1 u co). exists k'. auto.
  - intros u v Hi. destruct (H2 u v Hi) as (k' & Hk' & Hd). exists k'. cbn. unfold goto.
    rewrite upd_other; [auto|]. intros ->. destruct (Hk _ Hk'). congruence.
  - intros u v (k' & Hk' & Hd). cbn in Hk'. unfold goto, upd in Hk'.
    destruct (Nat.eqb_spec u t) as [->|Hn].
    + injection Hk' as <-. cbn in Hd. destruct Hp as [->|(_ & ->)]; [discriminate|].
      injection Hd as <-. now right.
    + apply H3. exists k'. auto.
  - exact H4.
  - destruct (holder c) as [h|].
    + destruct H5 as (q & co & s & Hc & Hi & Ho & Ha). exists q, co, s.
      split; [now apply Hm|]. split; [now apply Hin|]. split; [|exact Ha].
      eapply one_by_one_mono; [exact Hm|exact Ho].
    + eapply one_by_one_mono; [exact Hm|exact H5].
Qed.

Lemma step_Inv s0 c e : Inv s0 c -> Inv s0 (step c e).
Proof.
  intros HI. pose proof HI as (H1 & H2 & H3 & H4 & H5).
  destruct e as [t r|t|t i|t|w]; cbn [Serial_Model.step].
  - destruct (tasks c t) as [k|] eqn:Et; [exact HI|].
    apply outside_Inv; [exact HI|congruence|now left].
  - destruct (tasks c t) as [k|] eqn:Et; [|exact HI].
    destruct (at_ k) eqn:Ek; try exact HI. destruct (holder c) as [h|] eqn:Eh; [exact HI|].
    eapply settle_Inv; eauto.
    + congruence.
    + intros u co Hn Hi. apply H1 in Hi. congruence.
    + constructor.
  - destruct (tasks c t) as [k|] eqn:Et; [|exact HI].
    destruct (at_ k) as [|co|v] eqn:Ek; try exact HI. destruct co as [v|next]; [exact HI|].
    assert (Hh : holder c = Some t) by (apply (H1 t (Await next)); exists k; auto).
    rewrite Hh in H5. destruct H5 as (r & co & s & (k1 & Hk1 & Hr) & (k2 & Hk2 & Hco) & Ho & Ha).
    assert (k1 = k) as -> by congruence. assert (k2 = k) as -> by congruence.
    rewrite Ek in Hco. injection Hco as <-. subst r.
    eapply settle_Inv; eauto.
    + congruence.
    + intros u co Hn Hi. apply H1 in Hi. congruence.
    + now apply alone_step.
  - destruct (tasks c t) as [k|] eqn:Et; [|exact HI].
    destruct (at_ k) eqn:Ek; try exact HI.
    apply outside_Inv; [exact HI| |right; split; [congruence|reflexivity]].
    intros k' Hk'. assert (k' = k) as -> by congruence. auto.
  - split; [|split; [|split; [|split]]]; cbn; auto.
    destruct (holder c) as [h|].
    + destruct H5 as (r & co & s & Hc & Hi & Ho & Ha). exists r, co, s.
      split; [exact Hc|]. split; [exact Hi|]. split; [exact Ho|]. now apply alone_world.
    + now constructor.
Qed.

Lemma init_Inv s0 : Inv s0 (init S I R A s0).
Proof.
  split; [|split; [|split; [|split]]]; cbn.
  - intros t co (k & Hk & _). discriminate.
  - intros t v [].
  - intros t v (k & Hk & _). discriminate.
  - constructor.
  - constructor.
Qed.

Lemma run_Inv s0 es : Inv s0 (run (init S I R A s0) es).
Proof.
  unfold Serial_Model.run. generalize (init_Inv s0). generalize (init S I R A s0).
  induction es as [|e es IH]; intros c Hc; cbn; [exact Hc|]. apply IH. now apply step_Inv.
Qed.

(** C103: every schedule has the effect, and gives every caller the result, of
    making the same queries one at a time, in the order in which they ended;
    whoever was cancelled while still waiting did nothing. *)
Theorem queries_serial s0 es : let c := run (init S I R A s0) es in
  (forall t co, ~ inside c t co) ->
  one_by_one (called c) s0 (finished c) (shared c) /\
  NoDup (map fst (finished c)) /\
  (forall t v, In (t, v) (finished c) -> returned c t v) /\
  (forall t v, returned c t v -> In (t, v) (finished c) \/ v = Err Cancelled).
Proof.
  intros c Hn. destruct (run_Inv s0 es) as (H1 & H2 & H3 & H4 & H5). fold c in H1, H2, H3, H4, H5.
  split; [|auto]. destruct (holder c) as [h|]; [|exact H5].
  destruct H5 as (r & co & s & _ & Hi & _). exfalso. eapply Hn; eauto.
Qed.

(** C103: in the middle of things, exactly one query is partly done and the
    others have been made one at a time. *)
Theorem queries_serial_midway s0 es t co : let c := run (init S I R A s0) es in
  inside c t co ->
  (forall u co', inside c u co' -> u = t) /\
  exists r s, called c t r /\ one_by_one (called c) s0 (finished c) s /\
    alone (query_body r s) (shared c, co).
Proof.
  intros c Hi. destruct (run_Inv s0 es) as (H1 & H2 & H3 & H4 & H5). fold c in H1, H2, H3, H4, H5.
  split.
  { intros u co' Hu. apply H1 in Hu, Hi. congruence. }
  rewrite (H1 _ _ Hi) in H5. destruct H5 as (r & co2 & s & Hc & Hi2 & Ho & Ha).
  exists r, s. split; [exact Hc|]. split; [exact Ho|].
  destruct Hi as (k & Hk & Hco). destruct Hi2 as (k2 & Hk2 & Hco2).
  assert (k2 = k) as -> by congruence. assert (co2 = co) as -> by congruence. exact Ha.
Qed.

(** C103: the order respects time: what has ended stays before whatever ends
    later, so a query made after another one ended comes after it. *)
Theorem queries_serial_order c es : exists later, finished (run c es) = later ++ finished c.
Proof.
  unfold Serial_Model.run. revert c. induction es as [|e es IH]; intros c; cbn [fold_left].
  { now exists []. }
  destruct (IH (step c e)) as (l & ->).
  assert (H : exists l', finished (step c e) = l' ++ finished c).
  { assert (Hs : forall t r x, exists l', finished (settle S I R A c t r x) = l' ++ finished c).
    { intros t r [s [v|next]]; cbn; [now exists [(t, v)]|now exists []]. }
    destruct e as [t r|t|t i|t|w]; cbn [Serial_Model.step]; try destruct (tasks c t) as [k|];
      try destruct (at_ k) as [|co|v]; try destruct (holder c); try destruct co as [v|next];
      first [apply Hs|now exists []]. }
  destruct H as (l' & ->). exists (l ++ l'). now rewrite app_assoc.
Qed.
End P.
Print Assumptions queries_serial.
Print Assumptions queries_serial_midway.
Print Assumptions queries_serial_order.

(** * A protocol whose body numbers its two requests from a shared counter:
    interleaved, two queries would use each other's numbers. *)
Definition numbered (r : nat) (s : nat) : nat * coroutine nat nat (nat * nat) :=
  (Datatypes.S s, Await (fun _ s1 => (Datatypes.S s1, Await (fun _ s2 => (s2, Return (Ok (s, s1))))))).

Example two_at_once :
  let c := run nat nat unit nat (nat * nat) (fun _ s => s) numbered (init nat nat nat (nat * nat) 7)
    [EQuery 0 0; EQuery 1 0; EQuery 2 0; EAcquire 1; EAcquire 0; EResume 0 5; EResume 1 5;
     ECancelWait 2; EAcquire 0; EResume 1 5; EAcquire 0; EResume 0 1; EResume 0 1] in
  finished c = [(0, Ok (9, 10)); (1, Ok (7, 8))] /\ returned _ _ _ _ c 2 (Err Cancelled) /\
  forall t co, ~ inside _ _ _ _ c t co.
Proof.
  cbv zeta. split; [reflexivity|]. split; [eexists; split; reflexivity|].
  intros t co (k & Hk & Hi). do 3 (destruct t as [|t]; [cbn in Hk; injection Hk as <-; discriminate|]).
  discriminate.
Qed.

(** C30: the reported switch-on time. *)
From Verif Require Import Base Py OnSince_Model.
From Coq Require Import Lia.
Open Scope list_scope.
Open Scope Z_scope.

(** The start a reading implies. *)
Definition implied (r : reading) (s : Z) : Prop := is_on r = true /\ exists t, on_time r = Some t /\ s = clock r - t * SECOND.
Definition off (r : reading) : Prop := is_on r = false.
(** Readings of a device that was started at [s], with up to [j] of jitter. *)
Definition started_at (s j : Z) (r : reading) : Prop := exists c, implied r c /\ s - j <= c <= s + j.

Lemma keep_spec c s : keep c s = match c with None => Some s | Some c => if 5 * SECOND <? s - c then Some s else Some c end.
Proof.
  destruct c as [c|]; [|reflexivity]. cbn [keep]. destruct (5 * SECOND <? s - c) eqn:E; [|now rewrite andb_false_r].
  apply Z.ltb_lt in E. unfold SECOND in E. assert (H : (0 <? s - c) = true) by (apply Z.ltb_lt; lia). now rewrite H.
Qed.
Lemma on_since_on k c r s : implied r s -> on_since k c r = (keep c s, Ok (keep c s)).
Proof. intros (H1 & t & H2 & ->). unfold on_since. rewrite H1, H2. destruct k; reflexivity. Qed.

Lemma stable_run k s j : 0 <= 2 * j <= 5 * SECOND -> forall rs c, s - j <= c <= s + j -> Forall (started_at s j) rs ->
  readings k (Some c) rs = map (fun _ => Ok (Some c)) rs.
Proof.
  intros Hj rs. induction rs as [|r rs IH]; intros c Hc Hf; [reflexivity|]. apply Forall_cons_iff in Hf. destruct Hf as [(s' & Hs' & Hr) Hf].
  cbn [readings map]. rewrite (on_since_on k (Some c) r s' Hs'), keep_spec.
  assert (E : (5 * SECOND <? s' - c) = false) by (apply Z.ltb_ge; lia). rewrite E. f_equal. now apply IH.
Qed.
Lemma readings_app k rs rs' c : exists c', readings k c (rs ++ rs') = readings k c rs ++ readings k c' rs'.
Proof.
  revert c. induction rs as [|r rs IH]; intro c; cbn; [exists c; reflexivity|]. destruct (on_since k c r) as [c1 v]. destruct (IH c1) as [c' H]. exists c'. now rewrite H.
Qed.
(** While the device stays on, readings whose jitter is at most 2.5 s either way (5 s
    apart from each other) all report one instant, within the jitter of the start;
    after a later start the first such reading is reported; when off, nothing. *)
Theorem on_since_stable_partial : forall k s j, 0 <= 2 * j <= 5 * SECOND ->
  (forall r rs, Forall (started_at s j) (r :: rs) ->
     exists c, s - j <= c <= s + j /\ readings k None (r :: rs) = map (fun _ => Ok (Some c)) (r :: rs)) /\
  (forall c r rs, c + 5 * SECOND < s - j -> Forall (started_at s j) (r :: rs) ->
     exists c', s - j <= c' <= s + j /\ readings k (Some c) (r :: rs) = map (fun _ => Ok (Some c')) (r :: rs)) /\
  (forall c r rs, off r -> readings k c (r :: rs) = Ok None :: readings k None rs).
Proof.
  intros k s j Hj. split; [|split].
  - intros r rs Hf. apply Forall_cons_iff in Hf. destruct Hf as [(s' & Hs' & Hr) Hf]. exists s'. split; [lia|].
    cbn [readings map]. rewrite (on_since_on k None r s' Hs'). cbn [keep]. f_equal. now apply (stable_run k s j).
  - intros c r rs Hc Hf. apply Forall_cons_iff in Hf. destruct Hf as [(s' & Hs' & Hr) Hf]. exists s'. split; [lia|].
    cbn [readings map]. rewrite (on_since_on k (Some c) r s' Hs'), keep_spec.
    assert (E : (5 * SECOND <? s' - c) = true) by (apply Z.ltb_lt; lia). rewrite E. f_equal. now apply (stable_run k s j).
  - intros c r rs Hr. cbn [readings]. unfold on_since. rewrite Hr. destruct k; reflexivity.
Qed.
Print Assumptions on_since_stable_partial.
(** For any readings at all: each reports what is implied by this reading or by an
    earlier one, and is at most 5 s behind what this reading implies. *)
Theorem on_since_history : forall k rs r t c, is_on r = true -> on_time r = Some t ->
  let s := clock r - t * SECOND in
  match readings k c (rs ++ [r]) with
  | l => exists v, last l (Ok None) = Ok (Some v) /\
         (v = s \/ (s <= v + 5 * SECOND /\ (Some v = c \/ exists r' , In r' rs /\ implied r' v)))
  end.
Proof.
  intros k rs r t c H1 H2 s. assert (Hs : implied r s) by (split; [exact H1|exists t; auto]). clearbody s.
  revert c. induction rs as [|r0 rs IH]; intro c.
  - cbn [readings app]. rewrite (on_since_on k c r s Hs), keep_spec. destruct c as [c|]; cbn [last].
    + destruct (5 * SECOND <? s - c) eqn:E; [exists s; auto|]. apply Z.ltb_ge in E. exists c. split; [reflexivity|]. right. split; [lia|auto].
    + exists s. auto.
  - cbn [app readings]. destruct (on_since k c r0) as [c1 v1] eqn:E1. destruct (IH c1) as (v & Hl & Hv). exists v. split.
    + destruct (readings k c1 (rs ++ [r])) as [|x l] eqn:El; [|exact Hl]. destruct rs; cbn in El; destruct (on_since k c1 _); discriminate.
    + destruct Hv as [Hv|[Hle [Hc|(r' & Hr' & Hi)]]]; [auto| |right; split; [exact Hle|right; exists r'; split; [right; exact Hr'|exact Hi]]].
      right. split; [exact Hle|]. unfold on_since in E1.
      assert (G : forall s0, implied r0 s0 -> Some v = keep c s0 -> Some v = c \/ exists r', In r' (r0 :: rs) /\ implied r' v).
      { intros s0 Hs0 Hk. rewrite keep_spec in Hk. destruct c as [c|].
        - destruct (5 * SECOND <? s0 - c); [right; exists r0; injection Hk as ->; split; [left; reflexivity|exact Hs0]|left; exact Hk].
        - right. exists r0. injection Hk as ->. split; [left; reflexivity|exact Hs0]. }
      destruct k; destruct (is_on r0) eqn:Eo; destruct (on_time r0) as [t0|] eqn:Et; injection E1 as <- <-; try discriminate;
        try (apply (G (clock r0 - t0 * SECOND)); [split; [exact Eo|exists t0; auto]|exact Hc]). left. exact Hc.
Qed.
Print Assumptions on_since_history.
Definition rd (t clk : Z) : reading := mkRd true (Some t) (clk * SECOND).
Example on_since_ex :
  Forall (started_at (100 * SECOND) (2 * SECOND)) [rd 1 101; rd 10 112; rd 20 118] /\
  readings KSmart None [rd 1 101; rd 10 112; rd 20 118; mkRd false (Some 0) 0; rd 1 201; rd 1 301] =
    [Ok (Some (100 * SECOND)); Ok (Some (100 * SECOND)); Ok (Some (100 * SECOND)); Ok None; Ok (Some (200 * SECOND)); Ok (Some (300 * SECOND))].
Proof.
  split; [|reflexivity]. repeat (apply Forall_cons; [unfold started_at; eexists; split; [split; [reflexivity|eexists; split; reflexivity]|unfold SECOND; cbn; lia]|]). constructor.
Qed.
(** The clock of the device enters: setting it forward counts as a new start although
    the counter went on; setting it back leaves a wrong start for good. *)
Theorem on_since_clock_refuted :
  (exists rs, map on_time rs = [Some 10; Some 20] /\ readings KSmart None rs = [Ok (Some (100 * SECOND)); Ok (Some (3700 * SECOND))]) /\
  (forall n, exists rs, length rs = n /\ Forall (started_at (100 * SECOND) 0) rs /\
     readings KSmart None (rd 10 3710 :: rs) = Ok (Some (3700 * SECOND)) :: map (fun _ => Ok (Some (3700 * SECOND))) rs).
Proof.
  split; [exists [rd 10 110; rd 20 3720]; split; reflexivity|].
  intro n. exists (repeat (rd 20 120) n). split; [apply repeat_length|]. split.
  - apply Forall_forall. intros x Hx. apply repeat_spec in Hx. subst x. exists (100 * SECOND). split; [split; [reflexivity|exists 20; split; reflexivity]|lia].
  - cbn [readings on_since rd is_on on_time clock keep]. change (3710 * SECOND - 10 * SECOND) with (3700 * SECOND). f_equal.
    induction n as [|n IH]; [reflexivity|]. cbn [repeat readings map]. unfold on_since at 1. cbn [is_on on_time clock rd]. rewrite keep_spec.
    change (5 * SECOND <? 120 * SECOND - 20 * SECOND - 3700 * SECOND) with false. cbv iota. f_equal. exact IH.
Qed.
Print Assumptions on_since_clock_refuted.
(** A socket that is on but has no counter raises. *)
Theorem on_since_socket_refuted : exists r, is_on r = true /\ readings KSocket None [r] = [Err PyKeyError] /\ readings KIot None [r] = [Ok None].
Proof. exists (mkRd true None 0). repeat split. Qed.
Print Assumptions on_since_socket_refuted.

(** Facts about the vocabulary of [Base]. *)
From Verif Require Import Base.
From Coq Require Export Lia.

Lemma seqb_refl s : String.eqb s s = true.
Proof. apply String.eqb_refl. Qed.

Lemma seqb_neq s t : s <> t -> String.eqb s t = false.
Proof. intro H; apply String.eqb_neq; exact H. Qed.

Section Dict.
Context {A : Type}.
Implicit Types (d e : dict A) (k : string) (v : A).

Lemma dget_dset_same k v d : dget k (dset k v d) = Some v.
Proof.
  induction d as [|[k' v'] d IH]; cbn; [now rewrite seqb_refl|].
  destruct (String.eqb k k') eqn:E; cbn; [now rewrite seqb_refl|now rewrite E].
Qed.

Lemma dget_dset_other k k' v d : k <> k' -> dget k (dset k' v d) = dget k d.
Proof.
  intros Hn; induction d as [|[k0 v0] d IH]; cbn.
  - now rewrite (seqb_neq _ _ Hn).
  - destruct (String.eqb k' k0) eqn:E; cbn.
    + apply String.eqb_eq in E; subst k0. now rewrite (seqb_neq _ _ Hn).
    + destruct (String.eqb k k0); [reflexivity|exact IH].
Qed.

Lemma dget_dset k k' v d :
  dget k (dset k' v d) = if String.eqb k k' then Some v else dget k d.
Proof.
  destruct (String.eqb k k') eqn:E.
  - apply String.eqb_eq in E; subst; apply dget_dset_same.
  - apply String.eqb_neq in E; now apply dget_dset_other.
Qed.

Lemma dget_ddel k k' d :
  dget k (ddel k' d) = if String.eqb k k' then None else dget k d.
Proof.
  induction d as [|[k0 v0] d IH]; cbn; [now destruct (String.eqb k k')|].
  destruct (String.eqb k' k0) eqn:E; cbn.
  - rewrite IH. apply String.eqb_eq in E; subst k0.
    destruct (String.eqb k k'); reflexivity.
  - rewrite IH. destruct (String.eqb k k') eqn:E2; [|reflexivity].
    apply String.eqb_eq in E2; subst. now rewrite E.
Qed.

Lemma dget_In k v d : dget k d = Some v -> In (k, v) d.
Proof.
  induction d as [|[k0 v0] d IH]; cbn; [discriminate|].
  destruct (String.eqb k k0) eqn:E.
  - intros H; injection H as <-. apply String.eqb_eq in E; subst; now left.
  - intros H; right; auto.
Qed.

Lemma dget_Some_key k v d : dget k d = Some v -> In k (dkeys d).
Proof. intros H; apply dget_In in H. apply (in_map fst) in H; exact H. Qed.

Lemma dget_None k d : dget k d = None <-> ~ In k (dkeys d).
Proof.
  induction d as [|[k0 v0] d IH]; cbn; [tauto|].
  destruct (String.eqb k k0) eqn:E.
  - apply String.eqb_eq in E; subst. split; [discriminate|intros H; exfalso; apply H; now left].
  - apply String.eqb_neq in E. rewrite IH. split; intros H; [intros [H'|H']; [congruence|tauto]|tauto].
Qed.

Lemma dget_key_Some k d : In k (dkeys d) -> exists v, dget k d = Some v.
Proof.
  intros H. destruct (dget k d) as [v|] eqn:E; [now exists v|].
  apply dget_None in E; contradiction.
Qed.

Lemma dmem_In k d : dmem k d = true <-> In k (dkeys d).
Proof.
  unfold dmem. destruct (dget k d) as [v|] eqn:E.
  - split; [intros _; eapply dget_Some_key; eauto|auto].
  - apply dget_None in E. split; [discriminate|contradiction].
Qed.

Lemma In_dget k v d : dwf d -> In (k, v) d -> dget k d = Some v.
Proof.
  unfold dwf; induction d as [|[k0 v0] d IH]; cbn; [tauto|].
  intros Hnd [H|H].
  - injection H as -> ->. now rewrite seqb_refl.
  - inversion Hnd as [|? ? Hni Hnd']; subst.
    destruct (String.eqb k k0) eqn:E.
    + apply String.eqb_eq in E; subst. exfalso; apply Hni.
      apply (in_map fst) in H; exact H.
    + apply IH; assumption.
Qed.

Lemma dkeys_dset k v d :
  dkeys (dset k v d) = if smem k (dkeys d) then dkeys d else dkeys d ++ [k].
Proof.
  unfold dkeys, smem in *.
  induction d as [|[k0 v0] d IH]; cbn; [reflexivity|].
  destruct (String.eqb k k0) eqn:E; cbn.
  - apply String.eqb_eq in E; now subst.
  - rewrite IH. destruct (existsb (String.eqb k) (map fst d)); reflexivity.
Qed.

Lemma smem_In k (l : list string) : smem k l = true <-> In k l.
Proof.
  unfold smem. rewrite existsb_exists. split.
  - intros [x [H1 H2]]. apply String.eqb_eq in H2; now subst.
  - intros H; exists k; split; [exact H|apply seqb_refl].
Qed.

Lemma smem_false k (l : list string) : smem k l = false <-> ~ In k l.
Proof.
  rewrite <- smem_In. destruct (smem k l); split; intros H; try congruence; try tauto.
Qed.

Lemma In_dkeys_dset k k' v d : In k (dkeys (dset k' v d)) <-> k = k' \/ In k (dkeys d).
Proof.
  rewrite dkeys_dset. destruct (smem k' (dkeys d)) eqn:E.
  - apply smem_In in E. split; [tauto|intros [->|H]; assumption].
  - rewrite in_app_iff; cbn. split; [intros [H|[H|[]]]; auto|intros [H|H]; auto].
Qed.

Lemma dwf_dset k v d : dwf d -> dwf (dset k v d).
Proof.
  unfold dwf. rewrite dkeys_dset. destruct (smem k (dkeys d)) eqn:E; [auto|].
  apply smem_false in E. intros H.
  apply NoDup_rev in H. rewrite <- (rev_involutive (dkeys d ++ [k])).
  apply NoDup_rev. rewrite rev_app_distr; cbn. constructor; [|exact H].
  rewrite <- in_rev; exact E.
Qed.

Lemma dwf_nil : dwf (@nil (string * A)).
Proof. constructor. Qed.

Lemma dwf_dupdate e : forall d, dwf d -> dwf (dupdate d e).
Proof.
  unfold dupdate. induction e as [|[k v] e IH]; cbn; intros d H; [exact H|].
  apply IH, dwf_dset, H.
Qed.

(** The value of a key after [update]: the last occurrence in [e], else the old one. *)
Lemma dget_dupdate k e : forall d,
  dget k (dupdate d e) = match dget k (rev e) with Some v => Some v | None => dget k d end.
Proof.
  unfold dupdate. induction e as [|[k0 v0] e IH]; cbn; intros d; [reflexivity|].
  rewrite IH. clear IH.
  assert (Happ : forall l, dget k (l ++ [(k0, v0)]) =
            match dget k l with Some v => Some v
            | None => if String.eqb k k0 then Some v0 else None end).
  { induction l as [|[k1 v1] l IHl]; cbn; [reflexivity|].
    destruct (String.eqb k k1); [reflexivity|exact IHl]. }
  rewrite Happ. destruct (dget k (rev e)) as [v|]; [reflexivity|].
  rewrite dget_dset. destruct (String.eqb k k0); reflexivity.
Qed.

Lemma dget_rev k d : dwf d -> dget k (rev d) = dget k d.
Proof.
  intros Hw.
  assert (Hw' : dwf (rev d)).
  { unfold dwf, dkeys in *. rewrite map_rev. now apply NoDup_rev. }
  destruct (dget k d) as [v|] eqn:E.
  - apply In_dget; [exact Hw'|]. rewrite <- in_rev. now apply dget_In.
  - apply dget_None in E. apply dget_None. unfold dkeys in *.
    rewrite map_rev, <- in_rev. exact E.
Qed.

Lemma dget_dupdate_wf k d e : dwf e ->
  dget k (dupdate d e) = match dget k e with Some v => Some v | None => dget k d end.
Proof. intros H. rewrite dget_dupdate, dget_rev by exact H. reflexivity. Qed.

Lemma In_dkeys_dupdate k e : forall d,
  In k (dkeys (dupdate d e)) <-> In k (dkeys d) \/ In k (dkeys e).
Proof.
  induction e as [|[k0 v0] e IH]; intros d; [cbn; tauto|].
  change (dupdate d ((k0, v0) :: e)) with (dupdate (dset k0 v0 d) e).
  rewrite IH, In_dkeys_dset. cbn. intuition.
Qed.

Lemma dget_app k d e :
  dget k (d ++ e) = match dget k d with Some v => Some v | None => dget k e end.
Proof.
  induction d as [|[k0 v0] d IH]; cbn; [reflexivity|].
  destruct (String.eqb k k0); [reflexivity|exact IH].
Qed.

End Dict.

(** Induction principle for the nested type [json]. *)
Section JsonInd.
Variable P : json -> Prop.
Hypothesis Hnull : P JNull.
Hypothesis Hbool : forall b, P (JBool b).
Hypothesis Hint : forall z, P (JInt z).
Hypothesis Hflt : forall s, P (JFloat s).
Hypothesis Hstr : forall s, P (JStr s).
Hypothesis Harr : forall l, Forall P l -> P (JArr l).
Hypothesis Hobj : forall d, Forall (fun kv => P (snd kv)) d -> P (JObj d).

Fixpoint json_ind' (j : json) : P j :=
  match j with
  | JNull => Hnull
  | JBool b => Hbool b
  | JInt z => Hint z
  | JFloat s => Hflt s
  | JStr s => Hstr s
  | JArr l => Harr l ((fix go (l : list json) : Forall P l :=
                match l with
                | [] => Forall_nil _
                | x :: l' => Forall_cons _ (json_ind' x) (go l')
                end) l)
  | JObj d => Hobj d ((fix go (d : list (string * json)) : Forall (fun kv => P (snd kv)) d :=
                match d with
                | [] => Forall_nil _
                | kv :: d' => Forall_cons kv (json_ind' (snd kv)) (go d')
                end) d)
  end.
End JsonInd.

From Verif Require Import Base Base_Lemmas Py Codes_Model Smart_Model Smart_Spec.
From Coq Require Import Lia.
Open Scope Z_scope.

(** ** Monad inversion *)
Lemma mbind_inv {W A B} (m : M W A) (f : A -> M W B) w w' b :
  mbind m f w = (w', Ok b) -> exists w1 a, m w = (w1, Ok a) /\ f a w1 = (w', Ok b).
Proof. unfold mbind. destruct (m w) as [w1 [a|e]] eqn:E; intros H; [eauto|discriminate]. Qed.
Lemma mlift_inv {W A} (r : res A) (w w' : W) a :
  mlift r w = (w', Ok a) -> w' = w /\ r = Ok a.
Proof. unfold mlift. intros H. now injection H as <- ->. Qed.
Lemma mret_inv {W A} (a : A) (w w' : W) b : mret a w = (w', Ok b) -> w' = w /\ a = b.
Proof. unfold mret. intros H. now injection H as <- <-. Qed.
Lemma mbind_ok {W A B} (m : M W A) (f : A -> M W B) w w1 a :
  m w = (w1, Ok a) -> mbind m f w = f a w1.
Proof. unfold mbind. now intros ->. Qed.

Ltac minv H :=
  let w1 := fresh "w" in let a := fresh "a" in let H1 := fresh "Hm" in
  apply mbind_inv in H; destruct H as (w1 & a & H1 & H).

(** ** Codes *)
Lemma zmem_In z l : zmem z l = true <-> In z l.
Proof.
  unfold zmem. rewrite existsb_exists. split.
  - intros (x & Hx & E). apply Z.eqb_eq in E. now subst.
  - intros H. exists z. split; [exact H|apply Z.eqb_refl].
Qed.

Lemma reported_code_zmem z :
  (if zmem z smart_error_codes then z else INTERNAL_UNKNOWN_ERROR) = reported_code z.
Proof.
  unfold reported_code. destruct (in_dec Z.eq_dec z smart_error_codes) as [H|H].
  - apply zmem_In in H. now rewrite H.
  - destruct (zmem z smart_error_codes) eqn:E; [|reflexivity].
    apply zmem_In in E. contradiction.
Qed.

Definition exn_of_kind (k : kind) (c : Z) : res (option Z) :=
  match k with
  | KindSuccess => Ok None
  | KindRetryable => Err (KRetry (Some c))
  | KindAuthentication => Err (KAuth (Some c))
  | KindDevice => Err (KDevice (Some c))
  end.

(** Membership in a list is the only thing that matters: check by cases. *)
Lemma in_dec_all (P : Z -> Prop) l z : (forall x, In x l -> P x) -> (~ In z l -> P z) -> P z.
Proof. intros H1 H2. destruct (in_dec Z.eq_dec z l); auto. Qed.

Definition kind_eqb (a b : kind) : bool :=
  match a, b with
  | KindSuccess, KindSuccess | KindRetryable, KindRetryable
  | KindAuthentication, KindAuthentication | KindDevice, KindDevice => true
  | _, _ => false
  end.

Definition model_kind (z : Z) : kind :=
  if z =? 0 then KindSuccess
  else if zmem z smart_retryable_errors then KindRetryable
  else if zmem z smart_authentication_errors then KindAuthentication
  else KindDevice.

Lemma kind_unknown z : ~ In z (0 :: smart_retryable_errors ++ smart_authentication_errors) ->
  kind_of z = KindDevice.
Proof.
  intros H. unfold kind_of.
  assert (G : forall n, z = n -> In n (0 :: smart_retryable_errors ++ smart_authentication_errors) -> False)
    by (intros n -> Hn; exact (H Hn)).
  clear H.
  destruct z as [|p|p]; [exfalso; apply (G 0); [reflexivity|cbn; auto]| |];
  repeat (match goal with
    | |- match ?x with _ => _ end = _ => destruct x
    | |- KindDevice = _ => reflexivity
    | |- _ => exfalso; eapply G; [reflexivity|]; vm_compute; tauto
    end).
Qed.

Lemma kind_of_model z : kind_of z = model_kind z.
Proof.
  apply (in_dec_all (fun z => kind_of z = model_kind z)
          (0 :: smart_retryable_errors ++ smart_authentication_errors)).
  - intros x Hx. cbn in Hx.
    repeat (destruct Hx as [<-|Hx]; [vm_compute; reflexivity|]). contradiction.
  - intros H. rewrite kind_unknown by exact H. unfold model_kind.
    destruct (z =? 0) eqn:E0.
    { apply Z.eqb_eq in E0. subst. exfalso. apply H. now left. }
    destruct (zmem z smart_retryable_errors) eqn:E1.
    { apply zmem_In in E1. exfalso. apply H. right. apply in_or_app. now left. }
    destruct (zmem z smart_authentication_errors) eqn:E2; [|reflexivity].
    apply zmem_In in E2. exfalso. apply H. right. apply in_or_app. now right.
Qed.

Lemma special_known z : In z (0 :: smart_retryable_errors ++ smart_authentication_errors) ->
  zmem z smart_error_codes = true.
Proof.
  intros H. cbn in H.
  repeat (destruct H as [<-|H]; [vm_compute; reflexivity|]). contradiction.
Qed.

Lemma code_classification_lemma z resp : dget "error_code" resp = Some (JInt z) ->
  handle_response_error_code resp true = exn_of_kind (kind_of z) (reported_code z).
Proof.
  intros H. unfold handle_response_error_code. rewrite H. cbn [error_code_of bind].
  rewrite kind_of_model. unfold model_kind.
  destruct (zmem z smart_error_codes) eqn:Ek.
  - assert (Hr : reported_code z = z) by (rewrite <- reported_code_zmem; now rewrite Ek).
    rewrite Hr. destruct (z =? 0); [reflexivity|]. cbn [negb]. unfold code_exn.
    destruct (zmem z smart_retryable_errors); [reflexivity|].
    destruct (zmem z smart_authentication_errors); reflexivity.
  - assert (Hr : reported_code z = INTERNAL_UNKNOWN_ERROR) by (rewrite <- reported_code_zmem; now rewrite Ek).
    rewrite Hr.
    assert (Hn : forall l, In l [0 :: nil; smart_retryable_errors; smart_authentication_errors] -> ~ In z l).
    { intros l Hl Hz. assert (HI : In z (0 :: smart_retryable_errors ++ smart_authentication_errors)).
      { destruct Hl as [<-|[<-|[<-|[]]]].
        - destruct Hz as [<-|[]]. now left.
        - right. apply in_or_app. now left.
        - right. apply in_or_app. now right. }
      apply special_known in HI. congruence. }
    assert (E0 : (z =? 0) = false).
    { destruct (z =? 0) eqn:E; [|reflexivity]. apply Z.eqb_eq in E. subst.
      exfalso. apply (Hn [0]); [now left|now left]. }
    assert (E1 : zmem z smart_retryable_errors = false).
    { destruct (zmem z smart_retryable_errors) eqn:E; [|reflexivity].
      apply zmem_In in E. exfalso. apply (Hn smart_retryable_errors); [right; now left|exact E]. }
    assert (E2 : zmem z smart_authentication_errors = false).
    { destruct (zmem z smart_authentication_errors) eqn:E; [|reflexivity].
      apply zmem_In in E. exfalso. apply (Hn smart_authentication_errors); [right; right; now left|exact E]. }
    rewrite E0, E1, E2. reflexivity.
Qed.

Lemma reported_code_nonzero z : z <> 0 -> reported_code z <> 0.
Proof. intros H. unfold reported_code. destruct (in_dec _ _ _); [exact H|discriminate]. Qed.

Lemma code_not_raising_lemma z resp : dget "error_code" resp = Some (JInt z) ->
  handle_response_error_code resp false =
    Ok (if z =? 0 then None else Some (reported_code z)).
Proof.
  intros H. unfold handle_response_error_code. rewrite H. cbn [error_code_of bind].
  rewrite reported_code_zmem. destruct (z =? 0) eqn:E.
  - apply Z.eqb_eq in E. subst. reflexivity.
  - apply Z.eqb_neq in E. pose proof (reported_code_nonzero z E) as Hn.
    apply Z.eqb_neq in Hn. now rewrite Hn.
Qed.

Lemma missing_code_lemma resp b :
  dget "error_code" resp = None ->
  handle_response_error_code resp b =
    if b then Err (KDevice (Some (-100000))) else Ok (Some (-100000)).
Proof. intros H. unfold handle_response_error_code. rewrite H. now destruct b. Qed.

(** Every number has exactly one class; the tables do not overlap and are made
    of known codes. *)
Lemma code_tables_lemma :
  (forall z, In z smart_retryable_errors -> ~ In z smart_authentication_errors) /\
  (forall z, In z smart_retryable_errors \/ In z smart_authentication_errors ->
     z <> 0 /\ In z smart_error_codes /\ reported_code z = z) /\
  NoDup smart_error_codes.
Proof.
  split; [|split].
  - intros z H1 H2. apply zmem_In in H1. apply zmem_In in H2. revert H1 H2.
    unfold zmem, smart_retryable_errors, smart_authentication_errors. cbn [existsb].
    intros H1 H2.
    repeat (apply orb_prop in H1; destruct H1 as [H1|H1]); try discriminate;
      apply Z.eqb_eq in H1; subst z; vm_compute in H2; discriminate.
  - intros z H.
    assert (HI : In z (0 :: smart_retryable_errors ++ smart_authentication_errors)).
    { right. apply in_or_app. exact H. }
    pose proof (special_known z HI) as Hk. split; [|split].
    + intros ->. destruct H as [H|H]; cbn in H; intuition discriminate.
    + now apply zmem_In.
    + rewrite <- reported_code_zmem. now rewrite Hk.
  - assert (Hnd : forall l : list Z, (fix nd l := match l with [] => true
       | x :: t => negb (zmem x t) && nd t end) l = true -> NoDup l).
    { induction l as [|x l IH]; intros H; [constructor|].
      apply andb_prop in H. destruct H as [H1 H2]. constructor; [|auto].
      intros HI. apply zmem_In in HI. rewrite HI in H1. discriminate. }
    apply Hnd. vm_compute. reflexivity.
Qed.

(** Reading a report. *)
Lemma reports_false a r : reports a r ->
  handle_response_error_code r false =
    Ok (match a with AResult _ => None | AError c => Some (reported_code c) end).
Proof.
  destruct a as [j|c]; cbn.
  - intros [H _]. now rewrite (code_not_raising_lemma _ _ H).
  - intros [H1 H2]. rewrite (code_not_raising_lemma _ _ H2).
    apply Z.eqb_neq in H1. now rewrite H1.
Qed.

Lemma reports_true a r : reports a r ->
  match a with
  | AResult _ => handle_response_error_code r true = Ok None
  | AError c => exists e, handle_response_error_code r true = Err e /\ is_device_error e = true
  end.
Proof.
  destruct a as [j|c]; cbn.
  - intros [H _]. now rewrite (code_classification_lemma _ _ H).
  - intros [H1 H2]. rewrite (code_classification_lemma _ _ H2).
    rewrite kind_of_model. unfold model_kind. apply Z.eqb_neq in H1. rewrite H1.
    destruct (zmem c smart_retryable_errors); [eexists; split; reflexivity|].
    destruct (zmem c smart_authentication_errors); eexists; split; reflexivity.
Qed.

Lemma reports_result j r : reports (AResult j) r ->
  (match dget "result" r with Some v => v | None => JNull end) = j.
Proof. intros [_ [->|[-> ->]]]; reflexivity. Qed.

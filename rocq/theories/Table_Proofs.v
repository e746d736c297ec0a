(** The invariant of the discover commands. *)
From Verif Require Import Base Base_Lemmas Py Redact_Model Table_Model Table_Spec.
From Coq Require Import Permutation.
Open Scope string_scope.
Open Scope list_scope.

Lemma middle_cases {A} (l1 l2 a b : list A) x t : l1 ++ x :: l2 = a ++ t :: b ->
  (l1 = a /\ x = t /\ l2 = b) \/ (exists m, l1 = a ++ t :: m /\ b = m ++ x :: l2) \/ (exists m, a = l1 ++ x :: m /\ l2 = m ++ t :: b).
Proof.
  revert a. induction l1 as [|y l1 IH]; intros [|z a] E; cbn in E; injection E as E1 E2.
  - left. auto.
  - right. right. exists a. subst. auto.
  - right. left. exists l1. subst. auto.
  - destruct (IH a E2) as [(-> & -> & ->)|[(m & -> & ->)|(m & -> & ->)]]; subst z; [left; auto|right; left; exists m; auto|right; right; exists m; auto].
Qed.
Lemma set_stage_eq i g l t : nth_error l i = Some t ->
  exists a b, l = a ++ t :: b /\ i = List.length a /\ set_stage i g l = a ++ mkTask (t_answer t) g :: b.
Proof.
  intros E. destruct (nth_error_split _ _ E) as (a & b & -> & <-). exists a, b. split; [reflexivity|]. split; [reflexivity|].
  unfold set_stage. rewrite firstn_app, Nat.sub_diag, firstn_all, app_nil_r, skipn_app, Nat.sub_diag, skipn_all. reflexivity.
Qed.

Section Inv.
Context (model : string -> res string) (conn : string -> string * string * bool * option Z)
        (update : string -> res string) (state : string -> list string * option exn).
Notation told := (told model conn update state).
Notation fault := (fault model update state).
Notation step := (step model conn update state).
Notation after := (after model conn update state).

Definition outside (t : task) : Prop := match t_stage t with Queued _ | Ended _ => True | _ => False end.
Definition printed (c : cmd) (t : task) (cur : list line) : Prop :=
  exists ip, t_answer t = Device ip /\
  match t_stage t with
  | Updating => cur = [] /\ (c = Listing -> exists m, model ip = Ok m)
  | Printing l => c = Detail /\ (exists n, update ip = Ok n) /\ exists p, fst (state ip) = p ++ l /\ cur = map (Part ip) p
  | _ => False
  end.
Inductive focus (c : cmd) : list task -> option nat -> list line -> Prop :=
| focus_none l : Forall outside l -> focus c l None []
| focus_some l1 t l2 cur : Forall outside l1 -> Forall outside l2 -> printed c t cur -> focus c (l1 ++ t :: l2) (Some (List.length l1)) cur.

Lemma printed_inside c t cur : printed c t cur -> ~ outside t.
Proof. intros (ip & _ & H) O. unfold outside in O. destruct (t_stage t); tauto. Qed.
Lemma focus_outside c a t t' b h cur : focus c (a ++ t :: b) h cur -> outside t -> outside t' -> focus c (a ++ t' :: b) h cur.
Proof.
  intros F O O'. inversion F as [l Fa E1 E2 E3|l1 x l2 cur' F1 F2 P E1 E2 E3]; subst.
  - constructor. apply Forall_app in Fa. destruct Fa as [Fa Fb]. inversion Fb; subst. apply Forall_app. split; auto.
  - destruct (middle_cases _ _ _ _ _ _ E1) as [(-> & -> & ->)|[(m & -> & ->)|(m & -> & ->)]].
    + destruct (printed_inside _ _ _ P O).
    + apply Forall_app in F1. destruct F1 as [Fa Fb]. inversion Fb; subst.
      replace (a ++ t' :: m ++ x :: l2) with ((a ++ t' :: m) ++ x :: l2) by (rewrite <- app_assoc; reflexivity).
      replace (List.length (a ++ t :: m)) with (List.length (a ++ t' :: m)) by (rewrite !app_length; reflexivity).
      constructor; auto. apply Forall_app. split; auto.
    + apply Forall_app in F2. destruct F2 as [Fa Fb]. inversion Fb; subst. rewrite <- app_assoc. cbn. constructor; auto. apply Forall_app. split; auto.
Qed.
Lemma focus_inside c a t b h cur : focus c (a ++ t :: b) h cur -> ~ outside t ->
  h = Some (List.length a) /\ Forall outside a /\ Forall outside b /\ printed c t cur.
Proof.
  intros F O. inversion F as [l Fa E1 E2 E3|l1 x l2 cur' F1 F2 P E1 E2 E3]; subst.
  - apply Forall_app in Fa. destruct Fa as [_ Fb]. inversion Fb; subst. destruct (O H1).
  - destruct (middle_cases _ _ _ _ _ _ E1) as [(-> & -> & ->)|[(m & -> & ->)|(m & -> & ->)]].
    + auto.
    + apply Forall_app in F1. destruct F1 as [_ Fb]. inversion Fb; subst. destruct (O H1).
    + apply Forall_app in F2. destruct F2 as [_ Fb]. inversion Fb; subst. destruct (O H1).
Qed.
Lemma focus_free c a t b cur : focus c (a ++ t :: b) None cur -> Forall outside a /\ Forall outside b /\ cur = [].
Proof.
  intros F. inversion F as [l Fa|]; subst. apply Forall_app in Fa. destruct Fa as [Fa Fb]. inversion Fb; subst. auto.
Qed.

Definition ended_of (t : task) : list answer := match t_stage t with Ended _ => [t_answer t] | _ => [] end.
Definition ended (l : list task) : list answer := flat_map ended_of l.
Definition faulty (c : cmd) (t : task) : Prop :=
  match t_stage t with Ended (Err e) => exists ip, t_answer t = Device ip /\ fault c ip e | _ => True end.
Definition begun_unsupported (t : task) : nat :=
  match t_answer t, t_stage t with Unsupported _ _, Queued false => 0 | Unsupported _ _, _ => 1 | _, _ => 0 end.
Definition refused (t : task) : nat :=
  match t_answer t, t_stage t with Device ip, Ended _ => match update ip with Err (KAuth _) => 1 | _ => 0 end | _, _ => 0 end.
Definition sum (f : task -> nat) (l : list task) : nat := list_sum (map f l).

Record inv (c : cmd) (s : st) (es : list event) : Prop := mkInv {
  i_heard : map t_answer (tasks s) = heard es;
  i_out : exists cur order, focus c (tasks s) (holder s) cur /\ Permutation order (ended (tasks s)) /\ out s = flat_map (told c) order ++ cur;
  i_faulty : Forall (faulty c) (tasks s);
  i_unsupported : c = Detail -> unsupported s = sum begun_unsupported (tasks s);
  i_refused : c = Detail -> auth_failed s = sum refused (tasks s);
  i_waited : match waited s with
             | None => ~ In SendingEnds es
             | Some n => exists before later, es = before ++ SendingEnds :: later /\ ~ In SendingEnds before /\ n = List.length (heard before)
             end }.

Lemma heard_from_app es es' seen : heard_from seen (es ++ es') = heard_from seen es ++ heard_from (seen ++ map ip_of (heard_from seen es)) es'.
Proof.
  revert seen. induction es as [|e es IH]; intros seen; [cbn; rewrite app_nil_r; reflexivity|].
  destruct e as [a| | | | |]; cbn [app heard_from]; try apply IH.
  destruct (smem (ip_of a) seen); [apply IH|]. cbn [map app]. rewrite IH, <- app_assoc. reflexivity.
Qed.
Lemma heard_app es es' : heard (es ++ es') = heard es ++ heard_from (map ip_of (heard es)) es'.
Proof. unfold heard. rewrite heard_from_app. reflexivity. Qed.
Lemma heard_NoDup_from es seen : NoDup seen -> NoDup (seen ++ map ip_of (heard_from seen es)).
Proof.
  revert seen. induction es as [|e es IH]; intros seen N; [cbn; rewrite app_nil_r; exact N|].
  destruct e as [a| | | | |]; cbn [heard_from]; try apply (IH _ N).
  destruct (smem (ip_of a) seen) eqn:E; [apply (IH _ N)|]. cbn [map].
  replace (seen ++ ip_of a :: map ip_of (heard_from (seen ++ [ip_of a]) es)) with ((seen ++ [ip_of a]) ++ map ip_of (heard_from (seen ++ [ip_of a]) es))
    by (rewrite <- app_assoc; reflexivity).
  apply IH. apply NoDup_app_comm || idtac. apply (Permutation_NoDup (l := ip_of a :: seen)); [apply Permutation_cons_append|].
  constructor; [|exact N]. intros I. apply smem_In in I. congruence.
Qed.
Lemma heard_NoDup es : NoDup (map ip_of (heard es)).
Proof. apply (heard_NoDup_from es []). constructor. Qed.

Lemma ended_app l l' : ended (l ++ l') = ended l ++ ended l'.
Proof. apply flat_map_app. Qed.
Lemma sum_app f l l' : sum f (l ++ l') = sum f l + sum f l'.
Proof. unfold sum. rewrite map_app. apply list_sum_app. Qed.
Lemma sum_mid f a t t' b : sum f (a ++ t' :: b) + f t = sum f (a ++ t :: b) + f t'.
Proof. rewrite !sum_app. unfold sum. cbn. lia. Qed.
Lemma map_mid a t g b : map t_answer (a ++ mkTask (t_answer t) g :: b) = map t_answer (a ++ t :: b).
Proof. rewrite !map_app. reflexivity. Qed.
Lemma Forall_mid {A} (P : A -> Prop) a t t' b : Forall P (a ++ t :: b) -> P t' -> Forall P (a ++ t' :: b).
Proof. intros F H. apply Forall_app in F. destruct F as [Fa Fb]. inversion Fb; subst. apply Forall_app. split; auto. Qed.
Lemma ended_mid_same a t t' b : ended_of t = ended_of t' -> ended (a ++ t' :: b) = ended (a ++ t :: b).
Proof. intros E. rewrite !ended_app. cbn. rewrite E. reflexivity. Qed.
Lemma ended_mid_new a t r b order : ended_of t = [] -> Permutation order (ended (a ++ t :: b)) ->
  Permutation (order ++ [t_answer t]) (ended (a ++ mkTask (t_answer t) (Ended r) :: b)).
Proof.
  intros E P. rewrite ended_app in *. cbn in *. rewrite E in P. cbn in P. rewrite P.
  rewrite <- app_assoc. apply Permutation_app_head. symmetry. apply Permutation_cons_append.
Qed.
Lemma told_snoc c order a : flat_map (told c) (order ++ [a]) = flat_map (told c) order ++ told c a.
Proof. rewrite flat_map_app. cbn. rewrite app_nil_r. reflexivity. Qed.

(** The invariant carries over to another state of a task *)
Lemma inv_other c s es e o h n r w :
  (forall seen, heard_from seen [e] = []) -> e <> SendingEnds ->
  inv c s es ->
  forall a t g b cur' order',
    tasks s = a ++ t :: b ->
    focus c (a ++ mkTask (t_answer t) g :: b) h cur' ->
    Permutation order' (ended (a ++ mkTask (t_answer t) g :: b)) ->
    o = flat_map (told c) order' ++ cur' ->
    faulty c (mkTask (t_answer t) g) ->
    (c = Detail -> n + begun_unsupported t = unsupported s + begun_unsupported (mkTask (t_answer t) g)) ->
    (c = Detail -> r + refused t = auth_failed s + refused (mkTask (t_answer t) g)) ->
    w = waited s ->
    inv c (mkSt (a ++ mkTask (t_answer t) g :: b) h o n r w (over s)) (es ++ [e]).
Proof.
  intros He Hs [H1 H2 H3 H4 H5 H6] a t g b cur' order' E F P O Fy Hn Hr ->. constructor; cbn [tasks holder out unsupported auth_failed waited over].
  - rewrite map_mid, <- E, H1, heard_app. unfold heard in *. rewrite He, app_nil_r. reflexivity.
  - eauto.
  - rewrite E in H3. eapply Forall_mid; eauto.
  - intros C. specialize (H4 C). specialize (Hn C). rewrite E in H4. pose proof (sum_mid begun_unsupported a t (mkTask (t_answer t) g) b). lia.
  - intros C. specialize (H5 C). specialize (Hr C). rewrite E in H5. pose proof (sum_mid refused a t (mkTask (t_answer t) g) b). lia.
  - destruct (waited s) as [k|].
    + destruct H6 as (x & y & -> & Nx & ->). exists x, (y ++ [e]). split; [|split; auto]. rewrite <- app_assoc. reflexivity.
    + intros I. apply in_app_iff in I. destruct I as [I|[->|[]]]; [exact (H6 I)|congruence].
Qed.
Lemma inv_same c s es e : (forall seen, heard_from seen [e] = []) -> e <> SendingEnds -> inv c s es -> inv c s (es ++ [e]).
Proof.
  intros He Hs [H1 H2 H3 H4 H5 H6]. constructor; auto.
  - rewrite H1, heard_app. unfold heard in *. rewrite He, app_nil_r. reflexivity.
  - destruct (waited s) as [k|].
    + destruct H6 as (x & y & -> & Nx & ->). exists x, (y ++ [e]). split; [|split; auto]. rewrite <- app_assoc. reflexivity.
    + intros I. apply in_app_iff in I. destruct I as [I|[->|[]]]; [exact (H6 I)|congruence].
Qed.

Lemma task_eta t : t = mkTask (t_answer t) (t_stage t).
Proof. destruct t; reflexivity. Qed.
Lemma listing_line ip m o : model ip = Ok m -> outcome_of (update ip) = Some o -> told Listing (Device ip) = [row conn ip m o].
Proof.
  intros Hm Ho. cbn. unfold list_line, row. rewrite Hm. destruct (conn ip) as [[[f en] ht] lo].
  destruct (update ip) as [x|x]; [|destruct x]; cbn in Ho; try discriminate; injection Ho as <-; reflexivity.
Qed.
Lemma listing_cur t cur : printed Listing t cur -> cur = [].
Proof. intros (ip & _ & H). destruct (t_stage t); try tauto. destruct H as [H _]. discriminate. Qed.
Lemma listing_focus l h cur : focus Listing l h cur -> cur = [].
Proof. intros F. inversion F; subst; [reflexivity|]. eapply listing_cur. eassumption. Qed.

Ltac sub := cbn [tasks holder out unsupported auth_failed waited over].
Ltac hf := try (intros; reflexivity); try discriminate; try reflexivity.

Lemma step_inv c s es e : over s = None -> over (step c s e) = None -> inv c s es -> inv c (step c s e) (es ++ [e]).
Proof.
  intros O O' I. pose proof I as [H1 H2 H3 H4 H5 H6]. unfold step, Table_Model.step in *. rewrite O in *. destruct e as [a|i|i|i| |].
  - (* Answer *)
    destruct (existsb _ (tasks s)) eqn:Ex.
    + constructor; auto.
      * rewrite H1, heard_app. cbn. replace (smem (ip_of a) (map ip_of (heard es))) with true; [rewrite app_nil_r; reflexivity|].
        symmetry. apply smem_In. rewrite <- H1. apply existsb_exists in Ex. destruct Ex as (t & It & Et). apply String.eqb_eq in Et. rewrite <- Et.
        apply in_map, in_map. exact It.
      * destruct (waited s) as [k|].
        -- destruct H6 as (x & y & -> & Nx & ->). exists x, (y ++ [Answer a]). split; [rewrite <- app_assoc; reflexivity|auto].
        -- intros J. apply in_app_iff in J. destruct J as [J|[J|[]]]; [exact (H6 J)|discriminate].
    + constructor; sub.
      * rewrite map_app, H1, heard_app. cbn. replace (smem (ip_of a) (map ip_of (heard es))) with false; [reflexivity|].
        symmetry. apply Bool.not_true_iff_false. intros T. apply smem_In in T. rewrite <- H1, map_map in T. apply in_map_iff in T. destruct T as (t & Et & It).
        assert (existsb (fun t => String.eqb (ip_of (t_answer t)) (ip_of a)) (tasks s) = true); [|congruence].
        apply existsb_exists. exists t. split; [exact It|]. apply String.eqb_eq. exact Et.
      * destruct H2 as (cur & order & F & P & Ou). exists cur, order. split; [|split; [|exact Ou]].
        -- inversion F as [l Fa E1 E2 E3|l1 x l2 cur' F1 F2 Pr E1 E2 E3]; subst.
           ++ constructor. apply Forall_app. split; [exact Fa|]. repeat constructor.
           ++ rewrite <- app_assoc. cbn. constructor; auto. apply Forall_app. split; [exact F2|]. repeat constructor.
        -- rewrite ended_app. cbn. rewrite app_nil_r. exact P.
      * apply Forall_app. split; [exact H3|]. repeat constructor.
      * intros C. rewrite (H4 C), sum_app. unfold sum. cbn. destruct a; cbn; lia.
      * intros C. rewrite (H5 C), sum_app. unfold sum. cbn. destruct a; cbn; lia.
      * destruct (waited s) as [k|].
        -- destruct H6 as (x & y & -> & Nx & ->). exists x, (y ++ [Answer a]). split; [rewrite <- app_assoc; reflexivity|auto].
        -- intros J. apply in_app_iff in J. destruct J as [J|[J|[]]]; [exact (H6 J)|discriminate].
  - (* Run *)
    assert (Same : inv c s (es ++ [Run i])) by (apply inv_same; hf; exact I).
    destruct (nth_error (tasks s) i) as [t|] eqn:Et; [|exact Same]. unfold run_task in *.
    destruct (t_stage t) as [begun| | |] eqn:St; try exact Same.
    destruct H2 as (cur & order & F & P & Ou).
    assert (Out : outside t) by (unfold outside; rewrite St; exact Logic.I).
    assert (En : ended_of t = []) by (unfold ended_of; rewrite St; reflexivity).
    destruct c, (t_answer t) as [ip|ip host] eqn:An.
    + destruct (holder s) as [h|] eqn:Ho; [exact Same|].
      destruct (set_stage_eq i Updating _ _ Et) as (a & b & E & Ei & ->). rewrite E in F, P. destruct (focus_free _ _ _ _ _ F) as (Fa & Fb & ->).
      eapply (fun He Hs => inv_other _ _ _ _ _ _ _ _ _ He Hs I _ t _ _ [] order); hf; try eassumption.
      * rewrite Ei. constructor; auto. exists ip. cbn. split; [exact An|]. split; [reflexivity|discriminate].
      * rewrite (ended_mid_same a t); [exact P|]. rewrite En. reflexivity.
      * intros _. unfold begun_unsupported. cbn. rewrite An. reflexivity.
      * intros _. unfold refused. cbn. rewrite An, St. reflexivity.
    + destruct (holder s) as [h|] eqn:Ho.
      * destruct (set_stage_eq i (Queued true) _ _ Et) as (a & b & E & Ei & ->). rewrite E in F, P.
        eapply (fun He Hs => inv_other _ _ _ _ _ _ _ _ _ He Hs I _ t _ _ cur order); hf; try eassumption.
        -- eapply focus_outside; [exact F|exact Out|exact Logic.I].
        -- rewrite (ended_mid_same a t); [exact P|]. rewrite En. reflexivity.
        -- intros _. unfold begun_unsupported. cbn. rewrite An, St. destruct begun; lia.
        -- intros _. unfold refused. cbn. rewrite An. reflexivity.
      * destruct (set_stage_eq i (Ended (Ok tt)) _ _ Et) as (a & b & E & Ei & ->). rewrite E in F, P. destruct (focus_free _ _ _ _ _ F) as (Fa & Fb & ->).
        eapply (fun He Hs => inv_other _ _ _ _ _ _ _ _ _ He Hs I _ t _ _ [] (order ++ [t_answer t])); hf; try eassumption.
        -- constructor. apply Forall_app. split; [exact Fa|]. constructor; [exact Logic.I|exact Fb].
        -- apply ended_mid_new; [exact En|exact P].
        -- rewrite told_snoc, Ou, An, !app_nil_r. reflexivity.
        -- intros _. unfold begun_unsupported. cbn. rewrite An, St. destruct begun; lia.
        -- intros _. unfold refused. cbn. rewrite An. reflexivity.
    + destruct (model ip) as [m|x] eqn:Mo.
      * destruct (holder s) as [h|] eqn:Ho; [exact Same|].
        destruct (set_stage_eq i Updating _ _ Et) as (a & b & E & Ei & ->). rewrite E in F, P. destruct (focus_free _ _ _ _ _ F) as (Fa & Fb & ->).
        eapply (fun He Hs => inv_other _ _ _ _ _ _ _ _ _ He Hs I _ t _ _ [] order); hf; try eassumption.
        -- rewrite Ei. constructor; auto. exists ip. cbn. split; [exact An|]. split; [reflexivity|eauto].
        -- rewrite (ended_mid_same a t); [exact P|]. rewrite En. reflexivity.
      * destruct (set_stage_eq i (Ended (Err x)) _ _ Et) as (a & b & E & Ei & ->). rewrite E in F, P.
        eapply (fun He Hs => inv_other _ _ _ _ _ _ _ _ _ He Hs I _ t _ _ cur (order ++ [t_answer t])); hf; try eassumption.
        -- eapply focus_outside; [exact F|exact Out|exact Logic.I].
        -- apply ended_mid_new; [exact En|exact P].
        -- rewrite told_snoc, Ou, An. cbn. unfold list_line. rewrite Mo, app_nil_r. reflexivity.
        -- cbn. exists ip. split; [exact An|]. left. exact Mo.
    + destruct (set_stage_eq i (Ended (Ok tt)) _ _ Et) as (a & b & E & Ei & ->). rewrite E in F, P.
      assert (C0 := listing_focus _ _ _ F). subst cur.
      eapply (fun He Hs => inv_other _ _ _ _ _ _ _ _ _ He Hs I _ t _ _ [] (order ++ [t_answer t])); hf; try eassumption.
      * eapply focus_outside; [exact F|exact Out|exact Logic.I].
      * apply ended_mid_new; [exact En|exact P].
      * rewrite told_snoc, Ou, An, !app_nil_r. destruct host; reflexivity.
  - (* Updated *)
    assert (Same : inv c s (es ++ [Updated i])) by (apply inv_same; hf; exact I).
    destruct (nth_error (tasks s) i) as [t|] eqn:Et; [|exact Same]. unfold updated in *.
    destruct (t_stage t) as [begun| | |] eqn:St; try exact Same. destruct (t_answer t) as [ip|ip host] eqn:An; [|exact Same].
    destruct H2 as (cur & order & F & P & Ou).
    assert (Ins : ~ outside t) by (unfold outside; rewrite St; tauto).
    assert (En : ended_of t = []) by (unfold ended_of; rewrite St; reflexivity).
    destruct (set_stage_eq i Updating _ _ Et) as (a & b & E & Ei & _).
    assert (SS : forall g, set_stage i g (tasks s) = a ++ mkTask (t_answer t) g :: b).
    { intros g. rewrite E, Ei. unfold set_stage. rewrite firstn_app, Nat.sub_diag, firstn_all, app_nil_r, skipn_app, Nat.sub_diag, skipn_all. reflexivity. }
    rewrite E in F, P. destruct (focus_inside _ _ _ _ _ _ F Ins) as (Ho & Fa & Fb & Pr).
    assert (Pr' := Pr). destruct Pr' as (ip' & A' & Hs). rewrite An in A'. injection A' as <-. rewrite St in Hs. destruct Hs as [-> Hm].
    assert (Fe : forall r, focus c (a ++ mkTask (t_answer t) (Ended r) :: b) None []).
    { intros r. constructor. apply Forall_app. split; [exact Fa|]. constructor; [exact Logic.I|exact Fb]. }
    destruct c.
    + destruct (update ip) as [nm|x] eqn:U.
      * rewrite SS. eapply (fun He Hs => inv_other _ _ _ _ _ _ _ _ _ He Hs I _ t _ _ [] order); hf; try eassumption.
        -- rewrite Ho. constructor; auto. exists ip. cbn. split; [exact An|]. split; [reflexivity|]. split; [eauto|]. exists []. split; reflexivity.
        -- rewrite (ended_mid_same a t); [exact P|]. rewrite En. reflexivity.
        -- intros _. unfold begun_unsupported. cbn. rewrite An. reflexivity.
        -- intros _. unfold refused. cbn. rewrite An, St. reflexivity.
      * assert (X : forall o n, (forall y, x <> KAuth y) \/ n = S (auth_failed s) -> told Detail (Device ip) = o ->
          ((forall y, x <> KAuth y) -> n = auth_failed s) ->
          forall r, (match r with Err e => e = x /\ forall y, x <> KAuth y | Ok _ => exists y, x = KAuth y end) ->
          inv Detail (mkSt (a ++ mkTask (t_answer t) (Ended r) :: b) None (out s ++ o) (unsupported s) n (waited s) None) (es ++ [Updated i])).
        { intros o n Hn To Hn' r Hr. rewrite <- O. eapply (fun He Hs => inv_other _ _ _ _ _ _ _ _ _ He Hs I _ t _ _ [] (order ++ [t_answer t])); hf; try eassumption.
          - apply Fe.
          - apply ended_mid_new; [exact En|exact P].
          - rewrite told_snoc, Ou, An, To, !app_nil_r. reflexivity.
          - destruct r as [|e]; [exact Logic.I|]. cbn. exists ip. destruct Hr as [-> Hr]. split; [exact An|]. left. auto.
          - intros _. unfold begun_unsupported. cbn. rewrite An. reflexivity.
          - intros _. unfold refused. cbn. rewrite An, St, U. destruct x; try (rewrite Hn' by discriminate; lia).
            destruct Hn as [Hn| ->]; [destruct (Hn _ eq_refl)|]. lia. }
        assert (Y : (forall y, x <> KAuth y) -> inv Detail (mkSt (a ++ mkTask (t_answer t) (Ended (Err x)) :: b) None (out s) (unsupported s) (auth_failed s) (waited s) None) (es ++ [Updated i])).
        { intros N. rewrite <- (app_nil_r (out s)). apply X; auto. cbn. unfold block. rewrite U. destruct x; try reflexivity. destruct (N _ eq_refl). }
        destruct x; rewrite SS, O; try (apply Y; discriminate).
        apply X; [right; reflexivity|cbn; unfold block; rewrite U; reflexivity|intros N; destruct (N _ eq_refl)|eexists; reflexivity].
    + destruct (Hm eq_refl) as (m & Mo). rewrite Mo in *.
      destruct (outcome_of (update ip)) as [o|] eqn:Oo; rewrite SS.
      * eapply (fun He Hs => inv_other _ _ _ _ _ _ _ _ _ He Hs I _ t _ _ [] (order ++ [t_answer t])); hf; try eassumption.
        -- apply Fe.
        -- apply ended_mid_new; [exact En|exact P].
        -- rewrite told_snoc, Ou, An, (listing_line ip m o Mo Oo), !app_nil_r. reflexivity.
      * assert (U : update ip = Err Cancelled) by (destruct (update ip) as [|x]; [discriminate|destruct x; cbn in Oo; congruence]).
        eapply (fun He Hs => inv_other _ _ _ _ _ _ _ _ _ He Hs I _ t _ _ [] (order ++ [t_answer t])); hf; try eassumption.
        -- apply Fe.
        -- apply ended_mid_new; [exact En|exact P].
        -- rewrite told_snoc, Ou, An. cbn. unfold list_line. rewrite Mo, U. destruct (conn ip) as [[[f en] ht] lo]. rewrite !app_nil_r. reflexivity.
        -- cbn. exists ip. split; [exact An|]. right. auto.
  - (* Print *)
    assert (Same : inv c s (es ++ [Print i])) by (apply inv_same; hf; exact I).
    destruct (nth_error (tasks s) i) as [t|] eqn:Et; [|exact Same]. unfold print in *.
    destruct (t_stage t) as [begun| |l|] eqn:St; try exact Same.
    destruct H2 as (cur & order & F & P & Ou).
    assert (Ins : ~ outside t) by (unfold outside; rewrite St; tauto).
    assert (En : ended_of t = []) by (unfold ended_of; rewrite St; reflexivity).
    destruct (set_stage_eq i Updating _ _ Et) as (a & b & E & Ei & _).
    assert (SS : forall g, set_stage i g (tasks s) = a ++ mkTask (t_answer t) g :: b).
    { intros g. rewrite E, Ei. unfold set_stage. rewrite firstn_app, Nat.sub_diag, firstn_all, app_nil_r, skipn_app, Nat.sub_diag, skipn_all. reflexivity. }
    rewrite E in F, P. destruct (focus_inside _ _ _ _ _ _ F Ins) as (Ho & Fa & Fb & Pr).
    destruct Pr as (ip & An & Hs). rewrite St in Hs. destruct Hs as (-> & (nm & U) & p & Hp & ->). rewrite An in *.
    assert (Fe : forall r, focus Detail (a ++ mkTask (t_answer t) (Ended r) :: b) None []).
    { intros r. constructor. apply Forall_app. split; [exact Fa|]. constructor; [exact Logic.I|exact Fb]. }
    destruct l as [|x l].
    + rewrite app_nil_r in Hp.
      destruct (snd (state ip)) as [x|] eqn:Sn; rewrite SS, <- An.
      * eapply (fun He Hs => inv_other _ _ _ _ _ _ _ _ _ He Hs I _ t _ _ [] (order ++ [t_answer t])); hf; try eassumption.
        -- apply Fe.
        -- apply ended_mid_new; [exact En|exact P].
        -- rewrite told_snoc, Ou, An. cbn. unfold block. rewrite U, Sn, Hp, !app_nil_r. reflexivity.
        -- cbn. exists ip. split; [exact An|]. right. eauto.
        -- intros _. unfold begun_unsupported. cbn. rewrite An. reflexivity.
        -- intros _. unfold refused. cbn. rewrite An, St, U. reflexivity.
      * eapply (fun He Hs => inv_other _ _ _ _ _ _ _ _ _ He Hs I _ t _ _ [] (order ++ [t_answer t])); hf; try eassumption.
        -- apply Fe.
        -- apply ended_mid_new; [exact En|exact P].
        -- rewrite told_snoc, Ou, An. cbn. unfold block. rewrite U, Sn, Hp, app_nil_r, <- app_assoc. reflexivity.
        -- intros _. unfold begun_unsupported. cbn. rewrite An. reflexivity.
        -- intros _. unfold refused. cbn. rewrite An, St, U. reflexivity.
    + rewrite SS, <- An. eapply (fun He Hs => inv_other _ _ _ _ _ _ _ _ _ He Hs I _ t _ _ (map (Part ip) (p ++ [x])) order); hf; try eassumption.
      * rewrite Ho. constructor; auto. exists ip. cbn. split; [exact An|]. split; [reflexivity|]. split; [eauto|]. exists (p ++ [x]). split; [|reflexivity].
        rewrite Hp, <- app_assoc. reflexivity.
      * rewrite (ended_mid_same a t); [exact P|]. rewrite En. reflexivity.
      * rewrite Ou, map_app, app_assoc. reflexivity.
      * intros _. unfold begun_unsupported. cbn. rewrite An. reflexivity.
      * intros _. unfold refused. cbn. rewrite An, St. reflexivity.
  - (* SendingEnds *)
    assert (He : heard (es ++ [SendingEnds]) = heard es) by (rewrite heard_app; cbn; apply app_nil_r).
    destruct (waited s) as [k|] eqn:W; constructor; sub; rewrite ?He; auto.
    + rewrite W. destruct H6 as (x & y & -> & Nx & ->). exists x, (y ++ [SendingEnds]). split; [rewrite <- app_assoc; reflexivity|auto].
    + exists es, []. split; [reflexivity|]. split; [exact H6|]. rewrite <- H1. symmetry. apply map_length.
  - (* Return *)
    apply inv_same; hf. destruct (waited s) as [k|]; [|exact I]. destruct (gathered _); [discriminate O'|exact I].
Qed.
End Inv.

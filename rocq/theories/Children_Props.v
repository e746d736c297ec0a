(** C29, C71: the children of a SMART hub. *)
From Verif Require Import Base Base_Lemmas Py Children_Model.
Open Scope string_scope.
Open Scope list_scope.

(** The hub lists a usable child [x] with entry [e]: an id, and components for it. *)
Definition lists (ev : event) (x : string) (e : entry) : Prop :=
  In e (v_list ev) /\ e_id e = Some x /\ x <> "" /\ In x (v_comps ev).

Lemma ddel_keys {A} x (d : dict A) k : In k (dkeys (ddel x d)) <-> In k (dkeys d) /\ k <> x.
Proof.
  induction d as [|[k0 v0] d IH]; cbn; [tauto|]. destruct (String.eqb x k0) eqn:E; cbn.
  - apply String.eqb_eq in E. subst k0. rewrite IH. intuition congruence.
  - rewrite IH. apply String.eqb_neq in E. intuition congruence.
Qed.
Lemma ddel_list_get {A} l : forall (d : dict A) k, dget k (fold_left (fun d x => ddel x d) l d) = if smem k l then None else dget k d.
Proof.
  induction l as [|x l IH]; intros d k; cbn; [reflexivity|]. rewrite IH, dget_ddel. unfold smem. cbn [existsb].
  destruct (String.eqb k x); cbn; [|reflexivity]. destruct (existsb (String.eqb k) l); reflexivity.
Qed.
Lemma log_once_children x h : children (log_once x h) = children h /\ next (log_once x h) = next h.
Proof. unfold log_once. destruct (smem x (logged h)); auto. Qed.

(** What the loop does, on success. *)
Definition usable (comps : list string) (e : entry) (x : string) : Prop := e_id e = Some x /\ x <> "" /\ In x comps.
Lemma visit_all_spec comps existing create : forall l acc h h' acc',
  visit_all comps existing create l acc h = (h', Ok acc') ->
  (forall x, In x (fst acc') <-> In x (fst acc) \/ exists e, In e l /\ usable comps e x) /\
  (forall x, In x existing -> dget x (children h') = dget x (children h)) /\
  (forall x, ~ In x existing -> In x (dkeys (children h')) <-> In x (dkeys (children h)) \/ exists e, In e l /\ usable comps e x /\ create e = Ok true) /\
  (snd acc' = true <-> snd acc = true \/ exists e x, In e l /\ usable comps e x /\ ~ In x existing /\ create e = Ok true) /\
  (forall e x, In e l -> usable comps e x -> ~ In x existing -> exists b, create e = Ok b).
Proof.
  induction l as [|e l IH]; intros acc h h' acc' H; cbn in H.
  - injection H as <- <-. split; [intro x; split; [tauto|intros [G|(e & [] & _)]; exact G]|]. split; [reflexivity|].
    split; [intros x _; split; [tauto|intros [G|(e & [] & _)]; exact G]|]. split; [split; [tauto|intros [G|(e & x & [] & _)]; exact G]|]. intros e x [].
  - unfold mbind in H. destruct (visit comps existing create e acc h) as [h1 [acc1|ex]] eqn:Ev; [|discriminate].
    destruct (IH _ _ _ _ H) as (H1 & H2 & H3 & H4 & H5). clear IH H.
    unfold visit in Ev.
    assert (Skip : (forall x, ~ usable comps e x) -> acc1 = acc -> children h1 = children h ->
      (forall x, In x (fst acc') <-> In x (fst acc) \/ exists e0, In e0 (e :: l) /\ usable comps e0 x) /\
      (forall x, In x existing -> dget x (children h') = dget x (children h)) /\
      (forall x, ~ In x existing -> In x (dkeys (children h')) <-> In x (dkeys (children h)) \/ exists e0, In e0 (e :: l) /\ usable comps e0 x /\ create e0 = Ok true) /\
      (snd acc' = true <-> snd acc = true \/ exists e0 x, In e0 (e :: l) /\ usable comps e0 x /\ ~ In x existing /\ create e0 = Ok true) /\
      (forall e0 x, In e0 (e :: l) -> usable comps e0 x -> ~ In x existing -> exists b, create e0 = Ok b)).
    { intros Hno -> Hc. rewrite Hc in *. split; [|split; [exact H2|split; [|split]]].
      - intro x. rewrite H1. split; intros [G|(e0 & G1 & G2)]; auto; [right; exists e0; cbn; auto|].
        destruct G1 as [<-|G1]; [elim (Hno _ G2)|right; exists e0; auto].
      - intros x Hx. rewrite (H3 x Hx). split; intros [G|(e0 & G1 & G2 & G3)]; auto; [right; exists e0; cbn; auto|].
        destruct G1 as [<-|G1]; [elim (Hno _ G2)|right; exists e0; auto].
      - rewrite H4. split; intros [G|(e0 & x & G1 & G2 & G3)]; auto; [right; exists e0, x; cbn; auto|].
        destruct G1 as [<-|G1]; [elim (Hno _ G2)|right; exists e0, x; auto].
      - intros e0 x [<-|G] G2 G3; [elim (Hno _ G2)|eauto]. }
    destruct (e_id e) as [x0|] eqn:Eid.
    2:{ injection Ev as <- <-. apply Skip; [intros x (G & _); rewrite Eid in G; discriminate|reflexivity|apply log_once_children]. }
    destruct (String.eqb x0 "") eqn:Ee.
    { apply String.eqb_eq in Ee. injection Ev as <- <-. apply Skip; [intros x (G1 & G2 & _); rewrite Eid in G1; congruence|reflexivity|apply log_once_children]. }
    apply String.eqb_neq in Ee. destruct (smem x0 comps) eqn:Ec.
    2:{ apply smem_false in Ec. injection Ev as <- <-. apply Skip; [intros x (G1 & G2 & G3); rewrite Eid in G1; congruence|reflexivity|apply log_once_children]. }
    apply smem_In in Ec. assert (Hu : usable comps e x0) by (repeat split; auto).
    assert (Hux : forall x, usable comps e x -> x = x0) by (intros x (G & _); rewrite Eid in G; congruence).
    assert (Hseen : forall l0 : list string * bool, fst l0 = fst acc ++ [x0] -> fst acc1 = fst l0 ->
       forall x, In x (fst acc') <-> In x (fst acc) \/ exists e0, In e0 (e :: l) /\ usable comps e0 x).
    { intros l0 E0 E1 x. rewrite H1, E1, E0, in_app_iff. cbn [In]. split.
      - intros [[G|[<-|[]]]|(e0 & G1 & G2)]; auto; right; [exists e; auto|exists e0; auto].
      - intros [G|(e0 & [<-|G1] & G2)]; auto; [left; right; left; symmetry; now apply Hux|right; exists e0; auto]. }
    destruct (smem x0 existing) eqn:Ex; cbn [fst snd] in Ev.
    + apply smem_In in Ex. injection Ev as <- <-. split; [apply (Hseen (fst acc ++ [x0], snd acc)); reflexivity|]. split; [exact H2|]. split; [|split].
      * intros x Hx. rewrite (H3 x Hx). split; intros [G|(e0 & G1 & G2 & G3)]; auto; [right; exists e0; cbn; auto|].
        destruct G1 as [<-|G1]; [apply Hux in G2; subst; contradiction|right; exists e0; auto].
      * rewrite H4. cbn [snd]. split; intros [G|(e0 & x & G1 & G2 & G3 & G4)]; auto; [right; exists e0, x; cbn; auto|].
        destruct G1 as [<-|G1]; [apply Hux in G2; subst; contradiction|right; exists e0, x; auto].
      * intros e0 x [<-|G] G2 G3; [apply Hux in G2; subst; contradiction|eauto].
    + apply smem_false in Ex. destruct (create e) as [[|]|ex] eqn:Ecr; [| |discriminate].
      * injection Ev as <- <-. split; [apply (Hseen (fst acc ++ [x0], snd acc)); reflexivity|]. cbn [children add_child] in *. split; [|split; [|split]].
        -- intros x Hx. rewrite (H2 x Hx). apply dget_dset_other. congruence.
        -- intros x Hx. rewrite (H3 x Hx), In_dkeys_dset. split.
           ++ intros [[E|G]|(e0 & G1 & G2 & G3)]; [right; exists e; cbn; subst x; auto|auto|right; exists e0; cbn; auto].
           ++ intros [G|(e0 & [<-|G1] & G2 & G3)]; [auto|left; left; now apply Hux|right; exists e0; auto].
        -- rewrite H4. cbn [snd]. split; [intros _; right; exists e, x0; cbn; auto|auto].
        -- intros e0 x [<-|G] G2 G3; eauto.
      * injection Ev as <- <-. destruct (log_once_children x0 h) as [Hc _]. rewrite Hc in *. split; [apply (Hseen (fst acc ++ [x0], snd acc)); reflexivity|]. split; [exact H2|]. split; [|split].
        -- intros x Hx. rewrite (H3 x Hx). split; intros [G|(e0 & G1 & G2 & G3)]; auto; [right; exists e0; cbn; auto|].
           destruct G1 as [<-|G1]; [congruence|right; exists e0; auto].
        -- rewrite H4. cbn [snd]. split; intros [G|(e0 & x & G1 & G2 & G3 & G4)]; auto; [right; exists e0, x; cbn; auto|].
           destruct G1 as [<-|G1]; [congruence|right; exists e0, x; auto].
        -- intros e0 x [<-|G] G2 G3; eauto.
Qed.

(** After a list was processed: existing children that are still listed are the same
    objects, the others are gone, and the new ones are those listed that could be
    made; the flag says whether the set of children changed. *)
Theorem children_follow_list : forall ev h h' changed,
  create_delete (v_comps ev) (v_create ev) (v_list ev) h = (h', Ok changed) ->
  (forall x n, dget x (children h) = Some n ->
     dget x (children h') = Some n /\ (exists e, lists ev x e) \/ dget x (children h') = None /\ ~ (exists e, lists ev x e)) /\
  (forall x, dget x (children h) = None ->
     (In x (dkeys (children h')) <-> exists e, lists ev x e /\ v_create ev e = Ok true)) /\
  (changed = true <-> exists x, (In x (dkeys (children h)) /\ ~ In x (dkeys (children h'))) \/ (~ In x (dkeys (children h)) /\ In x (dkeys (children h')))).
Proof.
  intros [comps create l] h h' changed H. unfold create_delete, mbind in H. cbn [v_comps v_create v_list] in *.
  destruct (visit_all comps (dkeys (children h)) create l ([], false) h) as [h1 [acc|ex]] eqn:Ev; [|discriminate].
  destruct (visit_all_spec _ _ _ _ _ _ _ _ Ev) as (H1 & H2 & H3 & H4 & H5). cbn [fst snd] in *.
  set (existing := dkeys (children h)) in *. set (removed := filter (fun x => negb (smem x (fst acc))) existing) in *.
  assert (Hrm : forall x, In x removed <-> In x existing /\ ~ exists e, In e l /\ usable comps e x).
  { intro x. unfold removed. rewrite filter_In, negb_true_iff. split; intros [G1 G2]; (split; [exact G1|]).
    - apply smem_false in G2. intro G. apply G2, H1. auto.
    - apply smem_false. intro G. apply H1 in G. destruct G as [[]|G]. contradiction. }
  injection H as <- <-. cbn [children].
  assert (Hl : forall x, (exists e, lists (mkEv comps create l) x e) <-> exists e, In e l /\ usable comps e x).
  { intro x. split; intros (e & G); exists e; unfold lists, usable in *; cbn in *; tauto. }
  assert (Hget : forall x, dget x (fold_left (fun d y => ddel y d) removed (children h1)) = if smem x removed then None else dget x (children h1)) by (intro; apply ddel_list_get).
  split; [|split].
  - intros x n Hx. rewrite Hget, Hl. pose proof (dget_Some_key _ _ _ Hx) as Hk. destruct (smem x removed) eqn:E.
    + right. split; [reflexivity|]. apply smem_In, Hrm in E. tauto.
    + left. apply smem_false in E. rewrite (H2 x Hk). split; [exact Hx|].
      assert (D : smem x (fst acc) = true \/ smem x (fst acc) = false) by (destruct (smem x (fst acc)); auto). destruct D as [D|D].
      * apply smem_In, H1 in D. destruct D as [[]|D]. exact D.
      * elim E. unfold removed. apply filter_In. rewrite D. auto.
  - intros x Hx. apply dget_None in Hx.
    assert (E : smem x removed = false) by (apply smem_false; intro G; apply Hrm in G; tauto).
    rewrite <- dmem_In. unfold dmem. rewrite Hget, E. fold (dmem x (children h1)). rewrite dmem_In, (H3 x Hx).
    split; [intros [G|(e & G1 & (G2 & G3 & G4) & G5)]; [contradiction|exists e; repeat split; auto]|].
    intros (e & (G1 & G2 & G3 & G4) & G5). right. exists e. repeat split; auto.
  - assert (Hkeys : forall x, In x (dkeys (fold_left (fun d y => ddel y d) removed (children h1))) <-> ~ In x removed /\ In x (dkeys (children h1))).
    { intro x. rewrite <- !dmem_In. unfold dmem. rewrite Hget. destruct (smem x removed) eqn:E; [apply smem_In in E|apply smem_false in E]; intuition discriminate. }
    rewrite orb_true_iff, H4. split.
    + intros [[G|(e & x & G1 & G2 & G3 & G4)]|G]; [discriminate| |].
      * exists x. right. split; [exact G3|]. apply Hkeys. split; [intro C; apply Hrm in C; tauto|]. apply (H3 x G3). right. exists e. auto.
      * destruct removed as [|x rm] eqn:Er; [discriminate|]. exists x. left. assert (Hx : In x (x :: rm)) by (left; reflexivity). split.
        -- now apply Hrm in Hx.
        -- intro C. apply Hkeys in C. tauto.
    + intros (x & [[G1 G2]|[G1 G2]]).
      * right. destruct removed as [|y rm] eqn:Er; [|reflexivity]. elim G2. apply Hkeys. split; [intros []|].
        apply dget_key_Some in G1 as Hv. destruct Hv as [n Hv]. apply dget_Some_key with n. now rewrite (H2 x G1).
      * left. right. apply Hkeys in G2. destruct G2 as [_ G2]. apply (H3 x G1) in G2. destruct G2 as [G2|(e & G3 & G4 & G5)]; [contradiction|]. exists e, x. auto.
Qed.
Print Assumptions children_follow_list.
Definition en (x : string) : entry := mkEntry (Some x) JNull.
Definition ev1 : event := mkEv ["a"; "b"; "u"] (fun e => Ok (match e_id e with Some "u" => false | _ => true end)) [en "a"; en "b"; en "u"; en "nocomp"; mkEntry None JNull].
Definition ev2 : event := mkEv ["b"; "c"; "u"] (v_create ev1) [en "c"; en "u"; en "b"].
Example children_ex : run new_hub [ev1; ev2; ev2] =
  (mkHub [("b", 1%nat); ("c", 2%nat)] 3 ["u"; "nocomp"; ""] ["u"; "nocomp"; ""], [Ok true; Ok true; Ok false]).
Proof. reflexivity. Qed.

(** When making a child fails, the update fails, and no child is lost. *)
Theorem children_failure_keeps : forall ev h h' ex,
  create_delete (v_comps ev) (v_create ev) (v_list ev) h = (h', Err ex) ->
  (exists e x, lists ev x e /\ v_create ev e = Err ex) /\ forall x n, dget x (children h) = Some n -> dget x (children h') = Some n.
Proof.
  intros [comps create l] h h' ex H. unfold create_delete, mbind in H. cbn [v_comps v_create v_list] in *.
  destruct (visit_all comps (dkeys (children h)) create l ([], false) h) as [h1 [acc|ex1]] eqn:Ev; [discriminate|]. injection H as <- <-.
  assert (G : forall l acc h0 h1 ex1, (forall x, In x (dkeys (children h)) -> dget x (children h0) = dget x (children h)) ->
    visit_all comps (dkeys (children h)) create l acc h0 = (h1, Err ex1) ->
    (exists e x, In e l /\ usable comps e x /\ create e = Err ex1) /\ (forall x, In x (dkeys (children h)) -> dget x (children h1) = dget x (children h))).
  { clear. induction l as [|e l IH]; intros acc h0 h1 ex1 Hk H; cbn in H; [discriminate|]. unfold mbind in H.
    destruct (visit comps (dkeys (children h)) create e acc h0) as [h2 [acc2|ex2]] eqn:Ev.
    - destruct (IH acc2 h2 h1 ex1) as [(e0 & x & G1 & G2 & G3) G4]; [|exact H|split; [exists e0, x; cbn; auto|exact G4]].
      intros x Hx. rewrite <- (Hk x Hx). unfold visit in Ev. destruct (e_id e) as [x0|]; [|injection Ev as <- _; f_equal; apply log_once_children].
      destruct (String.eqb x0 ""); [injection Ev as <- _; f_equal; apply log_once_children|].
      destruct (smem x0 comps); [|injection Ev as <- _; f_equal; apply log_once_children].
      destruct (smem x0 (dkeys (children h))) eqn:Ex; [injection Ev as <- _; reflexivity|]. apply smem_false in Ex.
      destruct (create e) as [[|]|]; [| |discriminate]; injection Ev as <- _; [cbn [children add_child]; apply dget_dset_other; congruence|f_equal; apply log_once_children].
    - injection H as <- <-. unfold visit in Ev. destruct (e_id e) as [x0|] eqn:Eid; [|discriminate]. destruct (String.eqb x0 "") eqn:Ee; [discriminate|]. apply String.eqb_neq in Ee.
      destruct (smem x0 comps) eqn:Ec; [|discriminate]. apply smem_In in Ec. destruct (smem x0 (dkeys (children h))); [discriminate|].
      destruct (create e) as [[|]|ex0] eqn:Ecr; [discriminate|discriminate|]. injection Ev as <- <-. split; [|exact Hk]. exists e, x0. cbn. unfold usable. auto. }
  destruct (G l _ _ _ _ (fun x _ => eq_refl) Ev) as [(e & x & G1 & (G2 & G3 & G4) & G5) G6]. split.
  - exists e, x. repeat split; auto.
  - intros y n Hy. rewrite G6; [exact Hy|]. eapply dget_Some_key; eauto.
Qed.
Print Assumptions children_failure_keeps.

Lemma nodup_snoc {A} (l : list A) x : NoDup l -> ~ In x l -> NoDup (l ++ [x]).
Proof.
  induction l as [|y l IH]; cbn; intros Hn Hx; [constructor; auto|]. inversion Hn; subst. constructor.
  - rewrite in_app_iff. cbn. intuition.
  - apply IH; auto.
Qed.
(** Each id is logged at most once in a whole history, and only listed ids are (the
    empty one stands for entries without id). *)
Theorem children_logged_once : forall es h rs, run new_hub es = (h, rs) ->
  NoDup (log h) /\
  (forall x, In x (log h) -> x = "" \/ exists ev e, In ev es /\ In e (v_list ev) /\ e_id e = Some x) .
Proof.
  assert (Hlog : forall x h, logged h = log h -> NoDup (log h) -> logged (log_once x h) = log (log_once x h) /\ NoDup (log (log_once x h)) /\
     forall y, In y (log (log_once x h)) -> In y (log h) \/ y = x).
  { intros x h E Hn. unfold log_once. rewrite E. destruct (smem x (log h)) eqn:Ex; [auto|]. apply smem_false in Ex. cbn. split; [reflexivity|]. split.
    - now apply nodup_snoc.
    - intros y G. apply in_app_iff in G. cbn in G. intuition. }
  assert (Hvisit : forall comps existing create l acc h h' r, visit_all comps existing create l acc h = (h', r) ->
     logged h = log h -> NoDup (log h) -> logged h' = log h' /\ NoDup (log h') /\ forall y, In y (log h') -> In y (log h) \/ y = "" \/ exists e, In e l /\ e_id e = Some y).
  { intros comps existing create. induction l as [|e l IH]; intros acc h h' r H E Hn; cbn in H; [injection H as <- <-; auto|]. unfold mbind in H.
    destruct (visit comps existing create e acc h) as [h1 r1] eqn:Ev.
    assert (K : logged h1 = log h1 /\ NoDup (log h1) /\ forall y, In y (log h1) -> In y (log h) \/ y = "" \/ e_id e = Some y).
    { unfold visit in Ev. destruct (e_id e) as [x0|].
      - destruct (String.eqb x0 ""); [injection Ev as <- _; destruct (Hlog "" h E Hn) as (A & B & C); repeat split; auto; intros y G; destruct (C y G); auto|].
        destruct (smem x0 comps).
        + destruct (smem x0 existing); [injection Ev as <- _; auto|]. destruct (create e) as [[|]|]; injection Ev as <- _; [cbn; auto| |auto].
          destruct (Hlog x0 h E Hn) as (A & B & C). repeat split; auto. intros y G. destruct (C y G) as [G4| ->]; auto.
        + injection Ev as <- _. destruct (Hlog x0 h E Hn) as (A & B & C). repeat split; auto. intros y G. destruct (C y G) as [G4| ->]; auto.
      - injection Ev as <- _. destruct (Hlog "" h E Hn) as (A & B & C). repeat split; auto. intros y G. destruct (C y G); auto. }
    destruct K as (K1 & K2 & K3). destruct r1 as [acc1|ex].
    - destruct (IH acc1 h1 h' r H K1 K2) as (A & B & C). repeat split; auto. intros y G. destruct (C y G) as [G1|[->|(e0 & G1 & G2)]]; auto.
      + destruct (K3 y G1) as [G4|[G4|G4]]; auto. right. right. exists e. cbn. auto.
      + right. right. exists e0. cbn. auto.
    - injection H as <- <-. repeat split; auto. intros y G. destruct (K3 y G) as [G4|[G4|G4]]; auto. right. right. exists e. cbn. auto. }
  assert (Hrun : forall es h0 h rs, run h0 es = (h, rs) -> logged h0 = log h0 -> NoDup (log h0) ->
     NoDup (log h) /\ forall x, In x (log h) -> In x (log h0) \/ x = "" \/ exists ev e, In ev es /\ In e (v_list ev) /\ e_id e = Some x).
  { induction es as [|ev es IH]; intros h0 h rs H E Hn; cbn in H; [injection H as <- <-; auto|].
    destruct (create_delete (v_comps ev) (v_create ev) (v_list ev) h0) as [h1 r] eqn:Ec. destruct (run h1 es) as [h2 rs2] eqn:Er. injection H as <- <-.
    assert (K : logged h1 = log h1 /\ NoDup (log h1) /\ forall y, In y (log h1) -> In y (log h0) \/ y = "" \/ exists e, In e (v_list ev) /\ e_id e = Some y).
    { unfold create_delete, mbind in Ec. destruct (visit_all _ _ _ _ _ h0) as [h3 [acc|ex]] eqn:Ev; injection Ec as <- <-; cbn [logged log]; exact (Hvisit _ _ _ _ _ _ _ _ Ev E Hn). }
    destruct K as (K1 & K2 & K3). destruct (IH h1 h2 rs2 Er K1 K2) as [A B]. split; [exact A|]. intros x G. destruct (B x G) as [G1|[->|(ev0 & e & G1 & G2 & G3)]]; auto.
    - destruct (K3 x G1) as [G4|[G4|(e & G2 & G3)]]; auto. right. right. exists ev, e. cbn. auto.
    - right. right. exists ev0, e. cbn. auto. }
  intros es h rs H. destruct (Hrun es new_hub h rs H eq_refl) as [A B]; [constructor|]. split; [exact A|]. intros x G. destruct (B x G) as [G0|[->|G1]]; [destruct G0|auto|auto].
Qed.
Print Assumptions children_logged_once.

(** ** C71: camera hubs *)
Lemma visit_all_ok comps existing create : forall l acc h, (forall e, In e l -> exists b, create e = Ok b) ->
  exists h' acc', visit_all comps existing create l acc h = (h', Ok acc').
Proof.
  induction l as [|e l IH]; intros acc h Hc; cbn; [eexists; eexists; reflexivity|]. unfold mbind.
  assert (V : exists h1 acc1, visit comps existing create e acc h = (h1, Ok acc1)).
  { unfold visit. destruct (e_id e) as [x|]; [|eauto]. destruct (String.eqb x ""); [eauto|]. destruct (smem x comps); [|eauto]. destruct (smem x existing); [eauto|].
    destruct (Hc e (or_introl eq_refl)) as [[|] ->]; eauto. }
  destruct V as (h1 & acc1 & ->). apply IH. intros e0 H. apply Hc. now right.
Qed.
(** When all its SMART children can be reached, a camera hub's update succeeds, and a
    new child is made exactly when its category is a known one. *)
Theorem camera_hub_children_partial : forall cat reach comps l h, (forall e, In e l -> cat e = SmartKnown -> exists b, reach e = Ok b) ->
  exists h' changed, create_delete comps (cam_create cat reach) l h = (h', Ok changed) /\
  forall x, dget x (children h) = None ->
    (In x (dkeys (children h')) <-> exists e, In e l /\ e_id e = Some x /\ x <> "" /\ In x comps /\ (cat e = SmartKnown \/ cat e = CamKnown)).
Proof.
  intros cat reach comps l h Hr.
  assert (Hc : forall e, In e l -> exists b, cam_create cat reach e = Ok b).
  { intros e He. unfold cam_create. destruct (cat e) eqn:E; eauto. destruct (Hr e He E) as [b ->]. eauto. }
  destruct (visit_all_ok comps (dkeys (children h)) _ l ([], false) h Hc) as (h1 & acc1 & Hv).
  assert (E : exists h' changed, create_delete comps (cam_create cat reach) l h = (h', Ok changed)).
  { unfold create_delete, mbind. rewrite Hv. eauto. }
  destruct E as (h' & changed & E). exists h', changed. split; [exact E|]. intros x Hx.
  destruct (children_follow_list (mkEv comps (cam_create cat reach) l) h h' changed E) as (_ & H & _). rewrite (H x Hx). unfold lists. cbn [v_list v_comps v_create].
  split; intros (e & G).
  - destruct G as ((G1 & G2 & G3 & G4) & G5). exists e. repeat split; auto. unfold cam_create in G5. destruct (cat e); auto; discriminate.
  - destruct G as (G1 & G2 & G3 & G4 & G5). exists e. repeat split; auto. unfold cam_create. destruct G5 as [G5|G5]; rewrite G5; [|reflexivity]. destruct (Hr e G1 G5) as [b ->]. reflexivity.
Qed.
Print Assumptions camera_hub_children_partial.
(** One new SMART child that cannot be reached makes the whole update fail, with an
    error that is not a library error. *)
Theorem camera_hub_unreachable_refuted : exists cat reach comps l h',
  create_delete comps (cam_create cat reach) l new_hub = (h', Err PyUnboundLocal) /\ is_kasa PyUnboundLocal = false.
Proof. exists (fun _ => SmartKnown), (fun _ => Err KTimeout), ["a"], [en "a"]. eexists. split; reflexivity. Qed.
Print Assumptions camera_hub_unreachable_refuted.

(** Strips and child lookup (C35, C59). *)
From Coq Require Import Lia.
From Verif Require Import Base Base_Lemmas Py Factory_Model OnSince_Model OnSince_Props Strip_Model.
Open Scope string_scope.
Open Scope list_scope.
Open Scope Z_scope.

(** ** C35 *)
(** What a strip says about its socket [p]. *)
Definition socket_state (infos : list child) (p : string) : option bool :=
  option_map c_state (find (fun c => String.eqb (c_id c) p) infos).
Definition known (infos : list child) (plugs : list string) : Prop := forall p, In p plugs -> socket_state infos p <> None.
Definition in_state (infos : list child) (b : bool) (p : string) : bool :=
  match socket_state infos p with Some b' => Bool.eqb b b' | None => false end.

Lemma is_on_state infos p b : socket_state infos p = Some b -> plug_is_on infos p = Ok b.
Proof. unfold socket_state, plug_is_on, child_info. destruct (find _ infos); cbn; [congruence|discriminate]. Qed.
Lemma is_on_inv infos p b : plug_is_on infos p = Ok b -> socket_state infos p = Some b.
Proof. unfold socket_state, plug_is_on, child_info. destruct (find _ infos); cbn; [congruence|discriminate]. Qed.

(** When all goes well, exactly the sockets not in the wanted state get one command
    each, in their order, and it asks for that state. *)
Theorem strip_switch : forall send on infos plugs log, known infos plugs -> (forall c, send c = Ok tt) ->
  switch_all send on infos plugs log =
  (log ++ map (fun p => (p, if on then 1 else 0)) (filter (in_state infos (negb on)) plugs), Ok tt).
Proof.
  intros send on infos plugs log Hk Hs. revert log. induction plugs as [|p plugs IH]; intro log.
  - cbn. rewrite app_nil_r. reflexivity.
  - cbn [switch_all filter]. unfold mbind at 1. unfold mlift at 1.
    destruct (socket_state infos p) as [b|] eqn:E; [|exfalso; apply (Hk p); [left; reflexivity|exact E]].
    rewrite (is_on_state _ _ _ E). unfold in_state at 1. rewrite E.
    assert (Hk' : known infos plugs) by (intros q Hq; apply Hk; right; exact Hq).
    destruct b, on; cbn [Bool.eqb negb map]; try (apply IH, Hk').
    + unfold mbind. rewrite Hs, IH by exact Hk'. rewrite <- app_assoc. reflexivity.
    + unfold mbind. rewrite Hs, IH by exact Hk'. rewrite <- app_assoc. reflexivity.
Qed.
Print Assumptions strip_switch.
Example strip_switch_ex :
  let infos := [mkChild "a" true None; mkChild "b" false None; mkChild "c" false None] in
  switch_all (fun _ => Ok tt) true infos ["a"; "b"; "c"] [] = ([("b", 1); ("c", 1)], Ok tt).
Proof. reflexivity. Qed.
(** Whatever happens, no socket already in the state, and no socket twice, gets a
    command; and a failing command ends it, with every command sent before it done. *)
Theorem strip_switch_any : forall send on infos plugs log log' r, NoDup plugs -> switch_all send on infos plugs log = (log', r) ->
  exists sent, log' = log ++ map (fun p => (p, if on then 1 else 0)) sent /\ NoDup sent /\
    (forall p, In p sent -> In p plugs /\ socket_state infos p = Some (negb on)) /\
    match r with
    | Ok _ => sent = filter (in_state infos (negb on)) plugs /\ forall p, In p sent -> send (p, if on then 1 else 0) = Ok tt
    | Err e => (exists init last, sent = init ++ [last] /\ send (last, if on then 1 else 0) = Err e /\ forall p, In p init -> send (p, if on then 1 else 0) = Ok tt)
               \/ (e = KKasa /\ ~ known infos plugs /\ forall p, In p sent -> send (p, if on then 1 else 0) = Ok tt)
    end.
Proof.
  intros send on infos plugs. induction plugs as [|p plugs IH]; intros log log' r Hd H.
  - cbn in H. injection H as <- <-. exists []. cbn. rewrite app_nil_r. split; [reflexivity|]. split; [constructor|]. split; [intros ? []|]. split; [reflexivity|intros ? []].
  - inversion Hd as [|? ? Hn Hd']; subst. cbn [switch_all] in H. unfold mbind at 1 in H. unfold mlift in H.
    destruct (plug_is_on infos p) as [b|e] eqn:E.
    2:{ injection H as <- <-. exists []. cbn. rewrite app_nil_r.
        split; [reflexivity|]. split; [constructor|]. split; [intros ? []|]. right.
        unfold plug_is_on, child_info in E. destruct (find (fun c => String.eqb (c_id c) p) infos) eqn:Ef; [discriminate|].
        cbn in E. injection E as <-. split; [reflexivity|]. split; [|intros ? []].
        intro K. apply (K p (or_introl eq_refl)). unfold socket_state. rewrite Ef. reflexivity. }
    apply is_on_inv in E. destruct (Bool.eqb b on) eqn:Eb.
    + apply Bool.eqb_prop in Eb. subst b. destruct (IH _ _ _ Hd' H) as (sent & -> & Nd & Hin & Hr).
      exists sent. split; [reflexivity|]. split; [exact Nd|]. split; [intros q Hq; destruct (Hin q Hq); split; [right|]; assumption|].
      destruct r as [u|e].
      * destruct Hr as [-> Hs]. split; [|exact Hs]. cbn [filter]. unfold in_state at 2. rewrite E. destruct on; reflexivity.
      * destruct Hr as [Hr|(-> & K & Hs)]; [left; exact Hr|]. right. split; [reflexivity|]. split; [|exact Hs].
        intro K'. apply K. intros q Hq. apply K'. right. exact Hq.
    + assert (b = negb on) by (destruct b, on; try reflexivity; discriminate). subst b.
      unfold mbind in H. cbn beta iota in H. destruct (send (p, if on then 1 else 0)) as [u|e] eqn:Es.
      * destruct (IH _ _ _ Hd' H) as (sent & -> & Nd & Hin & Hr). exists (p :: sent).
        split; [cbn [map]; rewrite <- app_assoc; reflexivity|].
        split; [constructor; [intro Hp; apply Hn, (Hin p Hp)|exact Nd]|].
        split; [intros q [<-|Hq]; [split; [left; reflexivity|exact E]|destruct (Hin q Hq); split; [right|]; assumption]|].
        destruct u. destruct r as [u|e].
        -- destruct Hr as [-> Hs]. split; [|intros q [<-|Hq]; auto].
           cbn [filter]. unfold in_state at 2. rewrite E, Bool.eqb_reflx. reflexivity.
        -- destruct Hr as [(i & l & -> & Hl & Hi)|(-> & K & Hs)].
           ++ left. exists (p :: i), l. split; [reflexivity|]. split; [exact Hl|]. intros q [<-|Hq]; auto.
           ++ right. split; [reflexivity|]. split; [|intros q [<-|Hq]; auto].
              intro K'. apply K. intros q Hq. apply K'. right. exact Hq.
      * injection H as <- <-. exists [p]. split; [reflexivity|]. split; [constructor; [intros []|constructor]|].
        split; [intros q [<-|[]]; split; [left; reflexivity|exact E]|]. left. exists [], p. repeat split; auto. intros ? [].
Qed.
Print Assumptions strip_switch_any.

(** The strip is on exactly when some socket is. *)
Theorem strip_on : forall infos plugs, known infos plugs ->
  exists b, strip_is_on infos plugs = Ok b /\ (b = true <-> exists p, In p plugs /\ socket_state infos p = Some true).
Proof.
  intros infos plugs. induction plugs as [|p plugs IH]; intro Hk.
  - exists false. split; [reflexivity|]. split; [discriminate|intros (p & [] & _)].
  - destruct (socket_state infos p) as [b|] eqn:E; [|exfalso; apply (Hk p); [left; reflexivity|exact E]].
    cbn [strip_is_on]. rewrite (is_on_state _ _ _ E). cbn [bind]. destruct b.
    + exists true. split; [reflexivity|]. split; [intros _; exists p; split; [left; reflexivity|exact E]|reflexivity].
    + destruct IH as (b & Eb & Hb); [intros q Hq; apply Hk; right; exact Hq|]. exists b. split; [exact Eb|]. rewrite Hb.
      split; [intros (q & Hq & Hs); exists q; split; [right|]; assumption|].
      intros (q & [<-|Hq] & Hs); [congruence|eauto].
Qed.
Print Assumptions strip_on.

(** Reading a start again gives the same. *)
Lemma keep_again c x : keep (keep c x) x = keep c x.
Proof.
  unfold keep. destruct c as [c|].
  - destruct ((0 <? x - c) && (5 * SECOND <? x - c)) eqn:E; [|rewrite E; reflexivity].
    rewrite Z.sub_diag. reflexivity.
  - rewrite Z.sub_diag. reflexivity.
Qed.
Lemma plug_again infos clock p p1 v : plug_on_since infos clock p = (p1, Ok v) -> plug_on_since infos clock p1 = (p1, Ok v).
Proof.
  unfold plug_on_since. destruct (child_info infos (fst p)) as [c|] eqn:E; [|discriminate].
  cbn [on_since is_on on_time OnSince_Model.clock].
  destruct (c_state c) eqn:Es; [destruct (c_on_time c) as [t|] eqn:Et|]; intro H; try discriminate;
    injection H as <- <-; cbn [fst snd]; rewrite E; cbn [on_since is_on on_time OnSince_Model.clock]; rewrite ?Es, ?Et, ?keep_again; reflexivity.
Qed.
(** The starts the sockets report *)
Definition socket_start (infos : list child) (clock : Z) (p : string * option Z) : res (option Z) := snd (plug_on_since infos clock p).

(** The strip's start is the earliest of its sockets'; none when no socket is on. *)
Theorem strip_start : forall infos clock plugs, known infos (map fst plugs) ->
  (forall p, In p plugs -> exists v, socket_start infos clock p = Ok v) ->
  exists r, strip_on_since infos clock plugs = Ok r /\
    (r = None <-> forall p, In p plugs -> socket_start infos clock p = Ok None) /\
    (forall z, r = Some z -> (exists p, In p plugs /\ socket_start infos clock p = Ok (Some z)) /\
                             forall p z', In p plugs -> socket_start infos clock p = Ok (Some z') -> z <= z').
Proof.
  intros infos clock plugs Hk Hok. unfold strip_on_since.
  destruct (strip_on infos (map fst plugs) Hk) as (b & Eb & Hb). rewrite Eb. cbn [bind].
  assert (Hnone : forall p, In p plugs -> socket_start infos clock p = Ok None <-> socket_state infos (fst p) <> Some true).
  { intros p Hp. destruct (Hok p Hp) as [v Hv]. unfold socket_start, plug_on_since, socket_state, child_info in *.
    destruct (find (fun c => String.eqb (c_id c) (fst p)) infos) as [c|]; [|discriminate]. cbn [option_map].
    cbn [on_since is_on on_time OnSince_Model.clock] in *. destruct (c_state c); [|cbn; split; [discriminate|reflexivity]].
    destruct (c_on_time c) as [t|]; cbn [snd] in *; [|discriminate]. split; [|congruence].
    unfold keep. destruct (snd p); [destruct (_ && _)|]; discriminate. }
  assert (St : exists l, starts infos clock plugs = Ok l /\
     forall z, In z l <-> exists p, In p plugs /\ socket_start infos clock p = Ok (Some z)).
  { clear - Hok. induction plugs as [|p plugs IH].
    - exists []. split; [reflexivity|]. intro z. split; [intros []|intros (p & [] & _)].
    - destruct IH as (l & El & Hl); [intros q Hq; apply Hok; right; exact Hq|].
      destruct (Hok p (or_introl eq_refl)) as [v Hv]. unfold socket_start in Hv. cbn [starts].
      destruct (plug_on_since infos clock p) as [p1 r1] eqn:E1. cbn [snd] in Hv. subst r1. cbn [bind].
      destruct v as [z0|].
      + rewrite (plug_again _ _ _ _ _ E1). cbn [bind]. rewrite El. cbn [bind]. exists (z0 :: l). split; [reflexivity|].
        intro z. split.
        * intros [<-|Hz]; [exists p; split; [left; reflexivity|unfold socket_start; rewrite E1; reflexivity]|].
          apply Hl in Hz as (q & Hq & Hs). exists q. split; [right|]; assumption.
        * intros (q & [<-|Hq] & Hs); [left; unfold socket_start in Hs; rewrite E1 in Hs; cbn in Hs; congruence|].
          right. apply Hl. eauto.
      + exists l. split; [exact El|]. intro z. rewrite Hl. split.
        * intros (q & Hq & Hs). exists q. split; [right|]; assumption.
        * intros (q & [<-|Hq] & Hs); [unfold socket_start in Hs; rewrite E1 in Hs; discriminate|eauto]. }
  destruct b; cbn [negb].
  - destruct St as (l & El & Hl). rewrite El. cbn [bind].
    assert (Hne : exists z, In z l).
    { destruct (proj1 Hb eq_refl) as (p & Hp & Hs). apply in_map_iff in Hp as (pc & <- & Hp).
      destruct (Hok pc Hp) as [[z|] Hv]; [exists z; apply Hl; eauto|]. apply (Hnone pc Hp) in Hv. congruence. }
    assert (Hmin : forall l, match zmin l with None => l = [] | Some m => In m l /\ forall z, In z l -> m <= z end).
    { clear. induction l as [|x l IH]; [reflexivity|]. cbn [zmin]. destruct (zmin l) as [m|].
      - destruct IH as [Hi Hm]. split; [destruct (Z.min_spec x m) as [[_ ->]|[_ ->]]; [left; reflexivity|right; exact Hi]|].
        intros z [<-|Hz]; [lia|]. specialize (Hm z Hz). lia.
      - subst l. split; [left; reflexivity|]. intros z [<-|[]]. lia. }
    specialize (Hmin l). destruct (zmin l) as [m|]; [|subst l; destruct Hne as [z []]].
    exists (Some m). split; [reflexivity|]. destruct Hmin as [Hi Hm]. split.
    + split; [discriminate|]. intro H. exfalso. apply Hl in Hi as (p & Hp & Hs). rewrite (H p Hp) in Hs. discriminate.
    + intros z [= <-]. split; [apply Hl, Hi|]. intros p z' Hp Hs. apply Hm, Hl. eauto.
  - exists None. split; [reflexivity|]. split; [|discriminate]. split; [|reflexivity]. intros _ p Hp. apply (Hnone p Hp).
    intro Hs. assert (false = true) by (apply Hb; exists (fst p); split; [apply in_map, Hp|exact Hs]). discriminate.
Qed.
Print Assumptions strip_start.
Example strip_start_ex :
  let infos := [mkChild "a" true (Some 10); mkChild "b" false None; mkChild "c" true (Some 500)] in
  strip_on_since infos (1000 * SECOND) [("a", None); ("b", Some 5); ("c", None)] = Ok (Some (500 * SECOND)).
Proof. reflexivity. Qed.

(** ** C59 *)
Definition has_alias (name : string) (c : dev) : Prop := name <> "" /\ v_alias c = Some name.
Definition has_alias_ci (name : string) (c : dev) : Prop := exists a, a <> "" /\ v_alias c = Some a /\ lower a = lower name.

Lemma alias_is_iff name c : alias_is (lower name) c = true <-> has_alias_ci name c.
Proof.
  unfold alias_is, has_alias_ci. destruct (v_alias c) as [a|].
  - rewrite andb_true_iff, negb_true_iff, String.eqb_neq, String.eqb_eq. split.
    + intros [H1 H2]. eauto.
    + intros (a' & H1 & [= <-] & H2). auto.
  - split; [discriminate|]. intros (a & _ & H & _). discriminate.
Qed.

(** By id or alias: a child with that id if there is one, else the first with that
    alias, capitals aside; nothing only if there is neither. *)
Theorem child_lookup : forall name children,
  match get_child_device name children with
  | Some c => In c children /\
      (v_id c = name \/
       (has_alias_ci name c /\ (forall c', In c' children -> v_id c' <> name) /\
        exists pre post, children = pre ++ c :: post /\ forall c', In c' pre -> ~ has_alias_ci name c'))
  | None => forall c, In c children -> v_id c <> name /\ ~ has_alias_ci name c
  end.
Proof.
  intros name children. unfold get_child_device.
  destruct (find (fun c => String.eqb (v_id c) name) children) as [c|] eqn:E1.
  - apply find_some in E1 as [Hi He]. apply String.eqb_eq in He. auto.
  - assert (Hid : forall c', In c' children -> v_id c' <> name).
    { intros c' Hc. apply String.eqb_neq. exact (find_none _ _ E1 c' Hc). }
    destruct (find (alias_is (lower name)) children) as [c|] eqn:E2.
    + assert (P : exists pre post, children = pre ++ c :: post /\ forall c', In c' pre -> ~ has_alias_ci name c').
      { clear - E2. induction children as [|x l IH]; [discriminate|]. cbn in E2.
        destruct (alias_is (lower name) x) eqn:Ex.
        - injection E2 as ->. exists [], l. split; [reflexivity|intros ? []].
        - destruct (IH E2) as (pre & post & -> & Hp). exists (x :: pre), post. split; [reflexivity|].
          intros c' [<-|Hc]; [rewrite <- alias_is_iff; congruence|auto]. }
      apply find_some in E2 as [Hi He]. apply alias_is_iff in He. auto.
    + intros c Hc. split; [auto|]. rewrite <- alias_is_iff. rewrite (find_none _ _ E2 c Hc). discriminate.
Qed.
Print Assumptions child_lookup.
(** So a child that alone has an alias is found by it. *)
Theorem child_by_alias : forall name children c, In c children -> has_alias name c ->
  (forall c', In c' children -> v_id c' <> name) -> (forall c', In c' children -> has_alias_ci name c' -> c' = c) ->
  get_child_device name children = Some c.
Proof.
  intros name children c Hi [Hne Ha] Hid Hu. pose proof (child_lookup name children) as H.
  destruct (get_child_device name children) as [c'|].
  - destruct H as (Hi' & [H|(H & _)]); [exfalso; exact (Hid c' Hi' H)|]. f_equal. auto.
  - exfalso. apply (H c Hi). exists name. auto.
Qed.
Print Assumptions child_by_alias.
Example child_by_alias_ex :
  get_child_device "Lamp" [mkDev "id1" (Some "fan"); mkDev "id2" (Some "lamp")] = Some (mkDev "id2" (Some "lamp")).
Proof. reflexivity. Qed.
(** But an alias that differs in its capitals only comes first, when its child does. *)
Theorem child_alias_refuted : exists children c, In c children /\ has_alias "Lamp" c /\
  exists c', get_child_device "Lamp" children = Some c' /\ c' <> c /\ ~ has_alias "Lamp" c'.
Proof.
  exists [mkDev "1" (Some "lamp"); mkDev "2" (Some "Lamp")], (mkDev "2" (Some "Lamp")).
  split; [right; left; reflexivity|]. split; [split; [discriminate|reflexivity]|].
  eexists. split; [reflexivity|]. split; [discriminate|]. intros [_ H]. discriminate.
Qed.
Print Assumptions child_alias_refuted.
(** By name: the first child with exactly that alias, or the library's error. *)
Theorem plug_by_name : forall name children,
  match get_plug_by_name name children with
  | Ok c => In c children /\ v_alias c = Some name
  | Err e => e = KKasa /\ forall c, In c children -> v_alias c <> Some name
  end.
Proof.
  intros name children. unfold get_plug_by_name. destruct (find _ children) as [c|] eqn:E.
  - apply find_some in E as [Hi He]. split; [exact Hi|]. destruct (v_alias c); [|discriminate]. apply String.eqb_eq in He. congruence.
  - split; [reflexivity|]. intros c Hc Ha. pose proof (find_none _ _ E c Hc) as H. cbn beta in H. rewrite Ha, seqb_refl in H. discriminate.
Qed.
Print Assumptions plug_by_name.
(** By index: that child for the valid indexes, the library's error for all others. *)
Theorem plug_by_index : forall index children,
  match get_plug_by_index index children with
  | Ok c => 0 <= index < Z.of_nat (length children) /\ nth_error children (Z.to_nat index) = Some c
  | Err e => e = KKasa /\ ~ 0 <= index < Z.of_nat (length children)
  end.
Proof.
  intros index children. unfold get_plug_by_index.
  destruct (Z.of_nat (length children) <? index + 1) eqn:E1; cbn [orb].
  - split; [reflexivity|]. apply Z.ltb_lt in E1. lia.
  - destruct (index <? 0) eqn:E2.
    + split; [reflexivity|]. apply Z.ltb_lt in E2. lia.
    + apply Z.ltb_ge in E1, E2. destruct (nth_error children (Z.to_nat index)) eqn:E; [split; [lia|reflexivity]|].
      exfalso. apply nth_error_None in E. lia.
Qed.
Print Assumptions plug_by_index.
(** The command line: no option, no child; otherwise one of the children that matches
    the option, or an error; never another child, never an index out of range. *)
Theorem cli_child_lookup : forall o index children,
  match cli_child o index children with
  | Ok None => o = CNone /\ index = None
  | Ok (Some c) => In c children /\
      match o, index with
      | CName s, None => get_child_device s children = Some c
      | CPrompt i, None => 0 <= i < Z.of_nat (length children) /\ nth_error children (Z.to_nat i) = Some c
      | CNone, Some i => 0 <= i < Z.of_nat (length children) /\ nth_error children (Z.to_nat i) = Some c
      | _, _ => False
      end
  | Err e => e <> PyIndexError
  end.
Proof.
  intros o index children. unfold cli_child.
  assert (B : forall i, match (if (Z.of_nat (length children) <? i + 1) || (i <? 0) then Err KKasa
      else match nth_error children (Z.to_nat i) with Some c => Ok (Some c) | None => Err PyIndexError end) with
     | Ok None => False
     | Ok (Some c) => In c children /\ 0 <= i < Z.of_nat (length children) /\ nth_error children (Z.to_nat i) = Some c
     | Err e => e <> PyIndexError end).
  { intro i. pose proof (plug_by_index i children) as H. unfold get_plug_by_index in H.
    destruct ((Z.of_nat (length children) <? i + 1) || (i <? 0)); [discriminate|].
    destruct (nth_error children (Z.to_nat i)) eqn:E; [|destruct H; discriminate].
    split; [apply nth_error_In in E; exact E|exact H]. }
  destruct o as [|i|s], index as [j|]; try (destruct children; discriminate); try (split; reflexivity).
  - specialize (B j). destruct children as [|x l]; [discriminate|].
    destruct (if (Z.of_nat (length (x :: l)) <? j + 1) || (j <? 0) then _ else _) as [[c|]|]; [|contradiction|exact B]. tauto.
  - specialize (B i). destruct children as [|x l]; [discriminate|].
    destruct (if (Z.of_nat (length (x :: l)) <? i + 1) || (i <? 0) then _ else _) as [[c|]|]; [|contradiction|exact B]. tauto.
  - pose proof (child_lookup s children) as H. destruct children as [|x l]; [discriminate|].
    destruct (get_child_device s (x :: l)) as [c|]; [|discriminate]. destruct H. auto.
Qed.
Print Assumptions cli_child_lookup.
Example cli_child_ex : cli_child CNone (Some 1) [mkDev "a" None; mkDev "b" None] = Ok (Some (mkDev "b" None))
  /\ cli_child CNone (Some 2) [mkDev "a" None; mkDev "b" None] = Err KKasa.
Proof. split; reflexivity. Qed.

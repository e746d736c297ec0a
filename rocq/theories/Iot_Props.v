(** Legacy updates and commands (C31-C34). *)
From Coq Require Import Lia.
From Verif Require Import Base Base_Lemmas Py Iot_Model Iot_Spec Iot_Proofs.
Open Scope string_scope.
Open Scope list_scope.
Open Scope Z_scope.

(** ** C32: merging *)
(** Every position of the source is in the result, with the source's plain values;
    every position of the destination is kept with its plain value unless the source
    has a plain value there or above; nothing else appears. *)
Theorem merge_spec : forall d s r p, jwf s -> merge d s = Ok r ->
  (present p s -> present p r) /\
  (forall v, leaf p v s -> leaf p v r) /\
  (~ covers s p -> (present p d -> present p r) /\ (forall v, leaf p v d -> leaf p v r)) /\
  (present p r -> present p s \/ present p d) /\
  (forall v, leaf p v r -> leaf p v s \/ leaf p v d).
Proof.
  intros d s r p Hw Hm. repeat apply conj.
  - unfold present. intro H. destruct (at_keys p s) as [v|] eqn:E; [|congruence].
    destruct (merge_source p _ _ _ _ Hw Hm E) as (v' & E' & _). congruence.
  - intros v [E Hn]. destruct (merge_source p _ _ _ _ Hw Hm E) as (v' & E' & L).
    rewrite (L Hn) in E'. split; assumption.
  - intro Hc. split.
    + unfold present. intro H. destruct (at_keys p d) as [v|] eqn:E; [|congruence].
      destruct (merge_dest p _ _ _ _ Hw Hm E Hc) as (v' & E' & _). congruence.
    + intros v [E Hn]. destruct (merge_dest p _ _ _ _ Hw Hm E Hc) as (v' & E' & L).
      rewrite (L Hn) in E'. split; assumption.
  - unfold present. intro H. destruct (at_keys p r) as [v|] eqn:E; [|congruence].
    apply (merge_only p _ _ _ _ Hw Hm E).
  - intros v [E Hn]. destruct (merge_only p _ _ _ _ Hw Hm E) as [_ L].
    destruct (L Hn); [left|right]; split; assumption.
Qed.
Print Assumptions merge_spec.
Example merge_ex :
  let d := JObj [("system", JObj [("get_sysinfo", JNull)]); ("schedule", JObj [("get_rules", JObj [])])] in
  let s := JObj [("schedule", JObj [("get_daystat", JObj [("year", JInt 2024)])])] in
  merge d s = Ok (JObj [("system", JObj [("get_sysinfo", JNull)]);
                        ("schedule", JObj [("get_rules", JObj []); ("get_daystat", JObj [("year", JInt 2024)])])])
  /\ leaf ["schedule"; "get_daystat"; "year"] (JInt 2024) s /\ ~ covers s ["system"; "get_sysinfo"].
Proof.
  split; [reflexivity|]. split; [split; [reflexivity|intros [? H]; discriminate]|].
  intros (q & r & v & E & H & Hn). destruct q as [|a [|b [|c q]]]; cbn in *.
  - injection H as <-. apply Hn. eexists; reflexivity.
  - injection E as <- _. discriminate.
  - injection E as <- _. discriminate.
  - discriminate.
Qed.

(** When no plain value of one meets something else in the other, merging succeeds,
    and in either order gives the same content. *)
Theorem merge_order : forall a b, jwf a -> jwf b -> is_dict a -> is_dict b -> compatible a b ->
  exists x y, merge a b = Ok x /\ merge b a = Ok y /\ same_content x y.
Proof.
  intros a b Wa Wb Da Db C.
  assert (C' : compatible b a).
  { intros p va vb Ha Hb. destruct (C p vb va Hb Ha) as [[? ?]|]; auto. }
  destruct (merge_total b a Wb Db Da C) as (x & Ex & _). destruct (merge_total a b Wa Da Db C') as (y & Ey & _).
  exists x, y. split; [exact Ex|]. split; [exact Ey|].
  assert (Half : forall a b x y, jwf a -> jwf b -> compatible a b -> merge a b = Ok x -> merge b a = Ok y ->
     forall p, (present p x -> present p y) /\ (forall v, leaf p v x -> leaf p v y)).
  { clear. intros a b x y Wa Wb C Ex Ey p.
    destruct (merge_spec _ _ _ p Wb Ex) as (_ & _ & _ & X4 & X5).
    destruct (merge_spec _ _ _ p Wa Ey) as (Y1 & Y2 & Y3 & _ & _).
    assert (Hb : present p b -> present p a \/ ~ covers a p).
    { intro Hp. destruct (at_keys p a) eqn:E; [left; congruence|]. right.
      intros (q & r & w & -> & E2 & Hw). unfold present in Hp.
      assert (Eb : exists vb, at_keys q b = Some vb /\ (is_dict vb \/ r = [])).
      { clear - Hp. revert b Hp. induction q as [|k q IH]; intros b Hp; cbn in *.
        - exists b. split; [reflexivity|]. destruct r; [auto|]. left. cbn in Hp. destruct b; try congruence. eexists; reflexivity.
        - destruct b; try congruence. destruct (dget k d); [|congruence]. apply IH, Hp. }
      destruct Eb as (vb & Evb & Hvb).
      destruct (C q w vb E2 Evb) as [[Hd _]| <-]; [auto|].
      destruct Hvb as [Hd| ->]; [auto|]. rewrite app_nil_r in E. congruence. }
    assert (Hl : forall v, leaf p v b -> leaf p v a \/ ~ covers a p).
    { intros v [Ev Hv]. destruct Hb as [H|H]; [unfold present; congruence| |auto]. left.
      destruct (at_keys p a) as [w|] eqn:E; [|congruence].
      destruct (C p w v E Ev) as [[_ Hd]|[= ->]]; [contradiction|]. split; assumption. }
    split.
    - intro H. destruct (X4 H) as [Hpb|Hpa]; [|auto]. destruct (Hb Hpb) as [|Hc]; [auto|]. apply (Y3 Hc), Hpb.
    - intros v H. destruct (X5 v H) as [Hpb|Hpa]; [|auto]. destruct (Hl v Hpb) as [|Hc]; [auto|]. apply (Y3 Hc), Hpb. }
  intro p. destruct (Half _ _ _ _ Wa Wb C Ex Ey p) as [A1 A2]. destruct (Half _ _ _ _ Wb Wa C' Ey Ex p) as [B1 B2].
  split; [split; assumption|]. intro v. split; auto.
Qed.
Print Assumptions merge_order.
Example merge_order_ex :
  let a := JObj [("a", JObj [("x", JInt 1)])] in let b := JObj [("b", JInt 2); ("a", JObj [("y", JInt 3)])] in
  merge a b = Ok (JObj [("a", JObj [("x", JInt 1); ("y", JInt 3)]); ("b", JInt 2)])
  /\ merge b a = Ok (JObj [("b", JInt 2); ("a", JObj [("y", JInt 3); ("x", JInt 1)])]).
Proof. split; reflexivity. Qed.

(** The later value does not always win: a mapping over a plain value raises
    TypeError, and an empty mapping does not replace it. *)
Theorem merge_conflict_refuted :
  exists d s, jwf d /\ jwf s /\ is_dict d /\ is_dict s /\ merge d s = Err PyTypeError.
Proof.
  exists (JObj [("m", JNull)]), (JObj [("m", JObj [("cmd", JNull)])]).
  assert (N : forall d : string * json, NoDup [fst d]) by (intro; constructor; [intros []|constructor]).
  repeat apply conj; try (eexists; reflexivity).
  - apply Wf_dict; [apply (N ("m", JNull))|]. intros k v [[= <- <-]|[]]. apply Wf_leaf. intros [? H]; discriminate.
  - apply Wf_dict; [apply (N ("m", JNull))|]. intros k v [[= <- <-]|[]]. apply Wf_dict; [apply (N ("cmd", JNull))|].
    intros k v [[= <- <-]|[]]. apply Wf_leaf. intros [? H]; discriminate.
Qed.
Print Assumptions merge_conflict_refuted.
Theorem merge_conflict_raises : forall p d s v w, jwf s -> at_keys p d = Some v -> ~ is_dict v ->
  at_keys p s = Some (JObj w) -> w <> [] -> exists e, merge d s = Err e.
Proof.
  intros p d s v w Hw Hd Hv Hs Hn. destruct (merge_fails p d s v w Hw Hd Hs Hv Hn) as [H|[e H]]; eauto.
Qed.
Print Assumptions merge_conflict_raises.

(** ** C31: the requests of an update *)
(** The supported modules, in their order, are dealt out to consecutive requests.
    Each request is the merge of its modules' queries (the first one starts from the
    base request).  A request's estimate stays within the limit, unless it is a single
    module; and a request is ended only when the next module would not have fitted. *)
Theorem requests_split : forall limit base mods rs, is_dict base -> requests limit base mods = Ok rs ->
  exists g gs b bs est,
    (present ["system"] base -> est = 1024) /\ (~ present ["system"] base -> est = 0) /\
    g ++ concat gs = filter i_supported mods /\
    rs = filter truthy (b :: bs) /\ merged base g b /\ Forall2 (merged (JObj [])) gs bs /\
    (est + total g <= limit \/ g = []) /\
    Forall (fun g => g <> [] /\ (total g <= limit \/ length g = 1%nat)) gs /\
    (forall m g' gs', gs = (m :: g') :: gs' -> limit < est + total g + i_size m) /\
    (forall pre g1 m g2 post, gs = pre ++ g1 :: (m :: g2) :: post -> limit < total g1 + i_size m).
Proof.
  intros limit base mods rs [bd ->] H. unfold requests in H.
  set (est := match jcontains "system" (JObj bd) with Ok true => 1024 | _ => 0 end) in H.
  destruct (split limit mods (JObj bd) est []) as [x|] eqn:E; [cbn [bind] in H|discriminate].
  injection H as <-. destruct (split_spec _ _ _ _ _ _ E) as (g & gs & b & bs & E1 & E2 & E3 & E4 & E5 & E6 & E7 & E8).
  exists g, gs, b, bs, est. repeat apply conj; auto.
  - intro Hs. unfold est. cbn. unfold present in Hs. cbn in Hs. unfold dmem. destruct (dget "system" bd); congruence.
  - intro Hs. unfold est. cbn. unfold present in Hs. cbn in Hs. unfold dmem. destruct (dget "system" bd); [|reflexivity]. exfalso. apply Hs. discriminate.
  - subst x. reflexivity.
  - eapply Forall_impl; [|exact E6]. cbn. intros a (m & g' & -> & [G| ->]); (split; [discriminate|]); auto.
Qed.
Print Assumptions requests_split.
Example requests_split_ex :
  let q k := JObj [(k, JObj [("get", JObj [])])] in
  let mods := [mkImod true 1000 (q "a"); mkImod false 999 (q "b"); mkImod true 2048 (q "c"); mkImod true 256 (q "d"); mkImod true 9000 (q "e")] in
  requests 2100 (JObj [("system", JObj [("get_sysinfo", JNull)])]) mods
  = Ok [JObj [("system", JObj [("get_sysinfo", JNull)]); ("a", JObj [("get", JObj [])])]; q "c"; q "d"; q "e"].
Proof. reflexivity. Qed.

(** No command is lost: for every supported module, every command of its query is in
    one of the requests sent, with the module's arguments, as far as no other query
    gives the same command other arguments. *)
Theorem requests_complete : forall limit base mods rs m k c, is_dict base -> requests limit base mods = Ok rs ->
  (forall m, In m mods -> jwf (i_query m) /\ query_shaped (i_query m)) ->
  In m mods -> i_supported m = true -> present [k; c] (i_query m) ->
  exists r, In r rs /\ present [k; c] r /\
    (forall p v, leaf ([k; c] ++ p) v (i_query m) -> (forall m', In m' mods -> ~ covers (i_query m') ([k; c] ++ p) \/ leaf ([k; c] ++ p) v (i_query m')) ->
       leaf ([k; c] ++ p) v r).
Proof.
  intros limit base mods rs m k c Hb H Hwf Hin Hs Hp.
  destruct (requests_split _ _ _ _ Hb H) as (g & gs & b & bs & est & _ & _ & E & Er & Hg & Hgs & _).
  assert (Hi : In m (g ++ concat gs)) by (rewrite E; apply filter_In; auto).
  assert (Hsub : forall x, In x (g ++ concat gs) -> In x mods) by (intros x Hx; rewrite E in Hx; apply filter_In in Hx; tauto).
  assert (Hgrp : exists a grp r, merged a grp r /\ In m grp /\ In r (b :: bs) /\ (forall x, In x grp -> In x mods)).
  { apply in_app_iff in Hi as [Hi|Hi].
    - exists base, g, b. repeat apply conj; auto; [left; reflexivity|]. intros x Hx. apply Hsub, in_app_iff. auto.
    - assert (Hsub' : forall x, In x (concat gs) -> In x mods) by (intros x Hx; apply Hsub, in_app_iff; auto).
      clear - Hgs Hi Hsub'. revert Hi Hsub'. induction Hgs as [|g0 b0 gs bs H0 Hgs IH]; intros Hi Hsub'; [destruct Hi|].
      cbn [concat] in *. apply in_app_iff in Hi as [Hi|Hi].
      + exists (JObj []), g0, b0. repeat apply conj; auto; [right; left; reflexivity|]. intros x Hx. apply Hsub', in_app_iff. auto.
      + destruct (IH Hi) as (a & grp & r & Hm & Hx & Hr & Hy).
        { intros x Hx. apply Hsub', in_app_iff. auto. }
        exists a, grp, r. repeat apply conj; auto. destruct Hr as [->|Hr]; [left; reflexivity|right; right; exact Hr]. }
  destruct Hgrp as (a & grp & r & Hm & Hx & Hr & Hy).
  apply in_split in Hx as (pre & post & ->).
  assert (Hin' : In m mods) by (apply Hy, in_app_iff; right; left; reflexivity).
  assert (Hpr : present [k; c] r).
  { apply (merged_has_command pre a m post r k c Hm (proj1 (Hwf m Hin'))); [|exact Hp].
    intros m' Hi'. apply Hwf, Hy, in_app_iff. right; right; exact Hi'. }
  exists r. split; [|split].
  - rewrite Er. apply filter_In. split; [exact Hr|].
    unfold present in Hpr. cbn in Hpr. destruct r; try congruence. destruct d; [cbn in Hpr; congruence|reflexivity].
  - exact Hpr.
  - intros p v Hl Hno.
    (* the last module of the group that gives the value *)
    assert (G : forall post pre m, (forall x, In x (pre ++ m :: post) -> In x mods) -> merged a (pre ++ m :: post) r ->
        leaf ([k; c] ++ p) v (i_query m) -> leaf ([k; c] ++ p) v r).
    { clear - Hno Hwf. intro post. induction post as [post IH] using (induction_ltof1 _ (@length imod)). unfold ltof in IH.
      intros pre m Hsub Hm [Ev Hn].
      assert (D : (exists p1 m' p2, post = p1 ++ m' :: p2 /\ leaf ([k; c] ++ p) v (i_query m')) \/
                  (forall m', In m' post -> ~ covers (i_query m') ([k; c] ++ p))).
      { assert (Hp : forall m', In m' post -> In m' mods) by (intros; apply Hsub, in_app_iff; right; right; assumption).
        clear - Hno Hp. induction post as [|x post IHp]; [right; intros ? []|].
        destruct (Hno x (Hp x (or_introl eq_refl))) as [Hc|Hl].
        - destruct IHp as [(p1 & m' & p2 & -> & Hl)|Hall]; [intros; apply Hp; right; assumption| |].
          + left. exists (x :: p1), m', p2. split; [reflexivity|exact Hl].
          + right. intros m' [<-|Hi]; auto.
        - left. exists [], x, post. split; [reflexivity|exact Hl]. }
      destruct D as [(p1 & m' & p2 & -> & Hl)|Hall].
      - apply (IH p2) with (pre := pre ++ m :: p1) (m := m'); auto.
        + rewrite app_length. cbn. lia.
        + intros x Hx. apply Hsub. rewrite <- app_assoc in Hx. exact Hx.
        + rewrite <- app_assoc. exact Hm.
      - assert (Hmm : In m mods) by (apply Hsub, in_app_iff; right; left; reflexivity).
        destruct (merged_has pre a m post r ([k; c] ++ p) v Hm (proj1 (Hwf m Hmm))) as (v' & Ev' & L); auto.
        + intros m' Hi. split; [|auto]. apply Hwf, Hsub, in_app_iff. right; right; exact Hi.
        + rewrite (L Hn) in Ev'. split; assumption. }
    apply (G post pre m); auto.
Qed.
Print Assumptions requests_complete.
Example requests_complete_ex :
  let q := JObj [("schedule", JObj [("get_daystat", JObj [("year", JInt 2024)])])] in
  present ["schedule"; "get_daystat"] q /\ leaf (["schedule"; "get_daystat"] ++ ["year"]) (JInt 2024) q /\
  requests 100 (JObj []) [mkImod true 256 q] = Ok [q].
Proof. repeat apply conj; try discriminate; try reflexivity. intros [? H]; discriminate. Qed.

(** The replies: every field of every module has the value of the last reply that gave
    it, and what no reply mentions is kept from the update before. *)
Theorem replies_merged : forall u replies k f, Forall reply_wf replies ->
  field k f (merge_replies u replies) = match latest k f replies with Some v => Some v | None => field k f u end.
Proof. intros. apply merge_replies_field. assumption. Qed.
Print Assumptions replies_merged.
Example replies_merged_ex :
  let r1 := [("schedule", JObj [("get_rules", JInt 1)]); ("err_msg", JStr "x")] in
  let r2 := [("schedule", JObj [("get_daystat", JInt 2)])] in
  merge_replies [("time", [("get_time", JInt 9)])] [r1; r2]
  = [("time", [("get_time", JInt 9)]); ("schedule", [("get_rules", JInt 1); ("get_daystat", JInt 2)])].
Proof. reflexivity. Qed.

(** A module the device has once answered with an error is never asked again. *)
Theorem unsupported_stays : forall name u replies e more, Forall reply_wf (replies ++ [e]) ->
  reply_field name "err_code" e <> None ->
  is_supported name (merge_replies u (replies ++ e :: more)) = false.
Proof.
  intros name u replies e more Hw He.
  replace (replies ++ e :: more) with ((replies ++ [e]) ++ more) by (rewrite <- app_assoc; reflexivity).
  unfold merge_replies. rewrite fold_left_app. apply merge_replies_err.
  assert (F : field name "err_code" (merge_replies u (replies ++ [e])) <> None).
  { rewrite merge_replies_field by exact Hw.
    assert (L : latest name "err_code" (replies ++ [e]) <> None).
    { clear - He. induction replies; cbn; [exact He|]. destruct (latest name "err_code" (replies ++ [e])); congruence. }
    destruct (latest name "err_code" (replies ++ [e])); congruence. }
  unfold field in F. unfold is_supported. fold (merge_replies u (replies ++ [e])). destruct (dget name _); [|congruence].
  unfold dmem. destruct (dget "err_code" d); [reflexivity|congruence].
Qed.
Print Assumptions unsupported_stays.
Example unsupported_stays_ex :
  reply_field "cnCloud" "err_code" [("cnCloud", JObj [("err_code", JInt (-1))])] <> None
  /\ is_supported "cnCloud" [] = true.
Proof. split; [discriminate|reflexivity]. Qed.

(** ** C33: commands *)
(** A successful call gives exactly the device's payload for this target and command,
    without its error code; and only then is there no exception. *)
Theorem command_ok : forall target cmd reply r, query_helper target cmd reply = Ok r ->
  exists resp t p, reply = Ok (JObj resp) /\ dget target resp = Some (JObj t) /\ dget cmd t = Some p /\
    (numeric_code t -> fine t) /\
    match p with
    | JObj d => (numeric_code d -> fine d) /\ r = JObj (ddel "err_code" d)
    | _ => r = p
    end.
Proof.
  assert (B : forall t, err_code_bad (JObj t) = Ok false -> numeric_code t -> fine t).
  { intros t H Hn. unfold err_code_bad in H. cbn [jcontains bind] in H. unfold dmem, fine in *.
    destruct (dget "err_code" t) as [c|] eqn:E; [right|left; reflexivity].
    destruct (Hn c E) as [z ->]. cbn [jitem bind] in H. unfold dindex in H. rewrite E in H. cbn [bind] in H.
    injection H as H. apply negb_false_iff, Z.eqb_eq in H. congruence. }
  intros target cmd reply r H. unfold query_helper in H. destruct reply as [resp|e]; [|destruct (is_exception e); discriminate].
  destruct (jcontains target resp) as [has|] eqn:E1; [cbn [bind] in H|discriminate].
  destruct has; [cbn [negb] in H|discriminate].
  destruct (jitem target resp) as [t|] eqn:E2; [cbn [bind] in H|discriminate].
  destruct resp as [| | | | | |resp]; try discriminate. cbn [jitem] in E2. unfold dindex in E2.
  destruct (dget target resp) as [t'|] eqn:Et; [injection E2 as ->|discriminate].
  destruct (err_code_bad t) as [bad|] eqn:E3; [cbn [bind] in H|discriminate].
  destruct bad; [discriminate|].
  destruct (jcontains cmd t) as [has|] eqn:E4; [cbn [bind] in H|discriminate].
  destruct has; [cbn [negb] in H|discriminate].
  destruct (jitem cmd t) as [p|] eqn:E5; [cbn [bind] in H|discriminate].
  destruct t as [| | | | | |t]; try discriminate. cbn [jitem] in E5. unfold dindex in E5.
  destruct (dget cmd t) as [p'|] eqn:Ep; [injection E5 as ->|discriminate].
  destruct (err_code_bad p) as [bad|] eqn:E6; [cbn [bind] in H|discriminate].
  destruct bad; [discriminate|].
  exists resp, t, p. repeat apply conj; auto.
  destruct (jcontains "err_code" p) as [has|] eqn:E7; [cbn [bind] in H|discriminate].
  destruct p as [| | | | | |d]; try discriminate; try (destruct has; [discriminate|congruence]).
  split; [apply B, E6|]. destruct has; injection H as <-; [reflexivity|].
  f_equal. symmetry. cbn in E7. injection E7 as E7. clear - E7. unfold dmem in E7.
  induction d as [|[k v] d IH]; [reflexivity|]. cbn [dget ddel] in *.
  destruct (String.eqb "err_code" k); [discriminate|]. f_equal. auto.
Qed.
Print Assumptions command_ok.
(** Conversely every reply with such a payload is accepted. *)
Theorem command_accepts : forall target cmd resp t d, dget target resp = Some (JObj t) -> dget cmd t = Some (JObj d) ->
  fine t -> fine d -> query_helper target cmd (Ok (JObj resp)) = Ok (JObj (ddel "err_code" d)).
Proof.
  assert (B : forall t, fine t -> err_code_bad (JObj t) = Ok false).
  { intros t [H|H]; unfold err_code_bad; cbn [jcontains bind]; unfold dmem; rewrite H; [reflexivity|].
    cbn [jitem bind]. unfold dindex. rewrite H. reflexivity. }
  intros target cmd resp t d Ht Hc Ft Fd. unfold query_helper. cbn [jcontains bind jitem]. unfold dmem, dindex.
  rewrite Ht. cbn [bind negb]. rewrite (B t Ft). cbn [bind jcontains jitem]. unfold dmem, dindex. rewrite Hc. cbn [bind negb].
  rewrite (B d Fd). cbn [bind jcontains jitem]. unfold dmem. destruct (dget "err_code" d) eqn:E; [reflexivity|].
  f_equal. f_equal. clear - E. induction d as [|[k v] d IH]; [reflexivity|]. cbn [dget ddel] in *.
  destruct (String.eqb "err_code" k); [discriminate|]. f_equal. auto.
Qed.
Print Assumptions command_accepts.
Example command_accepts_ex :
  query_helper "system" "set_relay_state" (Ok (JObj [("system", JObj [("set_relay_state", JObj [("err_code", JInt 0); ("x", JInt 1)])])]))
  = Ok (JObj [("x", JInt 1)]).
Proof. reflexivity. Qed.
(** Failures raise the library's exception: any failure to communicate, and every
    reply made of mappings that misses the target or the command or carries a
    non-zero code. *)
Theorem command_raises_partial : forall target cmd,
  (forall e, is_exception e = true -> query_helper target cmd (Err e) = Err KKasa) /\
  (forall resp, (forall x, dget target resp = Some x -> exists t, x = JObj t /\ forall y, dget cmd t = Some y -> is_dict y) ->
     (dget target resp = None \/
      exists t, dget target resp = Some (JObj t) /\
        (dget cmd t = None \/ (exists z, dget "err_code" t = Some (JInt z) /\ z <> 0) \/
         (exists d z, dget cmd t = Some (JObj d) /\ dget "err_code" d = Some (JInt z) /\ z <> 0))) ->
     query_helper target cmd (Ok (JObj resp)) = Err KKasa) /\
  (forall resp r, (forall x, dget target resp = Some x -> exists t, x = JObj t /\ forall y, dget cmd t = Some y -> is_dict y) ->
     query_helper target cmd (Ok (JObj resp)) = r -> r = Err KKasa \/ exists d, r = Ok d).
Proof.
  intros target cmd.
  assert (B : forall t, exists b, err_code_bad (JObj t) = Ok b /\ (forall z, dget "err_code" t = Some (JInt z) -> z <> 0 -> b = true)).
  { intro t. unfold err_code_bad. cbn [jcontains bind jitem]. unfold dmem, dindex. destruct (dget "err_code" t) as [c|] eqn:E.
    - cbn [bind]. eexists. split; [reflexivity|]. intros z [= ->] Hz. apply negb_true_iff, Z.eqb_neq, Hz.
    - exists false. split; [reflexivity|]. discriminate. }
  assert (Main : forall resp, (forall x, dget target resp = Some x -> exists t, x = JObj t /\ forall y, dget cmd t = Some y -> is_dict y) ->
     query_helper target cmd (Ok (JObj resp)) = Err KKasa \/
     (exists d, query_helper target cmd (Ok (JObj resp)) = Ok d) /\
     exists t d, dget target resp = Some (JObj t) /\ dget cmd t = Some (JObj d) /\ err_code_bad (JObj t) = Ok false /\ err_code_bad (JObj d) = Ok false).
  { intros resp Hs. unfold query_helper. cbn [jcontains bind jitem]. unfold dmem, dindex.
    destruct (dget target resp) as [x|] eqn:Et; [|left; reflexivity]. cbn [negb bind].
    destruct (Hs x eq_refl) as (t & -> & Hy). destruct (B t) as (b & Eb & _). rewrite Eb. cbn [bind].
    destruct b; [left; reflexivity|]. cbn [jcontains bind jitem]. unfold dmem, dindex.
    destruct (dget cmd t) as [y|] eqn:Ec; [|left; reflexivity]. cbn [negb bind].
    destruct (Hy y eq_refl) as [d ->]. destruct (B d) as (b & Eb' & _). rewrite Eb'. cbn [bind].
    destruct b; [left; reflexivity|]. right. split; [|exists t, d; auto].
    cbn [jcontains bind]. destruct (dmem "err_code" d); eexists; reflexivity. }
  repeat apply conj.
  - intros e He. unfold query_helper. rewrite He. reflexivity.
  - intros resp Hs Hbad. destruct (Main resp Hs) as [H|(_ & t & d & Ht & Hc & B1 & B2)]; [exact H|exfalso].
    destruct Hbad as [H|(t' & Ht' & Hb)]; [congruence|]. rewrite Ht in Ht'. injection Ht' as <-.
    destruct Hb as [H|[(z & Hz & Hne)|(d' & z & Hd & Hz & Hne)]]; [congruence| |].
    + destruct (B t) as (b & Eb & Hb). rewrite (Hb z Hz Hne) in Eb. congruence.
    + rewrite Hc in Hd. injection Hd as <-. destruct (B d) as (b & Eb & Hb). rewrite (Hb z Hz Hne) in Eb. congruence.
  - intros resp r Hs <-. destruct (Main resp Hs) as [H|((d & H) & _)]; [left; exact H|right; eauto].
Qed.
Print Assumptions command_raises_partial.
Example command_raises_ex :
  query_helper "emeter" "get_realtime" (Ok (JObj [("emeter", JObj [("err_code", JInt (-1)); ("err_msg", JStr "module not support")])])) = Err KKasa.
Proof. reflexivity. Qed.
(** A reply of another shape escapes with a Python exception. *)
Theorem command_raises_refuted : exists target cmd reply e,
  query_helper target cmd (Ok reply) = Err e /\ is_kasa e = false.
Proof. exists "system", "get_sysinfo", (JObj [("system", JNull)]), PyTypeError. split; reflexivity. Qed.
Print Assumptions command_raises_refuted.
(** The request names the target, the command and its arguments, and nothing else but
    the sockets it is for. *)
Theorem command_request : forall target cmd arg ids, target <> "context" ->
  at_keys [target; cmd] (create_request target cmd arg ids) = Some (match arg with Some a => a | None => JObj [] end) /\
  at_keys ["context"; "child_ids"] (create_request target cmd arg ids) = match ids with Some l => Some (JArr (map JStr l)) | None => None end /\
  (forall k c, present [k; c] (create_request target cmd arg ids) -> (k = target /\ c = cmd) \/ (k = "context" /\ c = "child_ids" /\ ids <> None)).
Proof.
  intros target cmd arg ids Ht.
  assert (E1 : String.eqb target "context" = false) by (apply seqb_neq, Ht).
  assert (E2 : String.eqb "context" target = false) by (apply seqb_neq; auto).
  assert (E3 := seqb_refl target). assert (E4 := seqb_refl cmd).
  destruct ids as [l|]; unfold create_request, present; cbn [at_keys dget]; rewrite ?E1, ?E2, ?E3; cbn [at_keys dget]; rewrite ?E4;
    (split; [reflexivity|split; [reflexivity|]]); intros k c.
  - destruct (String.eqb_spec k "context") as [->|]; cbn [dget].
    + destruct (String.eqb_spec c "child_ids") as [->|]; [|congruence]. intros _. right. repeat apply conj; auto; discriminate.
    + destruct (String.eqb_spec k target) as [->|]; [|congruence]. cbn [dget].
      destruct (String.eqb_spec c cmd) as [->|]; [|congruence]. auto.
  - destruct (String.eqb_spec k target) as [->|]; [|congruence]. cbn [dget].
    destruct (String.eqb_spec c cmd) as [->|]; [|congruence]. auto.
Qed.
Print Assumptions command_request.

(** ** C34: sockets *)
(** What a socket asks for when it is updated: every request it sends names this socket and no
    other, and every command of every supported module is in one of them. *)
Definition socket_module (id : string) (m : imod) (target : string) (cmds : list (string * option json)) : Prop :=
  target <> "context" /\ Forall (fun p => match snd p with Some v => jwf v | None => True end) cmds /\
  exists first rest, cmds = first :: rest /\ socket_query id target first rest = Ok (i_query m).
Theorem socket_update_asks : forall limit id mods rs,
  (forall m, In m mods -> exists target cmds, socket_module id m target cmds) ->
  requests limit (JObj []) mods = Ok rs ->
  (forall r, In r rs -> at_keys ["context"; "child_ids"] r = Some (JArr [JStr id])) /\
  (forall m target cmds cmd arg, In m mods -> i_supported m = true -> socket_module id m target cmds ->
     In (cmd, arg) cmds -> exists r, In r rs /\ present [target; cmd] r).
Proof.
  intros limit id mods rs Hm H.
  assert (Q : forall m target cmds, socket_module id m target cmds ->
    names id (i_query m) /\ query_shaped (i_query m) /\ Forall (fun p => present [target; fst p] (i_query m)) cmds).
  { intros m target cmds (Ht & Hc & first & rest & -> & E). exact (socket_query_ok id target first rest _ Ht Hc E). }
  assert (Qm : forall m, In m mods -> names id (i_query m) /\ query_shaped (i_query m)).
  { intros m Hi. destruct (Hm m Hi) as (t & c & Hs). destruct (Q m t c Hs) as (A & B & _). auto. }
  split.
  - intros r Hr. destruct (requests_split limit (JObj []) mods rs) as (g & gs & b & bs & est & _ & _ & E & Er & Hg & Hgs & _ & Hne & _);
      [eexists; reflexivity|exact H|].
    assert (Hsub : forall x, In x (g ++ concat gs) -> names id (i_query x)).
    { intros x Hx. rewrite E in Hx. apply filter_In in Hx as [Hx _]. apply Qm, Hx. }
    assert (W0 : jwf (JObj [])) by (constructor; [constructor|intros ? ? []]).
    subst rs. apply filter_In in Hr as [[<-|Hr] Ht].
    + destruct (merged_names id g _ _ Hg) as [[_ ->]|N]; [|exact W0|discriminate|exact (proj1 (proj2 N))].
      rewrite Forall_forall. intros x Hx. apply Hsub, in_app_iff. auto.
    + assert (Hs2 : forall x, In x (concat gs) -> names id (i_query x)) by (intros x Hx; apply Hsub, in_app_iff; auto).
      clear - Hgs Hne Hr Ht Hs2 W0. revert Hr Hs2 Hne. induction Hgs as [|g b gs bs Hg Hgs IH]; intros Hr Hs2 Hne; [destruct Hr|].
      inversion Hne as [|? ? [Hg0 _] Hne']; subst. cbn [concat] in Hs2. destruct Hr as [<-|Hr].
      * destruct (merged_names id g _ _ Hg) as [[-> _]|N]; [|exact W0|exfalso; apply Hg0; reflexivity|exact (proj1 (proj2 N))].
        rewrite Forall_forall. intros x Hx. apply Hs2, in_app_iff. auto.
      * apply IH; auto. intros x Hx. apply Hs2, in_app_iff. auto.
  - intros m target cmds cmd arg Hi Hsup Hs Hc. destruct (Q m target cmds Hs) as (_ & _ & F).
    rewrite Forall_forall in F. specialize (F _ Hc). cbn [fst] in F.
    destruct (requests_complete limit (JObj []) mods rs m target cmd) as (r & Hr & Hp & _); eauto; [eexists; reflexivity|].
    intros m' Hi'. destruct (Qm m' Hi') as [[W _] S]. auto.
Qed.
Print Assumptions socket_update_asks.
Example socket_update_asks_ex :
  exists q1 q2, socket_query "8006_01" "schedule" ("get_rules", None) [("get_next_action", None)] = Ok q1 /\
    socket_query "8006_01" "emeter" ("get_realtime", None) [("get_daystat", Some (JObj [("year", JInt 2024)]))] = Ok q2 /\
    socket_module "8006_01" (mkImod true 256 q1) "schedule" [("get_rules", None); ("get_next_action", None)] /\
    requests 300 (JObj []) [mkImod true 256 q1; mkImod true 2048 q2] = Ok [q1; q2] /\
    at_keys ["schedule"; "get_rules"] q1 = Some JNull.
Proof.
  eexists. eexists. split; [reflexivity|]. split; [reflexivity|]. split; [|split; reflexivity].
  split; [discriminate|]. split; [repeat constructor|]. eexists. eexists. split; reflexivity.
Qed.
Definition replies_wf (es : list event) : Prop :=
  forall e, In e es -> let r := match e with EParent r => r | ESocket _ r => r end in dwf r /\ forall k d, In (k, d) r -> dwf d.
(** A module the strip itself had no reply for when its sockets were made: every field
    a socket reports is from the last of this socket's own replies that gave it. *)
Theorem socket_own_data_partial : forall first n es i k f, (i < n)%nat -> replies_wf es ->
  ~ In k (dkeys first) ->
  socket_field i k f (run (make_strip first n) es) = last_field k f (socket_replies i es).
Proof.
  intros first n es i k f Hi Hw Hk.
  assert (Hp : dget k (parent_lu (make_strip first n)) = None).
  { unfold make_strip. destruct (put_all first ([], [])) as [st lu] eqn:E.
    destruct (put_all_first first [] []) as [V D]; [discriminate|]. unfold dict in E, V, D. rewrite E in V, D. cbn. apply D. auto. }
  assert (G : forall es s, replies_wf es -> ginv (parent_lu (make_strip first n)) (gof s) -> nth_error (sockets s) i <> None ->
     socket_field i k f (run s es) = match last_field k f (socket_replies i es) with Some v => Some v | None => socket_field i k f s end).
  { induction es0 as [|e es0 IH]; intros s W I V; [reflexivity|].
    cbn [run fold_left]. change (fold_left step es0 (step s e)) with (run (step s e) es0).
    assert (W0 : replies_wf es0) by (intros x Hx; apply W; right; exact Hx).
    destruct (W e (or_introl eq_refl)) as [We1 We2].
    assert (F : ginv (parent_lu (make_strip first n)) (gof (step s e)) /\ nth_error (snd (gof (step s e))) (S i) <> None /\
       gfield (S i) k f (gof (step s e)) =
        match e with ESocket j r => if Nat.eqb j i then match field k f r with Some v => Some v | None => gfield (S i) k f (gof s) end else gfield (S i) k f (gof s)
                   | EParent _ => gfield (S i) k f (gof s) end).
    { rewrite gof_step. destruct e as [r|j r].
      - destruct (gall_field _ r 0 (gof s) (S i) k f I Hp V We1 We2) as (A & B & C). auto.
      - destruct (gall_field _ r (S j) (gof s) (S i) k f I Hp V We1 We2) as (A & B & C). auto. }
    destruct F as (F1 & F2 & F3). rewrite (IH _ W0 F1 F2).
    assert (S0 : forall s, socket_field i k f s = gfield (S i) k f (gof s)) by reflexivity.
    rewrite !S0, F3. unfold socket_replies. cbn [flat_map]. fold (socket_replies i es0).
    destruct e as [r|j r]; [reflexivity|]. rewrite (Nat.eqb_sym j i). destruct (Nat.eqb i j); cbn [app last_field]; [|reflexivity].
    destruct (last_field k f (socket_replies i es0)); reflexivity. }
  rewrite (G es (make_strip first n) Hw (make_strip_inv first n)).
  - assert (E : socket_field i k f (make_strip first n) = None).
    { unfold socket_field, socket_data. destruct (nth_error (sockets (make_strip first n)) i) as [lu|] eqn:En; [|reflexivity].
      assert (lu = parent_lu (make_strip first n)).
      { revert En. unfold make_strip. destruct (put_all first ([], [])) as [st l]. cbn. intro En. apply nth_error_In, repeat_spec in En. exact En. }
      subst lu. rewrite Hp. reflexivity. }
    rewrite E. destruct (last_field k f (socket_replies i es)); reflexivity.
  - intro H. apply nth_error_None in H. unfold make_strip in H. destruct (put_all first ([], [])) as [st l]. cbn in H. rewrite repeat_length in H. lia.
Qed.
Print Assumptions socket_own_data_partial.
Example socket_own_data_ex :
  let r v := [("emeter", [("get_realtime", JInt v)])] in
  socket_field 0 "emeter" "get_realtime" (run (make_strip [("system", [("get_sysinfo", JNull)])] 2) [ESocket 0 (r 5); ESocket 1 (r 7)]) = Some (JInt 5).
Proof. reflexivity. Qed.
(** For a module the strip has a reply for (schedule, usage, anti-theft and countdown
    rules are such) the sockets do not keep their own data: *)
Theorem socket_own_data_refuted : exists first es i k f,
  socket_field i k f (run (make_strip first 2) es) <> last_field k f (socket_replies i es).
Proof.
  exists [("schedule", [("get_rules", JStr "of the strip")])],
         [ESocket 0 [("schedule", [("get_rules", JStr "of socket 0")])]; ESocket 1 [("schedule", [("get_rules", JStr "of socket 1")])]],
         0%nat, "schedule", "get_rules". discriminate.
Qed.
Print Assumptions socket_own_data_refuted.
(** in fact all the sockets always report the same data for it. *)
Theorem sockets_share_data : forall first n es i j k, (i < n)%nat -> (j < n)%nat -> In k (dkeys first) ->
  socket_data i k (run (make_strip first n) es) = socket_data j k (run (make_strip first n) es).
Proof.
  intros first n es i j k Hi Hj Hk.
  assert (Hp : exists a, dget k (parent_lu (make_strip first n)) = Some a).
  { unfold make_strip. destruct (put_all first ([], [])) as [st lu] eqn:E.
    destruct (put_all_first first [] []) as [V D]; [discriminate|]. unfold dict in E, V, D. rewrite E in V, D. cbn.
    destruct (dget k lu) eqn:El; [eauto|]. apply D in El. tauto. }
  destruct Hp as [a Ha].
  assert (G : forall es s, ginv (parent_lu (make_strip first n)) (gof s) -> nth_error (sockets s) i <> None -> nth_error (sockets s) j <> None ->
     ginv (parent_lu (make_strip first n)) (gof (run s es)) /\ nth_error (sockets (run s es)) i <> None /\ nth_error (sockets (run s es)) j <> None).
  { induction es0 as [|e es0 IH]; intros s I Vi Vj; [auto|]. cbn [run fold_left]. apply IH.
    - rewrite gof_step. destruct e; apply gall_shared, I.
    - change (nth_error (snd (gof (step s e))) (S i) <> None). rewrite gof_step. destruct e; rewrite gall_owner; exact Vi.
    - change (nth_error (snd (gof (step s e))) (S j) <> None). rewrite gof_step. destruct e; rewrite gall_owner; exact Vj. }
  assert (L : length (sockets (make_strip first n)) = n).
  { unfold make_strip. destruct (put_all first ([], [])). cbn. apply repeat_length. }
  destruct (G es _ (make_strip_inv first n)) as ([_ Sh _] & Vi & Vj);
    [rewrite nth_error_None, L; lia|rewrite nth_error_None, L; lia|].
  rewrite !socket_gdata. unfold gdata.
  destruct (nth_error (snd (gof (run (make_strip first n) es))) (S i)) as [li|] eqn:Ei; [|exfalso; exact (Vi Ei)].
  destruct (nth_error (snd (gof (run (make_strip first n) es))) (S j)) as [lj|] eqn:Ej; [|exfalso; exact (Vj Ej)].
  rewrite (Sh _ _ _ _ Ei Ha), (Sh _ _ _ _ Ej Ha). reflexivity.
Qed.
Print Assumptions sockets_share_data.

(** Proofs about legacy updates and commands. *)
From Coq Require Import Lia.
From Verif Require Import Base Base_Lemmas Py Iot_Model Iot_Spec.
Open Scope string_scope.
Open Scope list_scope.
Open Scope Z_scope.

(** ** Merging *)
Fixpoint mgo (s : list (string * json)) (d : dict json) : res json :=
  match s with
  | [] => Ok (JObj d)
  | (k, v) :: s =>
      match v, dget k d with
      | JObj _, Some dv => let! dv' := merge dv v in mgo s (dset k dv' d)
      | _, _ => mgo s (dset k v d)
      end
  end.

Lemma merge_obj s d : merge (JObj d) (JObj s) = mgo s d.
Proof.
  cbn [merge]. revert d. induction s as [|[k v] s IH]; intro d; [reflexivity|].
  cbn [mgo]. destruct v; try apply IH. destruct (dget k d) as [dv|]; [|apply IH].
  destruct (merge dv (JObj d0)); cbn [bind]; [apply IH|reflexivity].
Qed.

Lemma not_dict_cases v : ~ is_dict v -> match v with JObj _ => False | _ => True end.
Proof. destruct v; auto. intro H. apply H. eexists; reflexivity. Qed.
Lemma dict_dec v : is_dict v \/ ~ is_dict v.
Proof. destruct v; try (right; intros [d H]; discriminate). left. eexists; reflexivity. Qed.

(** One level of the result. *)
Definition level (d : dict json) (s : list (string * json)) (k : string) (out : option json) : Prop :=
  match dget k s with
  | None => out = dget k d
  | Some v => match v, dget k d with
              | JObj _, Some dv => exists dv', merge dv v = Ok dv' /\ out = Some dv'
              | _, _ => out = Some v
              end
  end.

Lemma mgo_level s : forall d x, dwf s -> mgo s d = Ok x ->
  exists r, x = JObj r /\ forall k, level d s k (dget k r).
Proof.
  induction s as [|[k v] s IH]; intros d x Hwf H; cbn [mgo] in H.
  - injection H as <-. exists d. split; [reflexivity|]. intro k. reflexivity.
  - inversion Hwf as [|? ? Hn Hs]; subst. cbn [fst] in Hn.
    assert (Hk : dget k s = None) by (apply dget_None; exact Hn).
    assert (Hlast : forall y, mgo s (dset k y d) = Ok x ->
       exists r, x = JObj r /\ dget k r = Some y /\ forall k', k' <> k -> level d s k' (dget k' r)).
    { intros y Hy. destruct (IH _ _ Hs Hy) as (r & -> & L). exists r. split; [reflexivity|]. split.
      - specialize (L k). unfold level in L. rewrite Hk, dget_dset_same in L. exact L.
      - intros k' Hne. specialize (L k'). unfold level in *. rewrite dget_dset_other in L by exact Hne. exact L. }
    assert (Hfin : forall y, mgo s (dset k y d) = Ok x -> level d ((k, v) :: s) k (Some y) ->
       exists r, x = JObj r /\ forall k', level d ((k, v) :: s) k' (dget k' r)).
    { intros y Hy Hl. destruct (Hlast y Hy) as (r & -> & E & L). exists r. split; [reflexivity|].
      intro k'. destruct (String.eqb_spec k' k) as [->|Hne]; [rewrite E; exact Hl|].
      specialize (L k' Hne). unfold level in *. cbn [dget]. rewrite (seqb_neq k' k Hne). exact L. }
    destruct v as [| | | | | |vd];
      try (apply (Hfin _ H); unfold level; cbn [dget]; rewrite seqb_refl; reflexivity).
    destruct (dget k d) as [dv|] eqn:Ed.
    + destruct (merge dv (JObj vd)) as [dv'|e] eqn:Em; [cbn [bind] in H|discriminate].
      apply (Hfin _ H). unfold level. cbn [dget]. rewrite seqb_refl, Ed. eauto.
    + apply (Hfin _ H). unfold level. cbn [dget]. rewrite seqb_refl, Ed. reflexivity.
Qed.

Lemma merge_cases d s r : merge d s = Ok r ->
  exists sd, s = JObj sd /\
    ((exists dd, d = JObj dd /\ mgo sd dd = Ok r) \/ (~ is_dict d /\ sd = [] /\ r = d)).
Proof.
  destruct s as [| | | | | |sd]; cbn [merge]; try discriminate. intro H. exists sd. split; [reflexivity|].
  destruct d as [| | | | | |dd];
    try (right; destruct sd; [injection H as <-|discriminate]; split; [intros [? E]; discriminate|auto]).
  left. exists dd. split; [reflexivity|]. rewrite <- merge_obj. exact H.
Qed.

Lemma jwf_dict d : jwf (JObj d) -> dwf d /\ forall k v, dget k d = Some v -> jwf v.
Proof.
  intro H. inversion H as [? Hd Hv|? Hn]; subst.
  - split; [exact Hd|]. intros k v E. apply (Hv k). apply dget_In, E.
  - exfalso. apply Hn. eexists; reflexivity.
Qed.

(** Nothing of the source is lost. *)
Lemma merge_source p : forall d s r v, jwf s -> merge d s = Ok r -> at_keys p s = Some v ->
  exists v', at_keys p r = Some v' /\ (~ is_dict v -> v' = v).
Proof.
  induction p as [|k p IH]; intros d s r v Hwf Hm Hp.
  - cbn in *. injection Hp as <-. exists r. split; [reflexivity|]. intro Hn.
    destruct (merge_cases _ _ _ Hm) as (sd & -> & _). exfalso. apply Hn. eexists; reflexivity.
  - destruct (merge_cases _ _ _ Hm) as (sd & -> & [(dd & -> & Hg)|(Hd & -> & ->)]); [|discriminate].
    destruct (jwf_dict _ Hwf) as [Hwd Hwv].
    destruct (mgo_level _ _ _ Hwd Hg) as (rd & -> & L). specialize (L k).
    cbn [at_keys] in Hp |- *. destruct (dget k sd) as [x|] eqn:Ek; [|discriminate].
    specialize (Hwv k x Ek). unfold level in L. rewrite Ek in L.
    destruct x as [| | | | | |xd]; try (rewrite L; exists v; split; [exact Hp|reflexivity]).
    destruct (dget k dd) as [dv|].
    + destruct L as (dv' & E & ->). exact (IH _ _ _ _ Hwv E Hp).
    + rewrite L. exists v. split; [exact Hp|reflexivity].
Qed.

(** What the source does not cover is kept. *)
Lemma merge_dest p : forall d s r v, jwf s -> merge d s = Ok r -> at_keys p d = Some v -> ~ covers s p ->
  exists v', at_keys p r = Some v' /\ (~ is_dict v -> v' = v).
Proof.
  induction p as [|k p IH]; intros d s r v Hwf Hm Hp Hc.
  - cbn in *. injection Hp as <-. exists r. split; [reflexivity|]. intro Hn.
    destruct (merge_cases _ _ _ Hm) as (sd & -> & [(dd & -> & Hg)|(Hd & -> & ->)]); [|reflexivity].
    exfalso. apply Hn. eexists; reflexivity.
  - destruct (merge_cases _ _ _ Hm) as (sd & -> & [(dd & -> & Hg)|(Hd & -> & ->)]).
    2:{ exists v. split; [exact Hp|reflexivity]. }
    destruct (jwf_dict _ Hwf) as [Hwd Hwv].
    destruct (mgo_level _ _ _ Hwd Hg) as (rd & -> & L). specialize (L k).
    cbn [at_keys] in Hp |- *. destruct (dget k dd) as [x|] eqn:Ek; [|discriminate].
    unfold level in L. rewrite Ek in L. destruct (dget k sd) as [y|] eqn:Es.
    + assert (Hy : is_dict y).
      { destruct (dict_dec y) as [Hy|Hy]; [exact Hy|]. exfalso. apply Hc.
        exists [k], p, y. split; [reflexivity|]. split; [cbn; rewrite Es; reflexivity|exact Hy]. }
      destruct Hy as [yd ->]. destruct L as (dv' & E & ->). apply (IH _ _ _ _ (Hwv k _ Es) E Hp).
      intros (q & q' & w & -> & Hl & Hw). apply Hc. exists (k :: q), q', w.
      split; [reflexivity|]. split; [cbn; rewrite Es; exact Hl|exact Hw].
    + rewrite L. exists v. split; [exact Hp|reflexivity].
Qed.

(** Nothing else appears. *)
Lemma merge_only p : forall d s r v, jwf s -> merge d s = Ok r -> at_keys p r = Some v ->
  (present p s \/ present p d) /\ (~ is_dict v -> at_keys p s = Some v \/ at_keys p d = Some v).
Proof.
  induction p as [|k p IH]; intros d s r v Hwf Hm Hp.
  - cbn in *. injection Hp as <-. split; [left; discriminate|]. intro Hn. right.
    destruct (merge_cases _ _ _ Hm) as (sd & -> & [(dd & -> & Hg)|(Hd & -> & ->)]); [|reflexivity].
    exfalso. apply Hn. destruct (jwf_dict _ Hwf) as [Hwd _].
    destruct (mgo_level _ _ _ Hwd Hg) as (rd & -> & _). eexists; reflexivity.
  - destruct (merge_cases _ _ _ Hm) as (sd & -> & [(dd & -> & Hg)|(Hd & -> & ->)]).
    2:{ split; [right; unfold present; congruence|auto]. }
    destruct (jwf_dict _ Hwf) as [Hwd Hwv].
    destruct (mgo_level _ _ _ Hwd Hg) as (rd & -> & L). specialize (L k).
    unfold present. cbn [at_keys] in Hp |- *. destruct (dget k rd) as [x|] eqn:Ek; [|discriminate].
    unfold level in L. destruct (dget k sd) as [y|] eqn:Es.
    + assert (D : (exists yd dv, y = JObj yd /\ dget k dd = Some dv /\ merge dv y = Ok x) \/ x = y).
      { destruct y; try (right; congruence). destruct (dget k dd) as [dv|]; [|right; congruence].
        destruct L as (dv' & E & Ex). left. injection Ex as ->. eauto. }
      destruct D as [(yd & dv & -> & Ed & E)| ->].
      * rewrite Ed. exact (IH _ _ _ _ (Hwv _ _ Es) E Hp).
      * split; [left; congruence|auto].
    + rewrite <- L. split; [right; congruence|auto].
Qed.

(** Plain values and dictionaries never meet: merging succeeds. *)
Lemma compatible_at k a b va vb : compatible (JObj a) (JObj b) -> dget k a = Some va -> dget k b = Some vb -> compatible va vb.
Proof.
  intros H Ea Eb p x y Hx Hy. apply (H (k :: p)); cbn; [rewrite Ea; exact Hx|rewrite Eb; exact Hy].
Qed.

Lemma merge_total s : forall d, jwf s -> is_dict s -> is_dict d -> compatible d s -> exists r, merge d s = Ok r /\ is_dict r.
Proof.
  induction s as [| | | | | |sd IH] using json_ind'; intros d Hwf [sd' Es] [dd ->] Hc; try discriminate. clear Es sd'.
  rewrite merge_obj. destruct (jwf_dict _ Hwf) as [Hwd Hwv].
  assert (G : forall s, (forall k v, In (k, v) s -> In (k, v) sd) -> dwf s -> forall d,
     (forall k v, In (k, v) s -> dget k d = dget k dd) -> exists r, mgo s d = Ok r /\ is_dict r).
  { induction s as [|[k v] s IHs]; intros Hin Hs d Hd; [eexists; split; [reflexivity|eexists; reflexivity]|].
    inversion Hs as [|? ? Hn Hs']; subst. cbn [fst] in Hn. cbn [mgo].
    assert (Hnext : forall y, exists r, mgo s (dset k y d) = Ok r /\ is_dict r).
    { intro y. apply IHs; [intros k' v' H; apply Hin; right; exact H|exact Hs'|].
      intros k' v' H. rewrite dget_dset_other; [apply (Hd k' v'); right; exact H|].
      intros ->. apply Hn. apply in_map_iff. exists (k, v'). auto. }
    destruct v as [| | | | | |vd]; try apply Hnext.
    rewrite (Hd k (JObj vd)) by (left; reflexivity).
    destruct (dget k dd) as [dv|] eqn:Ed; [|apply Hnext].
    assert (Hi : In (k, JObj vd) sd) by (apply Hin; left; reflexivity).
    assert (Hg : dget k sd = Some (JObj vd)) by (apply In_dget; [exact Hwd|exact Hi]).
    assert (Hdv : is_dict dv).
    { destruct (Hc [k] dv (JObj vd)) as [[H _]|H]; cbn; [rewrite Ed|rewrite Hg| |]; auto.
      subst dv. eexists; reflexivity. }
    rewrite Forall_forall in IH. destruct (IH _ Hi dv) as (r & Er & _); cbn [snd].
    - exact (Hwv _ _ Hg).
    - eexists; reflexivity.
    - exact Hdv.
    - eapply compatible_at; eauto.
    - cbn [snd] in Er. rewrite Er. cbn [bind]. apply Hnext. }
  apply (G sd); auto.
Qed.

Lemma merge_fails p : forall d s v w, jwf s -> at_keys p d = Some v -> at_keys p s = Some (JObj w) -> ~ is_dict v -> w <> [] ->
  merge d s = Err PyTypeError \/ exists r, merge d s = Err r.
Proof.
  intros d s v w Hwf Hd Hs Hv Hw. right.
  destruct (merge d s) as [r|e] eqn:E; [exfalso|eauto].
  revert d s r Hwf Hd Hs E. induction p as [|k p IH]; intros d s r Hwf Hd Hs E.
  - cbn in *. injection Hd as ->. injection Hs as ->.
    destruct (merge_cases _ _ _ E) as (sd & Es & [(dd & -> & Hg)|(_ & -> & _)]).
    + apply Hv. eexists; reflexivity.
    + injection Es as ->. apply Hw. reflexivity.
  - destruct (merge_cases _ _ _ E) as (sd & -> & [(dd & -> & Hg)|(_ & -> & _)]); [|discriminate].
    destruct (jwf_dict _ Hwf) as [Hwd Hwv].
    destruct (mgo_level _ _ _ Hwd Hg) as (rd & -> & L). specialize (L k).
    cbn [at_keys] in Hd, Hs. unfold level in L. destruct (dget k dd) as [x|] eqn:Ek; [|discriminate].
    destruct (dget k sd) as [y|] eqn:Ey; [|discriminate].
    destruct y as [| | | | | |yd];
      try (destruct p; cbn in Hs; discriminate).
    destruct L as (dv' & E' & _). exact (IH _ _ _ (Hwv _ _ Ey) Hd Hs E').
Qed.

Lemma mgo_dict s : forall d r, mgo s d = Ok r -> is_dict r.
Proof.
  induction s as [|[k v] s IH]; intros d r H; cbn [mgo] in H; [injection H as <-; eexists; reflexivity|].
  destruct v; try (eapply IH; exact H). destruct (dget k d); [|eapply IH; exact H].
  destruct (merge j (JObj d0)); [|discriminate]. eapply IH; exact H.
Qed.
Lemma merge_dict d s r : merge d s = Ok r -> is_dict d -> is_dict r.
Proof.
  intros H [dd ->]. destruct (merge_cases _ _ _ H) as (sd & -> & [(d' & E & Hg)|(Hn & _ & _)]).
  - eapply mgo_dict, Hg.
  - exfalso. apply Hn. eexists; reflexivity.
Qed.

(** ** Splitting *)
Lemma split_spec limit l : forall req est out rs, split limit l req est out = Ok rs ->
  exists g gs b bs,
    g ++ concat gs = filter i_supported l /\ rs = out ++ b :: bs /\
    merged req g b /\ Forall2 (merged (JObj [])) gs bs /\
    (est + total g <= limit \/ g = []) /\
    Forall (fun g => exists m g', g = m :: g' /\ (total g <= limit \/ g' = [])) gs /\
    (forall m g' gs', gs = (m :: g') :: gs' -> limit < est + total g + i_size m) /\
    (forall pre g1 m g2 post, gs = pre ++ g1 :: (m :: g2) :: post -> limit < total g1 + i_size m).
Proof.
  induction l as [|m l IH]; intros req est out rs H; cbn [split] in H.
  - injection H as <-. exists [], [], req, [].
    split; [reflexivity|]. split; [reflexivity|]. split; [constructor|]. split; [constructor|].
    split; [right; reflexivity|]. split; [constructor|]. split; [discriminate|].
    intros pre g1 m g2 post E. destruct pre; discriminate.
  - cbn [filter]. destruct (i_supported m); [|apply IH, H].
    destruct (limit <? est + i_size m) eqn:El.
    + destruct (merge (JObj []) (i_query m)) as [q|] eqn:Em; [cbn [bind] in H|discriminate].
      destruct (IH _ _ _ _ H) as (g & gs & b & bs & Ef & -> & Hg & Hgs & Hb & Hbs & Hn & Hn2).
      exists [], ((m :: g) :: gs), req, (b :: bs). apply Z.ltb_lt in El.
      split; [cbn; rewrite <- Ef; reflexivity|]. split; [rewrite <- app_assoc; reflexivity|].
      split; [constructor|]. split; [constructor; [econstructor; eauto|exact Hgs]|].
      split; [right; reflexivity|].
      split; [constructor; [|exact Hbs]; exists m, g; split; [reflexivity|cbn [total fold_right]; fold (total g); destruct Hb; [left; lia|right; assumption]]|].
      split.
      * intros m' g' gs' E. injection E as <- <- <-. cbn [total fold_right]. lia.
      * intros pre g1 m' g2 post E. destruct pre as [|x pre].
        -- cbn in E. injection E as <- E. cbn [total fold_right]. fold (total g). eapply Hn. exact E.
        -- cbn in E. injection E as _ E. eapply Hn2. exact E.
    + destruct (merge req (i_query m)) as [q|] eqn:Em; [cbn [bind] in H|discriminate].
      destruct (IH _ _ _ _ H) as (g & gs & b & bs & Ef & -> & Hg & Hgs & Hb & Hbs & Hn & Hn2).
      exists (m :: g), gs, b, bs. apply Z.ltb_ge in El.
      split; [cbn; rewrite Ef; reflexivity|]. split; [reflexivity|].
      split; [econstructor; eauto|]. split; [exact Hgs|].
      split; [left; cbn [total fold_right]; fold (total g); destruct Hb as [Hb| ->]; cbn [total fold_right]; lia|].
      split; [exact Hbs|]. split; [|exact Hn2].
      intros m' g' gs' E. specialize (Hn _ _ _ E). cbn [total fold_right]. fold (total g). lia.
Qed.

(** A merged request has every position of every query in it that no later query covers. *)
Lemma merged_keeps l : forall a b p v, merged a l b -> (forall m, In m l -> jwf (i_query m) /\ ~ covers (i_query m) p) ->
  at_keys p a = Some v -> exists v', at_keys p b = Some v' /\ (~ is_dict v -> v' = v).
Proof.
  induction l as [|m l IH]; intros a b p v H Hc Hp; inversion H; subst; [eauto|].
  destruct (Hc m (or_introl eq_refl)) as [W C].
  destruct (merge_dest p _ _ _ _ W H3 Hp C) as (v1 & E1 & L1).
  destruct (IH _ _ p v1 H5 (fun m' Hi => Hc m' (or_intror Hi)) E1) as (v2 & E2 & L2).
  exists v2. split; [exact E2|]. intro Hn. specialize (L1 Hn). subst v1. auto.
Qed.

Lemma merged_has pre : forall a m post b p v, merged a (pre ++ m :: post) b ->
  jwf (i_query m) -> (forall m', In m' post -> jwf (i_query m') /\ ~ covers (i_query m') p) ->
  at_keys p (i_query m) = Some v -> exists v', at_keys p b = Some v' /\ (~ is_dict v -> v' = v).
Proof.
  induction pre as [|x pre IH]; intros a m post b p v H Hw Hc Hp; cbn in H; inversion H; subst.
  - destruct (merge_source p _ _ _ _ Hw H3 Hp) as (v1 & E1 & L1).
    destruct (merged_keeps _ _ _ p v1 H5 Hc E1) as (v2 & E2 & L2).
    exists v2. split; [exact E2|]. intro Hn. specialize (L1 Hn). subst v1. auto.
  - eapply IH; eauto.
Qed.

Lemma shaped_not_covers q k c : query_shaped q -> at_keys [k; c] q = None \/ (exists w, at_keys [k; c] q = Some w /\ is_dict w) -> ~ covers q [k; c].
Proof.
  intros (d & -> & Hd) H (p & r & v & E & (Hv & Hn)).
  destruct p as [|k1 [|k2 [|k3 p]]].
  - cbn in Hv. injection Hv as <-. apply Hn. eexists; reflexivity.
  - cbn in E. injection E as <- <-. cbn in Hv. destruct (dget k d) as [x|] eqn:Ek; [|discriminate].
    injection Hv as <-. apply Hn, (Hd k). apply dget_In, Ek.
  - cbn in E. injection E as <- <- <-. destruct H as [H|(w & H & Hw)]; [congruence|].
    rewrite Hv in H. injection H as <-. auto.
  - discriminate.
Qed.

(** A command, once in a request, stays there. *)
Lemma merge_keeps_command d q r k c : jwf q -> query_shaped q -> merge d q = Ok r -> present [k; c] d -> present [k; c] r.
Proof.
  intros W S Hm Hd. destruct (at_keys [k; c] q) as [w|] eqn:E.
  - destruct (merge_source [k; c] _ _ _ _ W Hm E) as (v & Ev & _). unfold present. congruence.
  - destruct (at_keys [k; c] d) as [v|] eqn:Ed; [|exfalso; apply Hd, Ed].
    destruct (merge_dest [k; c] _ _ _ _ W Hm Ed (shaped_not_covers q k c S (or_introl E))) as (v' & Ev & _).
    unfold present. congruence.
Qed.
Lemma merged_keeps_command l : forall a b k c, merged a l b ->
  (forall m, In m l -> jwf (i_query m) /\ query_shaped (i_query m)) -> present [k; c] a -> present [k; c] b.
Proof.
  induction l as [|m l IH]; intros a b k c H Hq Hp; inversion H; subst; [exact Hp|].
  destruct (Hq m (or_introl eq_refl)) as [W S]. eapply IH; [eassumption| |].
  - intros m' Hi. apply Hq. right. exact Hi.
  - eapply merge_keeps_command; eauto.
Qed.
Lemma merged_has_command pre : forall a m post b k c, merged a (pre ++ m :: post) b -> jwf (i_query m) ->
  (forall m', In m' post -> jwf (i_query m') /\ query_shaped (i_query m')) ->
  present [k; c] (i_query m) -> present [k; c] b.
Proof.
  induction pre as [|x pre IH]; intros a m post b k c H Hw Hc Hp; cbn in H; inversion H; subst.
  - eapply merged_keeps_command; [eassumption|exact Hc|].
    destruct (at_keys [k; c] (i_query m)) as [v|] eqn:E; [|exfalso; apply Hp, E].
    destruct (merge_source [k; c] _ _ _ _ Hw H3 E) as (v1 & E1 & _). unfold present. congruence.
  - eapply IH; eauto.
Qed.

(** ** Queries of a socket *)
Lemma In_dset {A} k v k' v' (d : dict A) : In (k', v') (dset k v d) -> (k' = k /\ v' = v) \/ In (k', v') d.
Proof.
  induction d as [|[k0 v0] d IH]; cbn.
  - intros [H|[]]. injection H as <- <-. auto.
  - destruct (String.eqb_spec k k0) as [->|Hn]; cbn.
    + intros [H|H]; [injection H as <- <-; auto|auto].
    + intros [H|H]; [auto|]. destruct (IH H); auto.
Qed.
Lemma merge_wf s : forall d r, jwf s -> jwf d -> merge d s = Ok r -> jwf r.
Proof.
  induction s as [| | | | | |sd IH] using json_ind'; intros d r Ws Wd Hm; try discriminate.
  destruct (merge_cases _ _ _ Hm) as (sd' & E & [(dd & -> & Hg)|(_ & _ & ->)]); [|exact Wd].
  injection E as <-. clear Hm. inversion Ws as [? Hw Hv|? Hn]; subst; [|exfalso; apply Hn; eexists; reflexivity].
  revert dd Wd Hg. clear Ws. induction sd as [|[k v] sd IHs]; intros dd Wd Hg; cbn [mgo] in Hg.
  - injection Hg as <-. exact Wd.
  - inversion IH as [|? ? IHv IHsd]; subst. inversion Hw as [|? ? _ Hw']; subst.
    assert (Wv : jwf v) by (apply (Hv k); left; reflexivity).
    assert (Wn : forall y, jwf y -> jwf (JObj (dset k y dd))).
    { intros y Wy. inversion Wd as [? D1 D2|? Hn]; subst; [|exfalso; apply Hn; eexists; reflexivity].
      constructor; [apply dwf_dset, D1|]. intros k' v' Hi. apply In_dset in Hi as [[-> ->]|Hi]; eauto. }
    assert (Hgo : forall y, jwf y -> mgo sd (dset k y dd) = Ok r -> jwf r).
    { intros y Wy Hy. apply (IHs IHsd Hw' (fun k' v' Hi => Hv k' v' (or_intror Hi)) (dset k y dd)); auto. }
    destruct v as [| | | | | |vd]; try (apply (Hgo _ Wv Hg)).
    destruct (dget k dd) as [dv|] eqn:Ed; [|apply (Hgo _ Wv Hg)].
    destruct (merge dv (JObj vd)) as [dv'|] eqn:Em; [|discriminate]. cbn [bind] in Hg.
    apply (Hgo dv'); [|exact Hg]. apply (IHv dv dv'); [exact Wv| |exact Em].
    inversion Wd as [? D1 D2|? Hn]; subst; [|exfalso; apply Hn; eexists; reflexivity].
    apply (D2 k). apply dget_In, Ed.
Qed.
(** A query that names the socket [id] *)
Definition names (id : string) (q : json) : Prop :=
  jwf q /\ leaf ["context"; "child_ids"] (JArr [JStr id]) q.
Lemma merge_shaped d s r : jwf s -> query_shaped d -> query_shaped s -> merge d s = Ok r -> query_shaped r.
Proof.
  intros Ws (dd & -> & Hd) (sd & -> & Hs) Hm. rewrite merge_obj in Hm. destruct (jwf_dict _ Ws) as [Hw _]. clear Ws.
  revert dd Hd Hm. induction sd as [|[k v] sd IH]; intros dd Hd Hm; cbn [mgo] in Hm.
  - injection Hm as <-. exists dd. auto.
  - inversion Hw as [|? ? _ Hw']; subst. destruct (Hs k v (or_introl eq_refl)) as [vd ->].
    assert (Hgo : forall y, is_dict y -> mgo sd (dset k y dd) = Ok r -> query_shaped r).
    { intros y Hy. apply IH; [intros k' v' Hi; apply (Hs k'); right; exact Hi|exact Hw'|].
      intros k' v' Hi. apply In_dset in Hi as [[-> ->]|Hi]; eauto. }
    destruct (dget k dd) as [dv|] eqn:Ed.
    + destruct (Hd k dv (dget_In _ _ _ Ed)) as [dvd ->].
      destruct (merge (JObj dvd) (JObj vd)) as [dv'|] eqn:Em; [|discriminate]. cbn [bind] in Hm.
      apply (Hgo dv'); [|exact Hm].
      destruct (merge_cases _ _ _ Em) as (sd' & E & [(x & _ & Hg)|(Hn & _)]); [|exfalso; apply Hn; eexists; reflexivity].
      injection E as <-. revert Hg. clear. revert x. induction vd as [|[k v] vd IH]; intros x Hg; cbn [mgo] in Hg.
      * injection Hg as <-. eexists; reflexivity.
      * destruct v; try (apply (IH _ Hg)). destruct (dget k x); [|apply (IH _ Hg)].
        destruct (merge j (JObj d)); [cbn [bind] in Hg; apply (IH _ Hg)|discriminate].
    + apply (Hgo (JObj vd)); [eexists; reflexivity|exact Hm].
Qed.
Lemma merge_names id d s r : names id s -> jwf d -> merge d s = Ok r -> names id r.
Proof.
  intros [W [L N]] Wd Hm. split; [exact (merge_wf _ _ _ W Wd Hm)|].
  destruct (merge_source _ _ _ _ _ W Hm L) as (v & E & Hv). rewrite (Hv N) in E. split; [exact E|exact N].
Qed.
Definition arg_wf (a : option json) : Prop := match a with Some v => jwf v | None => True end.
Lemma jwf_leaf v : match v with JObj _ => False | _ => True end -> jwf v.
Proof. intro H. apply Wf_leaf. intros [d ->]. exact H. Qed.
Lemma socket_request_ok id target cmd a : target <> "context" -> arg_wf a ->
  names id (socket_request id target cmd a) /\ query_shaped (socket_request id target cmd a) /\
  present [target; cmd] (socket_request id target cmd a).
Proof.
  intros Ht Ha. split; [split|split].
  - constructor.
    + unfold dwf. cbn. repeat constructor; auto. intros [H|[]]. congruence.
    + intros k v [H|[H|[]]]; injection H as <- <-; (constructor; [unfold dwf; cbn; repeat constructor; auto|]);
        intros k v [H|[]]; injection H as <- <-.
      * apply jwf_leaf. exact I.
      * destruct a; [exact Ha|apply jwf_leaf; exact I].
  - split; [reflexivity|]. intros [d H]; discriminate.
  - exists [("context", JObj [("child_ids", JArr [JStr id])]); (target, JObj [(cmd, match a with Some a => a | None => JNull end)])].
    split; [reflexivity|]. intros k v [H|[H|[]]]; injection H as <- <-; eexists; reflexivity.
  - unfold present, socket_request. cbn [at_keys dget]. rewrite (seqb_neq _ _ Ht), seqb_refl. cbn [at_keys dget].
    rewrite seqb_refl. discriminate.
Qed.
Lemma socket_query_from_ok id target l : forall q r, target <> "context" -> Forall (fun p => arg_wf (snd p)) l ->
  names id q -> query_shaped q -> socket_query_from id target l q = Ok r ->
  names id r /\ query_shaped r /\ (forall k c, present [k; c] q -> present [k; c] r) /\
  Forall (fun p => present [target; fst p] r) l.
Proof.
  induction l as [|[c a] l IH]; intros q r Ht Hl Hq Hs H; cbn [socket_query_from] in H.
  - injection H as <-. auto.
  - inversion Hl as [|? ? Ha Hl']; subst. cbn [snd] in Ha.
    destruct (socket_request_ok id target c a Ht Ha) as (N & S & P).
    destruct (merge q (socket_request id target c a)) as [q'|] eqn:Em; [|discriminate]. cbn [bind] in H.
    destruct (IH q' r Ht Hl') as (N' & S' & K & F); auto.
    + exact (merge_names _ _ _ _ N (proj1 Hq) Em).
    + exact (merge_shaped _ _ _ (proj1 N) Hs S Em).
    + split; [exact N'|]. split; [exact S'|]. split.
      * intros k c' Hp. apply K. exact (merge_keeps_command _ _ _ _ _ (proj1 N) S Em Hp).
      * constructor; [cbn [fst]|exact F]. apply K.
        destruct (at_keys [target; c] (socket_request id target c a)) as [v|] eqn:E; [|exfalso; apply P, E].
        destruct (merge_source _ _ _ _ _ (proj1 N) Em E) as (v' & Ev & _). unfold present. congruence.
Qed.
Lemma socket_query_ok id target first rest r : target <> "context" -> Forall (fun p => arg_wf (snd p)) (first :: rest) ->
  socket_query id target first rest = Ok r ->
  names id r /\ query_shaped r /\ Forall (fun p => present [target; fst p] r) (first :: rest).
Proof.
  intros Ht Hl H. inversion Hl as [|? ? Ha Hl']; subst. unfold socket_query in H.
  destruct (socket_request_ok id target (fst first) (snd first) Ht Ha) as (N & S & P).
  destruct (socket_query_from_ok id target rest _ r Ht Hl' N S H) as (N' & S' & K & F).
  split; [exact N'|]. split; [exact S'|]. constructor; auto.
Qed.
Lemma merged_names id l : forall a b, merged a l b -> Forall (fun m => names id (i_query m)) l -> jwf a ->
  (l = [] /\ b = a) \/ names id b.
Proof.
  induction l as [|m l IH]; intros a b H Hl Wa; inversion H; subst; [auto|]. right.
  inversion Hl as [|? ? Hm Hl']; subst.
  assert (N : names id b0) by exact (merge_names _ _ _ _ Hm Wa H3).
  destruct (IH b0 b H5 Hl' (proj1 N)) as [[_ ->]|]; auto.
Qed.

(** ** Replies *)
Lemma merge_reply_field reply : forall u k f, reply_wf reply ->
  field k f (merge_reply u reply) = match reply_field k f reply with Some v => Some v | None => field k f u end.
Proof.
  unfold merge_reply. induction reply as [|[k' v'] reply IH]; intros u k f [Hw Hv]; [reflexivity|].
  inversion Hw as [|? ? Hn Hw']; subst. cbn [fst] in Hn. cbn [fold_left fst snd].
  assert (Hr : reply_wf reply) by (split; [exact Hw'|intros k0 d Hi; apply (Hv k0); right; exact Hi]).
  rewrite IH by exact Hr. unfold reply_field. cbn [dget].
  destruct (String.eqb_spec k k') as [->|Hne].
  - assert (E : dget k' reply = None) by (apply dget_None; exact Hn). rewrite E.
    destruct v' as [| | | | | |d]; try reflexivity.
    unfold field. rewrite dget_dset_same. rewrite dget_dupdate_wf by (apply (Hv k'); left; reflexivity).
    destruct (dget f d); [reflexivity|]. destruct (dget k' u); reflexivity.
  - destruct v' as [| | | | | |d]; try reflexivity.
    unfold field at 1. rewrite dget_dset_other by exact Hne. reflexivity.
Qed.

Lemma merge_replies_field replies : forall u k f, Forall reply_wf replies ->
  field k f (merge_replies u replies) = match latest k f replies with Some v => Some v | None => field k f u end.
Proof.
  unfold merge_replies. induction replies as [|r rs IH]; intros u k f H; [reflexivity|].
  inversion H; subst. cbn [fold_left latest]. rewrite IH by assumption. rewrite merge_reply_field by assumption.
  destruct (latest k f rs); reflexivity.
Qed.

Lemma merge_reply_err reply : forall u name, is_supported name u = false -> is_supported name (merge_reply u reply) = false.
Proof.
  unfold merge_reply. induction reply as [|[k v] reply IH]; intros u name H; [exact H|].
  cbn [fold_left fst snd]. apply IH. destruct v; try exact H.
  unfold is_supported in *. rewrite dget_dset. destruct (String.eqb_spec name k) as [->|]; [|exact H].
  destruct (dget k u) as [data|]; [|discriminate]. apply negb_false_iff in H. apply negb_false_iff.
  apply dmem_In in H. apply dmem_In. apply In_dkeys_dupdate. auto.
Qed.
Lemma merge_replies_err replies : forall u name, is_supported name u = false -> is_supported name (merge_replies u replies) = false.
Proof. unfold merge_replies. induction replies; intros u name H; cbn; auto. apply IHreplies, merge_reply_err, H. Qed.

(** ** Strips *)
Lemma set_nth_length {A} (l : list A) : forall n x, length (set_nth n x l) = length l.
Proof. induction l; intros [|n] x; cbn; auto. Qed.
Lemma nth_set_same {A} (l : list A) : forall n x d, (n < length l)%nat -> nth n (set_nth n x l) d = x.
Proof. induction l; intros [|n] x d H; cbn in *; try lia; auto. apply IHl. lia. Qed.
Lemma nth_set_other {A} (l : list A) : forall n m x d, n <> m -> nth m (set_nth n x l) d = nth m l d.
Proof. induction l; intros [|n] [|m] x d H; cbn; try congruence; auto. Qed.
Lemma nth_error_set_same {A} (l : list A) : forall n x y, nth_error l n = Some y -> nth_error (set_nth n x l) n = Some x.
Proof. induction l; intros [|n] x y H; cbn in *; try discriminate; eauto. Qed.
Lemma nth_error_set_other {A} (l : list A) : forall n m x, n <> m -> nth_error (set_nth n x l) m = nth_error l m.
Proof. induction l; intros [|n] [|m] x H; cbn; try congruence; auto. Qed.
Lemma set_nth_twice {A} (l : list A) : forall n x y, set_nth n x (set_nth n y l) = set_nth n x l.
Proof. induction l; intros [|n] x y; cbn; auto. f_equal. apply IHl. Qed.
Lemma set_nth_id {A} (l : list A) : forall n x, nth_error l n = Some x -> set_nth n x l = l.
Proof. induction l; intros [|n] x H; cbn in *; try discriminate; [congruence|]. f_equal. auto. Qed.

(** All owners alike: number 0 is the strip, number i+1 socket i. *)
Definition gstate := (list (dict json) * list (dict nat))%type.
Definition gput (o : nat) (kv : string * dict json) (g : gstate) : gstate :=
  let (st, L) := g in
  match nth_error L o with
  | None => g
  | Some lu => let (st', lu') := put (fst kv) (snd kv) (st, lu) in (st', set_nth o lu' L)
  end.
Definition gdata (o : nat) (k : string) (g : gstate) : option (dict json) :=
  match nth_error (snd g) o with
  | None => None
  | Some lu => option_map (fun a => nth a (fst g) []) (dget k lu)
  end.
Definition gall (o : nat) (reply : dict (dict json)) (g : gstate) : gstate := fold_left (fun g kv => gput o kv g) reply g.
Definition gof (s : strip) : gstate := (store s, parent_lu s :: sockets s).

Lemma put_all_gall reply : forall o st L lu, nth_error L o = Some lu ->
  gall o reply (st, L) = (let (st', lu') := put_all reply (st, lu) in (st', set_nth o lu' L)).
Proof.
  unfold gall, put_all. induction reply as [|[k v] reply IH]; intros o st L lu H.
  - cbn. rewrite set_nth_id; auto.
  - cbn [fold_left fst snd]. unfold gput at 2. rewrite H. cbn [fst snd].
    destruct (put k v (st, lu)) as [st1 lu1].
    rewrite (IH o st1 (set_nth o lu1 L) lu1) by (eapply nth_error_set_same; eauto).
    destruct (fold_left _ reply (st1, lu1)) as [st2 lu2]. rewrite set_nth_twice. reflexivity.
Qed.

Lemma gof_step s e : gof (step s e) =
  match e with EParent r => gall 0 r (gof s) | ESocket i r => gall (S i) r (gof s) end.
Proof.
  destruct e as [r|i r]; unfold gof.
  - rewrite (put_all_gall r 0 (store s) _ (parent_lu s)) by reflexivity. cbn [step].
    destruct (put_all r (store s, parent_lu s)) as [st lu]. reflexivity.
  - cbn [step]. destruct (nth_error (sockets s) i) as [lu0|] eqn:E.
    + rewrite (put_all_gall r (S i) (store s) _ lu0) by exact E.
      destruct (put_all r (store s, lu0)) as [st lu]. reflexivity.
    + unfold gall. induction r as [|kv r IH]; [reflexivity|]. cbn [fold_left].
      unfold gput at 2. cbn [nth_error]. rewrite E. exact IH.
Qed.

(** Addresses are valid, the first update's modules stay shared, the others are private. *)
Record ginv (lu0 : dict nat) (g : gstate) : Prop := {
  g_valid : forall o lu k a, nth_error (snd g) o = Some lu -> dget k lu = Some a -> (a < length (fst g))%nat;
  g_shared : forall o lu k a, nth_error (snd g) o = Some lu -> dget k lu0 = Some a -> dget k lu = Some a;
  g_private : forall o lu k a o' lu' k', nth_error (snd g) o = Some lu -> dget k lu = Some a -> dget k lu0 = None ->
    nth_error (snd g) o' = Some lu' -> dget k' lu' = Some a -> o = o' /\ k = k'
}.

Lemma gput_inv lu0 o kv g : ginv lu0 g -> ginv lu0 (gput o kv g).
Proof.
  destruct g as [st L], kv as [k v]. intros [V S P]. cbn [fst snd] in *. unfold gput.
  destruct (nth_error L o) as [lu|] eqn:Eo; [|constructor; assumption]. cbn [put fst snd].
  destruct (dget k lu) as [a|] eqn:Ek.
  - rewrite (set_nth_id L o lu Eo). constructor; cbn [fst snd]; auto.
    intros. rewrite set_nth_length. eauto.
  - assert (Hn : forall o' lu', nth_error (set_nth o (dset k (length st) lu) L) o' = Some lu' ->
        (o' = o /\ lu' = dset k (length st) lu) \/ (o' <> o /\ nth_error L o' = Some lu')).
    { intros o' lu' H. destruct (Nat.eq_dec o' o) as [->|Hne].
      - rewrite (nth_error_set_same L o _ lu Eo) in H. left. split; congruence.
      - right. rewrite nth_error_set_other in H by auto. auto. }
    constructor; cbn [fst snd].
    + intros o' lu' k' a H Hk. rewrite app_length. cbn. destruct (Hn _ _ H) as [[-> ->]|[_ H']].
      * rewrite dget_dset in Hk. destruct (String.eqb k' k); [injection Hk as <-; lia|].
        specialize (V o lu k' a Eo Hk). lia.
      * specialize (V _ _ _ _ H' Hk). lia.
    + intros o' lu' k' a H Hk. destruct (Hn _ _ H) as [[-> ->]|[_ H']]; [|eauto].
      rewrite dget_dset. destruct (String.eqb_spec k' k) as [->|]; [|eauto].
      rewrite (S o lu k a Eo Hk) in Ek. discriminate.
    + intros o1 lu1 k1 a o2 lu2 k2 H1 E1 N1 H2 E2.
      destruct (Hn _ _ H1) as [[-> ->]|[O1 H1']]; destruct (Hn _ _ H2) as [[-> ->]|[O2 H2']].
      * split; [reflexivity|]. rewrite dget_dset in E1, E2.
        destruct (String.eqb_spec k1 k) as [->|]; destruct (String.eqb_spec k2 k) as [->|]; auto.
        -- injection E1 as <-. specialize (V _ _ _ _ Eo E2). lia.
        -- injection E2 as <-. specialize (V _ _ _ _ Eo E1). lia.
        -- eapply P; [exact Eo|exact E1|exact N1|exact Eo|exact E2].
      * rewrite dget_dset in E1. destruct (String.eqb_spec k1 k) as [->|].
        -- injection E1 as <-. specialize (V _ _ _ _ H2' E2). lia.
        -- eapply P; [exact Eo|exact E1|exact N1|exact H2'|exact E2].
      * rewrite dget_dset in E2. destruct (String.eqb_spec k2 k) as [->|].
        -- injection E2 as <-. specialize (V _ _ _ _ H1' E1). lia.
        -- eapply P; [exact H1'|exact E1|exact N1|exact Eo|exact E2].
      * eapply P; [exact H1'|exact E1|exact N1|exact H2'|exact E2].
Qed.

Lemma gput_valid_owner o kv g o' : (nth_error (snd (gput o kv g)) o' = None <-> nth_error (snd g) o' = None).
Proof.
  destruct g as [st L], kv as [k v]. unfold gput. cbn [snd fst].
  destruct (nth_error L o) as [lu|] eqn:Eo; [|reflexivity].
  destruct (put k v (st, lu)) as [st' lu']. cbn [snd].
  rewrite !nth_error_None, set_nth_length. reflexivity.
Qed.

Lemma gput_data lu0 o k v g o' k' : ginv lu0 g -> dget k' lu0 = None -> nth_error (snd g) o' <> None ->
  gdata o' k' (gput o (k, v) g) =
  if (Nat.eqb o o' && String.eqb k k')%bool
  then Some (dupdate (match gdata o' k' g with Some d => d | None => [] end) v) else gdata o' k' g.
Proof.
  destruct g as [st L]. intros [V S P] Hp Ho. cbn [fst snd] in *. unfold gput, gdata. cbn [fst snd].
  destruct (nth_error L o) as [lu|] eqn:Eo.
  2:{ destruct (Nat.eqb_spec o o') as [->|]; [congruence|reflexivity]. }
  cbn [put]. destruct (dget k lu) as [a|] eqn:Ek.
  - rewrite (set_nth_id L o lu Eo). cbn [fst snd].
    destruct (nth_error L o') as [lu'|] eqn:Eo'; [|congruence].
    destruct (Nat.eqb_spec o o') as [->|Hne]; cbn [andb].
    + assert (lu' = lu) by congruence. subst lu'.
      destruct (String.eqb_spec k k') as [->|Hk].
      * rewrite Ek. cbn [option_map]. f_equal. apply nth_set_same. exact (V _ _ _ _ Eo Ek).
      * destruct (dget k' lu) as [a'|] eqn:Ek'; [|reflexivity]. cbn [option_map]. f_equal.
        apply nth_set_other. intros <-. destruct (P o' lu k' a o' lu k Eo Ek' Hp Eo Ek). congruence.
    + destruct (dget k' lu') as [a'|] eqn:Ek'; [|reflexivity]. cbn [option_map]. f_equal.
      apply nth_set_other. intros <-. destruct (P o' lu' k' a o lu k Eo' Ek' Hp Eo Ek). congruence.
  - cbn [fst snd]. destruct (Nat.eqb_spec o o') as [->|Hne]; cbn [andb].
    + rewrite (nth_error_set_same L o' _ lu Eo), Eo. rewrite dget_dset.
      rewrite (String.eqb_sym k' k). destruct (String.eqb_spec k k') as [->|Hk].
      * rewrite Ek. cbn [option_map]. rewrite app_nth2 by lia. rewrite Nat.sub_diag. reflexivity.
      * destruct (dget k' lu) as [a'|] eqn:Ek'; [|reflexivity]. cbn [option_map]. f_equal.
        apply app_nth1. exact (V _ _ _ _ Eo Ek').
    + rewrite nth_error_set_other by auto. destruct (nth_error L o') as [lu'|] eqn:Eo'; [|reflexivity].
      destruct (dget k' lu') as [a'|] eqn:Ek'; [|reflexivity]. cbn [option_map]. f_equal.
      apply app_nth1. exact (V _ _ _ _ Eo' Ek').
Qed.

Definition gfield (o : nat) (k f : string) (g : gstate) : option json :=
  match gdata o k g with Some d => dget f d | None => None end.

Lemma gall_field lu0 reply : forall o g o' k f, ginv lu0 g -> dget k lu0 = None -> nth_error (snd g) o' <> None ->
  dwf reply -> (forall k d, In (k, d) reply -> dwf d) ->
  ginv lu0 (gall o reply g) /\ nth_error (snd (gall o reply g)) o' <> None /\
  gfield o' k f (gall o reply g) =
    (if Nat.eqb o o' then match field k f reply with Some v => Some v | None => gfield o' k f g end else gfield o' k f g).
Proof.
  unfold gall. induction reply as [|[k1 v] reply IH]; intros o g o' k f I Hp Ho Hw Hv.
  - cbn. split; [exact I|]. split; [exact Ho|]. destruct (Nat.eqb o o'); reflexivity.
  - cbn [fold_left]. inversion Hw as [|? ? Hn Hw']; subst. cbn [fst] in Hn.
    destruct (IH o (gput o (k1, v) g) o' k f) as (I2 & O2 & F); auto.
    + apply gput_inv, I.
    + rewrite gput_valid_owner. exact Ho.
    + intros k0 d Hi. apply (Hv k0). right. exact Hi.
    + split; [exact I2|]. split; [exact O2|]. rewrite F.
      unfold gfield. rewrite (gput_data lu0 o k1 v g o' k I Hp Ho).
      unfold field. cbn [dget]. destruct (Nat.eqb o o'); cbn [andb]; [|reflexivity].
      rewrite (String.eqb_sym k k1). destruct (String.eqb_spec k1 k) as [->|].
      * assert (E : dget k reply = None) by (apply dget_None; exact Hn). rewrite E.
        rewrite dget_dupdate_wf by (apply (Hv k); left; reflexivity).
        destruct (dget f v); [reflexivity|]. destruct (gdata o' k g); reflexivity.
      * reflexivity.
Qed.

Lemma gall_shared lu0 reply : forall o g, ginv lu0 g -> ginv lu0 (gall o reply g).
Proof. unfold gall. induction reply; intros o g H; cbn; auto. apply IHreply, gput_inv, H. Qed.
Lemma gall_owner reply : forall o g o', nth_error (snd (gall o reply g)) o' = None <-> nth_error (snd g) o' = None.
Proof. unfold gall. induction reply as [|kv reply IH]; intros o g o'; cbn; [reflexivity|]. rewrite IH. apply gput_valid_owner. Qed.

Lemma socket_gdata i k s : socket_data i k s = gdata (S i) k (gof s).
Proof. reflexivity. Qed.

(** The first update. *)
Lemma put_all_first reply : forall st lu, (forall k a, dget k lu = Some a -> (a < length st)%nat) ->
  (forall k a, dget k (snd (put_all reply (st, lu))) = Some a -> (a < length (fst (put_all reply (st, lu))))%nat) /\
  (forall k, dget k (snd (put_all reply (st, lu))) = None <-> dget k lu = None /\ ~ In k (dkeys reply)).
Proof.
  unfold put_all. induction reply as [|[k v] reply IH]; intros st lu H.
  - cbn. split; [exact H|]. intro k. tauto.
  - cbn [fold_left fst snd put]. destruct (dget k lu) as [a|] eqn:Ek.
    + destruct (IH (set_nth a (dupdate (nth a st []) v) st) lu) as [V D].
      { intros. rewrite set_nth_length. eauto. }
      split; [exact V|]. intro k'. rewrite D. cbn. split; [|tauto].
      intros [N I]. split; [exact N|]. intros [<-|]; [congruence|auto].
    + destruct (IH (st ++ [dupdate [] v]) (dset k (length st) lu)) as [V D].
      { intros k' a Hk. rewrite app_length. cbn. rewrite dget_dset in Hk.
        destruct (String.eqb k' k); [injection Hk as <-; lia|]. specialize (H _ _ Hk). lia. }
      split; [exact V|]. intro k'. rewrite D, dget_dset. cbn.
      destruct (String.eqb_spec k' k) as [->|Hne]; [split; [intros [? _]; discriminate|intros [_ N]; tauto]|].
      split; [intros [N I]; split; [exact N|intros [?|]; [congruence|auto]]|tauto].
Qed.

Lemma nth_error_repeat_cons (lu : dict nat) n o lu' : nth_error (lu :: repeat lu n) o = Some lu' -> lu' = lu.
Proof. destruct o as [|o]; cbn; [congruence|]. intro H. apply nth_error_In, repeat_spec in H. exact H. Qed.

Lemma make_strip_inv first n : ginv (parent_lu (make_strip first n)) (gof (make_strip first n)).
Proof.
  unfold make_strip. destruct (put_all first ([], [])) as [st lu] eqn:E.
  destruct (put_all_first first [] []) as [V D]; [discriminate|]. unfold dict in E, V, D; rewrite E in V, D. cbn [fst snd] in V, D.
  unfold gof. cbn [store parent_lu sockets]. constructor; cbn [fst snd].
  - intros o lu' k a H Hk. apply nth_error_repeat_cons in H. subst. eauto.
  - intros o lu' k a H Hk. apply nth_error_repeat_cons in H. subst. exact Hk.
  - intros o lu' k a o' lu'' k' H Hk Hn. apply nth_error_repeat_cons in H. subst. congruence.
Qed.

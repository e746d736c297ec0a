(** C26: features. *)
From Verif Require Import Base Base_Lemmas Py Feature_Model.
From Coq Require Import QArith.
Open Scope string_scope.
Open Scope list_scope.
Open Scope Z_scope.

(** A number that lies between two bounds; NaN lies between none. *)
Definition number_between (v : value) (lo hi : Z) : Prop :=
  match v with
  | VInt z => lo <= z <= hi
  | VFloat (Fin q) => (inject_Z lo <= q /\ q <= inject_Z hi)%Q
  | VBool b => lo <= (if b then 1 else 0) <= hi
  | _ => False
  end.
(** Between the declared bounds, or between 0 and 65536 without a declared range. *)
Definition in_range (v : value) (r : option (Z * Z)) : Prop :=
  match r with Some (lo, hi) => number_between v lo hi | None => number_between v 0 65536 end.
(** The declared range the device answers with. *)
Definition declared (d : decl) (w : world) (r : option (Z * Z)) : Prop :=
  if has_range d then w_range w = Ok r else r = None.
(** A valid value of a writable feature, [r] its range. *)
Definition valid (d : decl) (w : world) (r : option (Z * Z)) (v : value) : Prop :=
  f_setter d <> None /\
  match f_type d with
  | Number => in_range v r
  | Choice => has_choices d = true /\ exists l s, w_choices w = Ok (Some l) /\ v = VStr s /\ In s l
  | _ => True
  end.

Lemma in_existsb s l : existsb (String.eqb s) l = true <-> In s l.
Proof.
  rewrite existsb_exists. split.
  - intros (x & Hx & He). apply String.eqb_eq in He. now subst.
  - intro H. exists s. split; [exact H | apply String.eqb_refl].
Qed.
Lemma range_check v x r : as_number v = Some x -> x <> NaN ->
  (below x (minimum r) || above x (maximum r) = false <-> in_range v r).
Proof.
  intros Hv Hn.
  assert (G : forall lo hi, below x lo || above x hi = false <-> number_between v lo hi).
  { intros lo hi. destruct v as [z|f|b| | |]; cbn in Hv; try discriminate; injection Hv as <-; cbn [below above number_between].
    - rewrite orb_false_iff, !negb_false_iff, !Qle_bool_iff, <- !Zle_Qle. reflexivity.
    - destruct f as [q| | |]; cbn [below above]; try (now elim Hn); try (split; [discriminate | contradiction]).
      rewrite orb_false_iff, !negb_false_iff, !Qle_bool_iff. reflexivity.
    - change (if b then 1%Q else 0%Q) with (if b then inject_Z 1 else inject_Z 0).
      replace (if b then inject_Z 1 else inject_Z 0) with (inject_Z (if b then 1 else 0)) by (destruct b; reflexivity).
      rewrite orb_false_iff, !negb_false_iff, !Qle_bool_iff, <- !Zle_Qle. reflexivity. }
  destruct r as [[lo hi]|]; apply G.
Qed.

(** A fresh feature: the setter is called, with the value, exactly when it is
    valid, and otherwise there is an error and no call.  Not a number is left out. *)
Theorem feature_set_partial : forall d f w v r, new d = Ok f -> declared d w r -> v <> VFloat NaN ->
  match f_setter d with Some (SName _) => w_setter w = true | _ => True end ->
  let (f', out) := set_value w v f in
  (valid d w r v -> out = Ok tt /\ calls f' = [match f_type d with Action => None | _ => Some v end]) /\
  (~ valid d w r v -> (exists e, out = Err e) /\ calls f' = []).
Proof.
  intros d f w v r Hnew Hdecl Hnan Hset. unfold new in Hnew. destruct (post_init d) as [d'|] eqn:Ep; [|discriminate].
  cbn [bind] in Hnew. injection Hnew as <-.
  assert (Hd : f_type d' = f_type d /\ f_setter d' = f_setter d /\ has_range d' = has_range d /\ has_choices d' = has_choices d).
  { unfold post_init in Ep. destruct (f_type d), (match f_category d with Unset => _ | c => c end), (f_setter d);
      try discriminate Ep; injection Ep as <-; repeat split. }
  destruct Hd as (Ht & Hs & Hr & Hc). unfold declared in Hdecl. rewrite <- Hr in Hdecl.
  unfold valid. rewrite <- Ht, <- Hs, <- Hc. rewrite <- Hs in Hset. clear Ep Ht Hs Hr Hc.
  unfold set_value. cbn [decl_]. destruct (f_setter d') as [st|] eqn:Es.
  2:{ split; [intros [H _]; now elim H|]. intros _. split; [eauto | reflexivity]. }
  assert (Hcall : forall c, call_setter w v (mkFeature d' c []) =
     (mkFeature d' c [match f_type d' with Action => None | _ => Some v end], Ok tt)).
  { intro c. unfold call_setter. cbn [decl_ calls app]. rewrite Es. destruct st; [reflexivity|]. now rewrite Hset. }
  assert (Hsome : Some st <> None) by discriminate.
  destruct (f_type d') eqn:Et; try (rewrite Hcall; split; [auto | intro H; exfalso; apply H; split; [exact Hsome | exact I]]).
  - destruct (as_number v) as [x|] eqn:Ev.
    + assert (Hx : x <> NaN) by (destruct v; cbn in Ev; try discriminate; injection Ev as <-; congruence).
      unfold mbind, range. cbn [cached decl_].
      assert (Hrr : (if has_range d' then w_range w else Ok None) = Ok r) by (destruct (has_range d'); congruence).
      rewrite Hrr. cbn [calls].
      pose proof (range_check v x r Ev Hx) as G. destruct (below x (minimum r) || above x (maximum r)).
      * split; [intros [_ H]; apply G in H; discriminate|]. intros _. split; [eexists|]; reflexivity.
      * rewrite Hcall. split; [auto|]. intro H. exfalso. apply H. split; [exact Hsome | now apply G].
    + split; [|intros _; split; [eauto | reflexivity]]. intros [_ H]. exfalso. unfold in_range in H. destruct r as [[lo hi]|], v; cbn in Ev; try discriminate; exact H.
  - destruct (has_choices d').
    + destruct (w_choices w) as [[[|c l]|]|e] eqn:Ew;
        try (split; [intros (_ & _ & l0 & s & H1 & _ & H2); congruence | intros _; split; [eauto | reflexivity]]).
      * split; [intros (_ & _ & l0 & s & H1 & _ & H2); injection H1 as <-; contradiction | intros _; split; [eauto | reflexivity]].
      * destruct (in_choices v (c :: l)) eqn:Ei.
        -- rewrite Hcall. split; [auto|]. intro H. exfalso. apply H. split; [exact Hsome|]. split; [reflexivity|]. unfold in_choices in Ei.
           destruct v; try discriminate. exists (c :: l), s. repeat split; auto. now apply in_existsb.
        -- split; [|intros _; split; [eauto | reflexivity]]. intros (_ & _ & l0 & s & H1 & -> & H2). injection H1 as <-.
           apply in_existsb in H2. cbn [in_choices] in Ei. congruence.
    + split; [intros (_ & H & _); discriminate | intros _; split; [eauto | reflexivity]].
Qed.
Print Assumptions feature_set_partial.
Definition brightness : decl := mkDecl Number Unset (Some (SName "set_brightness")) true false true.
Definition ex_world (lo hi : Z) : world := mkWorld (Ok (Some (lo, hi))) (Ok None) true.
Example feature_set_ex : exists f, new brightness = Ok f /\ declared brightness (ex_world 0 100) (Some (0, 100)) /\
  valid brightness (ex_world 0 100) (Some (0, 100)) (VInt 100) /\ ~ valid brightness (ex_world 0 100) (Some (0, 100)) (VFloat (Fin (201 # 2))) /\
  calls (run f [ESet (ex_world 0 100) (VInt 100); ESet (ex_world 0 100) (VInt 101)]) = [Some (VInt 100)].
Proof.
  eexists. split; [reflexivity|]. split; [reflexivity|]. split; [split; [discriminate | cbn; lia]|]. split; [|reflexivity].
  intros [_ [_ H]]. revert H. cbn. unfold Qle. cbn. lia.
Qed.

(** Not a number passes the range check. *)
Theorem feature_nan_refuted : exists d f w, new d = Ok f /\ f_type d = Number /\ declared d w (Some (0, 100)) /\
  calls (fst (set_value w (VFloat NaN) f)) = [Some (VFloat NaN)].
Proof. exists brightness. eexists. exists (ex_world 0 100). repeat split. Qed.
Print Assumptions feature_nan_refuted.
(** The range is read once: after it changed, values outside the new one are
    accepted and values inside it refused. *)
Theorem feature_stale_range_refuted : exists d f, new d = Ok f /\
  (exists v, calls (run f [ERange (ex_world 0 100); ESet (ex_world 20 50) v]) = [Some v] /\ ~ in_range v (Some (20, 50))) /\
  (exists v, calls (run f [ERange (ex_world 20 50); ESet (ex_world 0 100) v]) = [] /\ in_range v (Some (0, 100))).
Proof.
  exists brightness. eexists. split; [reflexivity|]. split; exists (VInt 90); (split; [reflexivity|]); cbn; lia.
Qed.
Print Assumptions feature_stale_range_refuted.

(** Over a whole life: every call of the setter was made with a value valid at that
    moment, where the range of a number is the one first read. *)
Definition range_first (f0 : feature) (es : list event) (r : option (Z * Z)) : Prop := cached (run f0 es) = Some r.
Theorem feature_life_partial : forall d f es w v, new d = Ok f ->
  let before := run f es in let after := step before (ESet w v) in
  calls after = calls before \/
  (calls after = calls before ++ [match f_type d with Action => None | _ => Some v end] /\ f_setter d <> None /\
   match f_type d with
   | Number => v = VFloat NaN \/ exists r, cached after = Some r /\ in_range v r
   | Choice => exists l s, w_choices w = Ok (Some l) /\ v = VStr s /\ In s l
   | _ => True
   end).
Proof.
  intros d f es w v Hnew before after.
  assert (Hd : forall es0 f0, decl_ (run f0 es0) = decl_ f0).
  { induction es0 as [|e es0 IH]; intro f0; [reflexivity|]. change (run f0 (e :: es0)) with (run (step f0 e) es0). rewrite IH.
    assert (Hr : forall w0 g, decl_ (fst (range w0 g)) = decl_ g).
    { intros w0 g. unfold range. destruct (cached g); [reflexivity|]. destruct (if has_range (decl_ g) then w_range w0 else Ok None); reflexivity. }
    assert (Hk : forall w0 v0 g, decl_ (fst (call_setter w0 v0 g)) = decl_ g).
    { intros w0 v0 g. unfold call_setter. destruct (f_setter (decl_ g)) as [[|n]|]; [| destruct (w_setter w0) |]; reflexivity. }
    destruct e as [w0 v0|w0]; cbn [step]; [|apply Hr]. unfold set_value. destruct (f_setter (decl_ f0)); [|reflexivity].
    destruct (f_type (decl_ f0)); try apply Hk.
    - destruct (as_number v0); [|reflexivity]. unfold mbind. pose proof (Hr w0 f0) as G. destruct (range w0 f0) as [g [r|e]]; cbn [fst] in G; [|exact G].
      destruct (below _ _ || above _ _); [exact G|]. now rewrite Hk.
    - destruct (if has_choices (decl_ f0) then w_choices w0 else Ok None) as [[[|c l]|]|]; try reflexivity.
      destruct (in_choices v0 (c :: l)); [apply Hk | reflexivity]. }
  unfold new in Hnew. destruct (post_init d) as [d'|] eqn:Ep; [|discriminate]. cbn [bind] in Hnew. injection Hnew as <-.
  assert (Hdd : f_type d' = f_type d /\ f_setter d' = f_setter d).
  { unfold post_init in Ep. destruct (f_type d), (match f_category d with Unset => _ | c => c end), (f_setter d);
      try discriminate Ep; injection Ep as <-; repeat split. }
  destruct Hdd as (Ht & Hs). rewrite <- Ht, <- Hs. specialize (Hd es (mkFeature d' None [])). fold before in Hd. cbn [decl_] in Hd.
  subst after. cbn [step]. clearbody before. rewrite <- Hd. clear Hd Ht Hs Ep d' d es.
  assert (Hk : forall g, decl_ g = decl_ before -> calls g = calls before -> calls (fst (call_setter w v g)) = calls before \/
      (calls (fst (call_setter w v g)) = calls before ++ [match f_type (decl_ before) with Action => None | _ => Some v end] /\
       cached (fst (call_setter w v g)) = cached g)).
  { intros g H1 H2. unfold call_setter. rewrite H1, H2. destruct (f_setter (decl_ before)) as [[|n]|]; [|destruct (w_setter w)|]; auto. }
  unfold set_value. destruct (f_setter (decl_ before)) as [st|] eqn:Es; [|auto].
  assert (Hsome : Some st <> None) by discriminate.
  destruct (f_type (decl_ before)) eqn:Et; try solve [destruct (Hk before eq_refl eq_refl) as [G|[G _]]; auto].
  - destruct (as_number v) as [x|] eqn:Ev; [|auto]. unfold mbind.
    assert (Hr : forall g r, range w before = (g, Ok r) -> decl_ g = decl_ before /\ calls g = calls before /\ cached g = Some r).
    { intros g r. unfold range. destruct (cached before) eqn:Ec; [intro H; injection H as <- <-; auto|].
      destruct (if has_range (decl_ before) then w_range w else Ok None); [|discriminate]. intro H. injection H as <- <-. auto. }
    destruct (range w before) as [g [r|e]] eqn:Er.
    + destruct (Hr g r eq_refl) as (H1 & H2 & H3).
      destruct (below x (minimum r) || above x (maximum r)) eqn:Eb; [left; exact H2|].
      destruct (Hk g H1 H2) as [G|[G1 G2]]; [auto|]. right. split; [exact G1|]. split; [exact Hsome|].
      assert (Hcase : v = VFloat NaN \/ v <> VFloat NaN) by (destruct v as [|[]| | | |]; (left; reflexivity) || (right; discriminate)).
      destruct Hcase as [Hn|Hn]; [auto|]. right. exists r. split; [now rewrite G2|]. apply (range_check v x r Ev); [|exact Eb].
      destruct v; cbn in Ev; try discriminate; injection Ev as <-; congruence.
    + left. unfold range in Er. destruct (cached before); [discriminate|]. destruct (if has_range (decl_ before) then w_range w else Ok None); [discriminate|].
      injection Er as <- _. reflexivity.
  - destruct (if has_choices (decl_ before) then w_choices w else Ok None) as [[[|c l]|]|] eqn:Ew; auto.
    destruct (in_choices v (c :: l)) eqn:Ei; [|auto].
    destruct (Hk before eq_refl eq_refl) as [G|[G _]]; [auto|]. right. split; [exact G|]. split; [exact Hsome|].
    unfold in_choices in Ei. destruct v; try discriminate. exists (c :: l), s. split; [destruct (has_choices (decl_ before)); congruence|].
    split; [reflexivity | now apply in_existsb].
Qed.
Print Assumptions feature_life_partial.

(** Declarations: a sensor can neither be configurable nor have a setter; everything
    else is accepted; a feature without category is a setting iff it has a setter. *)
Definition read_only_type (t : ftype) : bool := match t with Sensor | BinarySensor => true | _ => false end.
Theorem feature_declaration : forall d, (forall n, f_setter d = Some (SName n) -> n <> "") ->
  (new d = Err PyValueError <-> read_only_type (f_type d) = true /\ (f_category d = Config \/ f_setter d <> None)) /\
  (forall f, new d = Ok f -> f_type (decl_ f) = f_type d /\ f_setter (decl_ f) = f_setter d /\
     f_category (decl_ f) = (match f_category d, f_setter d with Unset, Some _ => Config | Unset, None => Info | c, _ => c end) /\
     (read_only_type (f_type d) = true -> forall w v, set_value w v f = (f, Err PyValueError))).
Proof.
  intros d Hn.
  assert (Ht : setter_truthy (f_setter d) = match f_setter d with Some _ => true | None => false end).
  { destruct (f_setter d) as [[|n]|]; try reflexivity. cbn. specialize (Hn n eq_refl). apply String.eqb_neq in Hn. now rewrite Hn. }
  unfold new, post_init. rewrite Ht. split.
  - destruct (f_type d), (f_category d), (f_setter d); cbn; (split; [intro H; try discriminate H; split; auto; right; discriminate|]);
      intros [H1 [H2|H2]]; try discriminate; try reflexivity; now elim H2.
  - intros f. destruct (f_type d), (f_category d), (f_setter d) eqn:Es; cbn; intro H; try discriminate H; injection H as <-; cbn; repeat split; auto;
      try discriminate; intros _ w v; unfold set_value; cbn; rewrite Es; reflexivity.
Qed.
Print Assumptions feature_declaration.
Example feature_declaration_ex :
  new (mkDecl Sensor Unset None false false true) <> Err PyValueError /\
  new (mkDecl Sensor Unset (Some SCallable) false false true) = Err PyValueError /\
  new (mkDecl BinarySensor Config None false false true) = Err PyValueError.
Proof. repeat split; discriminate. Qed.

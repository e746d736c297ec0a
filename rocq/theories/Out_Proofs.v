From Verif Require Import Base Base_Lemmas Py Out_Model Out_Spec.
Open Scope list_scope.
Open Scope Z_scope.

Section Pv_ind.
  Variable P : pv -> Prop.
  Hypothesis (HN : P PNone) (HB : forall b, P (PBool b)) (HI : forall z, P (PInt z)) (HF : forall s, P (PFloat s)) (HS : forall s, P (PStr s))
    (HO : forall s, P (PObj s)) (HD : forall h st, P st -> P (PDevice h st))
    (HL : forall l, Forall P l -> P (PList l)) (HM : forall d : list (pkey * pv), Forall (fun kv => P (snd kv)) d -> P (PDict d)).
  Fixpoint pv_ind' (v : pv) : P v :=
    match v with
    | PNone => HN | PBool b => HB b | PInt z => HI z | PFloat s => HF s | PStr s => HS s | PObj s => HO s
    | PDevice h st => HD h st (pv_ind' st)
    | PList l => HL l ((fix go (l : list pv) : Forall P l :=
        match l with [] => Forall_nil _ | x :: l => Forall_cons _ (pv_ind' x) (go l) end) l)
    | PDict d => HM d ((fix go (d : list (pkey * pv)) : Forall (fun kv => P (snd kv)) d :=
        match d with [] => Forall_nil _ | x :: d => Forall_cons _ (pv_ind' (snd x)) (go d) end) d)
    end.
End Pv_ind.

Lemma key_shows f k s : key_text f k = Some s -> shows_key f k s.
Proof. destruct k as [x|z|[|]| |]; cbn; intro H; inversion H; constructor. Qed.

Lemma dumps_shows f v : forall j, dumps f v = Some j -> shows f v j.
Proof.
  induction v as [|b|z|s|s|s|h st IH|l IH|d IH] using pv_ind'; cbn [dumps]; intros j H.
  1-6: injection H as <-; constructor.
  - constructor. now apply IH.
  - match type of H with match ?g with _ => _ end = _ => destruct g as [js|] eqn:E; [|discriminate] end.
    injection H as <-. constructor. revert js E. induction IH as [|v l Hv _ IHl]; intros js E.
    + injection E as <-. constructor.
    + destruct (dumps f v) as [j|] eqn:Ev; [|discriminate].
      match type of E with match ?g with _ => _ end = _ => destruct g as [js'|] eqn:E'; [|discriminate] end.
      injection E as <-. constructor; [now apply Hv|now apply IHl].
  - match type of H with match ?g with _ => _ end = _ => destruct g as [js|] eqn:E; [|discriminate] end.
    injection H as <-. constructor. revert js E. induction IH as [|[k v] d Hv _ IHd]; intros js E.
    + injection E as <-. constructor.
    + destruct (key_text f k) as [s|] eqn:Ek; [|discriminate]. destruct (dumps f v) as [j|] eqn:Ev; [|discriminate].
      match type of E with match ?g with _ => _ end = _ => destruct g as [js'|] eqn:E'; [|discriminate] end.
      injection E as <-. constructor; [split; [now apply key_shows|now apply Hv]|now apply IHd].
Qed.
Lemma key_writable f k : k <> KOther -> exists s, key_text f k = Some s.
Proof. destruct k as [x|z|b| |]; cbn; intro H; [eauto|eauto|eauto|eauto|congruence]. Qed.
Lemma dumps_writable f v : writable v <-> exists j, dumps f v = Some j.
Proof.
  induction v as [|b|z|s|s|s|h st IH|l IH|d IH] using pv_ind'; cbn [dumps].
  1-6: split; [eauto|intros _; constructor].
  - rewrite <- IH. split; [intro H; now inversion H|now constructor].
  - split.
    + intro H. inversion H as [| | | | | | |l' W|]; subst.
      match goal with |- exists _, match ?g with _ => _ end = _ => enough (exists js, g = Some js) as [js ->] by eauto end.
      induction IH as [|v l Hv _ IHl]; [eauto|]. inversion W as [|? ? W1 W2]; subst. apply Hv in W1 as [j ->].
      destruct (IHl (w_list _ W2) W2) as [js ->]. eauto.
    + intros [j H]. match type of H with match ?g with _ => _ end = _ => destruct g as [js|] eqn:E; [|discriminate] end.
      clear H. constructor. revert js E. induction IH as [|v l Hv _ IHl]; intros js E; constructor.
      * apply Hv. destruct (dumps f v); [eauto|discriminate].
      * destruct (dumps f v); [|discriminate].
        match type of E with match ?g with _ => _ end = _ => destruct g as [js'|] eqn:E'; [|discriminate] end. now apply (IHl js').
  - split.
    + intro H. inversion H as [| | | | | | | |d' W]; subst.
      match goal with |- exists _, match ?g with _ => _ end = _ => enough (exists js, g = Some js) as [js ->] by eauto end.
      induction IH as [|[k v] d Hv _ IHl]; [eauto|]. inversion W as [|? ? [W0 W1] W2]; subst. cbn [fst snd] in *. apply Hv in W1 as [j ->].
      destruct (key_writable f k W0) as [s ->]. destruct (IHl (w_dict _ W2) W2) as [js ->]. eauto.
    + intros [j H]. match type of H with match ?g with _ => _ end = _ => destruct g as [js|] eqn:E; [|discriminate] end.
      clear H. constructor. revert js E. induction IH as [|[k v] d Hv _ IHl]; intros js E; constructor.
      * cbn [fst snd]. destruct (key_text f k) eqn:Ek; [|discriminate]. split; [intros ->; discriminate|]. apply Hv. cbn [snd].
        destruct (dumps f v); [eauto|discriminate].
      * destruct (key_text f k); [|discriminate]. destruct (dumps f v); [|discriminate].
        match type of E with match ?g with _ => _ end = _ => destruct g as [js'|] eqn:E'; [|discriminate] end. now apply (IHl js').
Qed.

Lemma silent a : disciplined a -> flat_map (spoken true) (says a) = [].
Proof.
  unfold disciplined. induction (says a) as [|s l IH]; intro H; [reflexivity|]. cbn [flat_map].
  destruct (H s (or_introl eq_refl)) as [x ->]. cbn [spoken app]. apply IH. intros; apply H; now right.
Qed.
Lemma aloud l : flat_map (spoken false) l = map (fun s => Text (words s)) l.
Proof. induction l as [|[x|x] l IH]; cbn; congruence. Qed.

(** Lemmas about overlapping legacy updates. *)
From Coq Require Import Lia.
From Verif Require Import Base Base_Lemmas Py Iot_Model Iot_Spec Iot_Proofs Iot_Props IotUpd_Model IotUpd_Spec.
Open Scope string_scope.
Open Scope list_scope.
Open Scope Z_scope.

Lemma dget_map {A B} (g : string -> A -> B) k (d : dict A) :
  dget k (map (fun kv => (fst kv, g (fst kv) (snd kv))) d) = option_map (g k) (dget k d).
Proof.
  induction d as [|[k' v] d IH]; cbn [map dget fst snd]; [reflexivity|].
  destruct (String.eqb_spec k k') as [->|]; [reflexivity|exact IH].
Qed.
Lemma dkeys_map {A B} (g : string -> A -> B) (d : dict A) :
  dkeys (map (fun kv => (fst kv, g (fst kv) (snd kv))) d) = dkeys d.
Proof. unfold dkeys. rewrite map_map. apply map_ext. intros []; reflexivity. Qed.

(** ** Requests *)
Definition good (r : json) : Prop := jwf r /\ query_shaped r /\ forall k, ~ present [k; "err_code"] r.
Lemma good_base : good base.
Proof.
  unfold base, create_request. split; [|split].
  - constructor; [repeat constructor; intros []|]. intros k v [H|[]]. injection H as <- <-.
    constructor; [repeat constructor; intros []|]. intros k v [H|[]]. injection H as <- <-.
    constructor; [constructor|intros ? ? []].
  - eexists. split; [reflexivity|]. intros k v [H|[]]. injection H as <- <-. eexists; reflexivity.
  - intros k H. apply H. cbn. destruct (String.eqb k "system"); reflexivity.
Qed.
Lemma good_query m : ~ In "err_code" (m_cmds m) -> NoDup (m_cmds m) -> good (query_of m).
Proof.
  intros N D. unfold query_of. destruct (m_cmds m) as [|c0 cs] eqn:E.
  - split; [constructor; [constructor|intros ? ? []]|]. split; [eexists; split; [reflexivity|intros ? ? []]|]. intros k H; apply H; reflexivity.
  - rewrite <- E in *. clear E. split; [|split].
    + constructor; [repeat constructor; intros []|]. intros k v [H|[]]. injection H as <- <-.
      constructor.
      * unfold dwf, dkeys. rewrite map_map. cbn. rewrite map_id. exact D.
      * intros k v H. apply in_map_iff in H as (c & H & _). injection H as <- <-. constructor; [constructor|intros ? ? []].
    + eexists. split; [reflexivity|]. intros k v [H|[]]. injection H as <- <-. eexists; reflexivity.
    + intros k H. apply H. cbn [at_keys dget]. destruct (String.eqb k (m_name m)); [|reflexivity].
      assert (X : dget "err_code" (map (fun c => (c, JObj [])) (m_cmds m)) = None).
      { apply dget_None. unfold dkeys. rewrite map_map. cbn. now rewrite map_id. }
      now rewrite X.
Qed.
Lemma good_nil : good (JObj []).
Proof. split; [constructor; [constructor|intros ? ? []]|]. split; [eexists; split; [reflexivity|intros ? ? []]|]. intros k H; apply H; reflexivity. Qed.
Lemma good_merge a q b : good a -> good q -> merge a q = Ok b -> good b.
Proof.
  intros (Wa & Sa & Na) (Wq & Sq & Nq) H. split; [exact (merge_wf _ _ _ Wq Wa H)|]. split; [exact (merge_shaped _ _ _ Wq Sa Sq H)|].
  intros k P. unfold present in P. destruct (at_keys [k; "err_code"] b) as [v|] eqn:E; [|congruence].
  destruct (merge_only _ _ _ _ _ Wq H E) as [[X|X] _]; [exact (Nq k X)|exact (Na k X)].
Qed.
Lemma good_merged a l b : merged a l b -> good a -> (forall m, In m l -> good (i_query m)) -> good b.
Proof.
  induction 1 as [|a m l b c H _ IH]; intros G Hl; [exact G|]. apply IH; [|intros; apply Hl; right; assumption].
  exact (good_merge _ _ _ G (Hl m (or_introl eq_refl)) H).
Qed.

Definition asking (s : sys) : list imod := map (fun m => mkImod (supported m (s_lu s)) (m_size m) (query_of m)) (s_mods s).
Lemma good_asking s : ordinary s -> forall m, In m (asking s) -> good (i_query m).
Proof. intros O m H. apply in_map_iff in H as (x & <- & Hx). cbn. destruct (O x Hx). now apply good_query. Qed.
Lemma plan_good s rs : ordinary s -> plan s = Ok rs -> Forall good rs.
Proof.
  intros O H. unfold plan in H. fold (asking s) in H.
  destruct (requests_split _ _ _ _ (ex_intro _ _ eq_refl) H) as (g & gs & b & bs & est & _ & _ & E & -> & Hg & Hgs & _).
  assert (Q : forall m, In m (g ++ concat gs) -> good (i_query m)).
  { intros m Hm. rewrite E in Hm. apply filter_In in Hm as [Hm _]. now apply (good_asking s). }
  assert (G : Forall good (b :: bs)).
  { constructor. { apply (good_merged _ _ _ Hg good_base). intros; apply Q, in_app_iff; auto. }
    assert (Q' : forall m, In m (concat gs) -> good (i_query m)) by (intros; apply Q, in_app_iff; auto).
    clear - Hgs Q'. induction Hgs as [|g0 b0 gs bs H0 Hgs IH]; [constructor|]. cbn [concat] in Q'. constructor.
    - apply (good_merged _ _ _ H0 good_nil). intros; apply Q', in_app_iff; auto.
    - apply IH. intros; apply Q', in_app_iff; auto. }
  rewrite Forall_forall in *. intros x Hx. apply filter_In in Hx as [Hx _]. auto.
Qed.
Lemma present_truthy k c r : present [k; c] r -> truthy r = true.
Proof. intro P. unfold present in P. cbn in P. destruct r; try congruence. destruct d; [cbn in P; congruence|reflexivity]. Qed.
Lemma plan_asks s rs k c : ordinary s -> plan s = Ok rs -> asked s k c -> exists r, In r rs /\ present [k; c] r.
Proof.
  intros O H A. unfold plan in H. fold (asking s) in H. destruct A as [[-> ->]|(m & Hm & Hn & Hc & Hs)].
  - destruct (requests_split _ _ _ _ (ex_intro _ _ eq_refl) H) as (g & gs & b & bs & est & _ & _ & E & -> & Hg & _).
    assert (P : present ["system"; "get_sysinfo"] b).
    { apply (merged_keeps_command g base b "system" "get_sysinfo" Hg); [|discriminate].
      intros m Hm. assert (In m (asking s)) as Hi by (assert (In m (g ++ concat gs)) as X by (apply in_app_iff; auto); rewrite E in X; apply filter_In in X; tauto).
      destruct (good_asking s O m Hi) as (X & Y & _). auto. }
    exists b. split; [|exact P]. apply filter_In. split; [left; reflexivity|exact (present_truthy _ _ _ P)].
  - destruct (requests_complete (s_limit s) base (asking s) rs (mkImod (supported m (s_lu s)) (m_size m) (query_of m)) k c) as (r & Hr & P & _); auto.
    + eexists; reflexivity.
    + intros x Hx. destruct (good_asking s O x Hx) as (X & Y & _). auto.
    + apply in_map_iff. exists m. auto.
    + unfold present. cbn [i_query]. unfold query_of. destruct (m_cmds m) as [|c0 cs] eqn:Ec; [destruct Hc|]. rewrite <- Ec in *. clear Ec.
      cbn [at_keys dget]. rewrite Hn, seqb_refl.
      destruct (dget c (map (fun c => (c, JObj [])) (m_cmds m))) as [v|] eqn:Ed; [cbn; discriminate|].
      apply dget_None in Ed. exfalso. apply Ed. unfold dkeys. rewrite map_map. cbn. now rewrite map_id.
    + exists r. auto.
Qed.
Lemma total_all s : fold_right (fun m n => m_size m + n) 0 (s_mods s) = total (asking s).
Proof. unfold asking, total. induction (s_mods s); cbn; congruence. Qed.
Lemma total_app a b : total (a ++ b) = total a + total b.
Proof. unfold total. induction a; cbn [app fold_right] in *; lia. Qed.
Lemma total_filter p l : (forall m, In m l -> 0 <= i_size m) -> 0 <= total (filter p l) <= total l.
Proof.
  unfold total. induction l as [|m l IH]; intro H; cbn [filter fold_right]; [lia|].
  assert (0 <= i_size m) by (apply H; left; reflexivity). assert (forall x, In x l -> 0 <= i_size x) as Hl by (intros; apply H; right; assumption).
  specialize (IH Hl). destruct (p m); cbn [fold_right]; lia.
Qed.
Lemma plan_one s rs : one_request s -> ordinary s -> plan s = Ok rs -> exists r, rs = [r].
Proof.
  intros [Hp Hl] O H. assert (H' := H). unfold plan in H'. fold (asking s) in H'.
  destruct (requests_split _ _ _ _ (ex_intro _ _ eq_refl) H') as (g & gs & b & bs & est & He & _ & E & -> & Hg & Hgs & _ & Hne & Hov & _).
  rewrite total_all in Hl.
  assert (P : forall m, In m (asking s) -> 0 <= i_size m) by (intros m Hm; apply in_map_iff in Hm as (x & <- & Hx); cbn; auto).
  pose proof (total_filter i_supported (asking s) P) as T. rewrite <- E, total_app in T.
  assert (Est : est = 1024) by (apply He; discriminate).
  destruct gs as [|g0 gs].
  - inversion Hgs; subst. cbn [filter].
    destruct (plan_asks s _ "system" "get_sysinfo" O H (or_introl (conj eq_refl eq_refl))) as (r & Hr & _).
    cbn [filter] in Hr. destruct (truthy b); [eauto|destruct Hr].
  - destruct g0 as [|m g']. { inversion Hne as [|? ? [X _]]; congruence. }
    specialize (Hov m g' gs eq_refl).
    assert (S : 0 <= total g' + total (concat gs)).
    { assert (forall x, In x (g' ++ concat gs) -> 0 <= i_size x).
      { intros x Hx. assert (In x (g ++ concat ((m :: g') :: gs))) as X by (cbn [concat app]; rewrite !in_app_iff in *; cbn; rewrite in_app_iff; tauto).
        rewrite E in X. apply filter_In in X as [X _]. auto. }
      rewrite <- total_app. pose proof (total_filter (fun _ => true) (g' ++ concat gs) H0) as Y.
      assert (F : forall l : list imod, filter (fun _ => true) l = l) by (induction l; cbn; congruence). rewrite F in Y. lia. }
    cbn [concat app total fold_right] in T. fold (total (g' ++ concat gs)) in T. rewrite total_app in T. lia.
Qed.

(** ** Replies *)
Lemma reply_ok w r : good r -> reply_wf (reply_to w r).
Proof.
  intros (W & (d & -> & S) & _). cbn [reply_to]. destruct (jwf_dict _ W) as [Wd Wv].
  split. { unfold dwf. rewrite (dkeys_map (fun k v => answer_of (w k) v)). exact Wd. }
  intros k e H. apply in_map_iff in H as ([k0 v] & H & Hi). cbn [fst snd] in H. injection H as <- H.
  destruct (S k0 v Hi) as [cs ->]. unfold answer_of in H. destruct (w k0) as [f|].
  - injection H as <-. unfold dwf. rewrite (dkeys_map (fun c (_ : json) => f c)).
    apply (jwf_dict cs). apply (Wv k0). now apply In_dget.
  - injection H as <-. repeat constructor; cbn; intuition discriminate.
Qed.
Lemma reply_field_ok w r k f c : w k = Some f -> good r ->
  (present [k; c] r -> reply_field k c (reply_to w r) = Some (f c)) /\ (~ present [k; c] r -> reply_field k c (reply_to w r) = None).
Proof.
  intros Hw (_ & (d & -> & S) & _). unfold reply_field, present. cbn [reply_to]. rewrite (dget_map (fun k v => answer_of (w k) v)). cbn [at_keys].
  destruct (dget k d) as [v|] eqn:E; cbn [option_map]; [|split; [congruence|reflexivity]].
  destruct (S k v (dget_In _ _ _ E)) as [cs ->]. unfold answer_of. rewrite Hw, (dget_map (fun c (_ : json) => f c)).
  destruct (dget c cs); cbn [option_map]; split; intro X; try reflexivity; exfalso; apply X; congruence.
Qed.
(** A reply that says about [k] and [c] what [f] says, and no error *)
Definition truthful (f : string -> json) (k c : string) (g : dict json) : Prop :=
  reply_wf g /\ (reply_field k c g = None \/ reply_field k c g = Some (f c)) /\ reply_field k "err_code" g = None.
Lemma reply_truthful w r k f c : w k = Some f -> good r -> truthful f k c (reply_to w r).
Proof.
  intros Hw G. split; [now apply reply_ok|]. split.
  - destruct (reply_field_ok w r k f c Hw G) as [H1 H2]. unfold present in *. destruct (at_keys [k; c] r) eqn:E.
    + right. apply H1. congruence.
    + left. apply H2. congruence.
  - apply (reply_field_ok w r k f "err_code" Hw G). destruct G as (_ & _ & N). apply N.
Qed.
Lemma latest_truthful f k c l : Forall (truthful f k c) l ->
  (latest k c l = None \/ latest k c l = Some (f c)) /\ latest k "err_code" l = None /\
  ((exists g, In g l /\ reply_field k c g = Some (f c)) -> latest k c l = Some (f c)).
Proof.
  induction 1 as [|g l (_ & H1 & H2) _ (I1 & I2 & I3)]; cbn [latest]. { repeat split; auto. intros (g & [] & _). }
  rewrite I2. split; [|split; [exact H2|]].
  - destruct I1 as [-> | ->]; auto.
  - intros (x & [->|Hx] & E).
    + destruct I1 as [-> | ->]; auto.
    + rewrite I3; eauto.
Qed.
Lemma merge_reply_nonempty r : forall u, u <> [] -> merge_reply u r <> [].
Proof.
  unfold merge_reply. induction r as [|[k v] r IH]; intros u H; cbn [fold_left]; auto. apply IH. cbn [fst snd].
  destruct v; auto. destruct u as [|[k0 v0] u]; [congruence|]. cbn [dset]. destruct (String.eqb k k0); discriminate.
Qed.
Lemma merge_nonempty rs : forall u, u <> [] -> merge_replies u rs <> [].
Proof. unfold merge_replies. induction rs; intros u H; cbn; auto. apply IHrs. now apply merge_reply_nonempty. Qed.
Lemma no_error_supported k u : is_supported k u = true <-> field k "err_code" u = None.
Proof.
  unfold is_supported, field, dmem. destruct (dget k u) as [d|]; [|tauto]. destruct (dget "err_code" d); cbn; split; congruence.
Qed.

(** ** Updates under way *)
Lemma In_remove {A} i j (p : A) l : In (j, p) (remove i l) -> In (j, p) l.
Proof. intro H. apply filter_In in H. tauto. Qed.
Lemma snoc_split {A} (l : list A) a q1 b q2 : l ++ [a] = q1 ++ b :: q2 ->
  (q2 = [] /\ q1 = l /\ a = b) \/ exists q, q2 = q ++ [a] /\ l = q1 ++ b :: q.
Proof.
  revert q1. induction l as [|x l IH]; intros q1 H; cbn in H.
  - destruct q1 as [|y q1]; cbn in H; injection H as H1 H2; [subst; auto|]. destruct q1; discriminate.
  - destruct q1 as [|y q1]; cbn in H; injection H as H1 H2.
    + subst. right. exists l. auto.
    + subst. destruct (IH q1 H2) as [(-> & -> & ->)|(q & -> & ->)]; [left; auto|right; exists q; auto].
Qed.
Lemma filter_split {A} (f : A -> bool) l : forall q1 b q2, filter f l = q1 ++ b :: q2 ->
  exists l1 l2, l = l1 ++ b :: l2 /\ filter f l1 = q1 /\ filter f l2 = q2.
Proof.
  induction l as [|x l IH]; intros q1 b q2 H; cbn in H; [destruct q1; discriminate|].
  destruct (f x) eqn:E.
  - destruct q1 as [|y q1]; cbn in H; injection H as H1 H2.
    + subst. exists [], l. auto.
    + subst. destruct (IH q1 b q2 H2) as (l1 & l2 & -> & <- & <-). exists (y :: l1), l2. cbn. rewrite E. auto.
  - destruct (IH q1 b q2 H) as (l1 & l2 & -> & <- & <-). exists (x :: l1), l2. cbn. rewrite E. auto.
Qed.

Lemma asked_step_back s s' k c : s_mods s' = s_mods s ->
  (forall name, is_supported name (s_lu s) = false -> is_supported name (s_lu s') = false) -> asked s' k c -> asked s k c.
Proof.
  intros M B [H|(m & H1 & H2 & H3 & H4)]; [left; exact H|right]. exists m. rewrite M in H1. split; [exact H1|]. split; [exact H2|]. split; [exact H3|].
  unfold supported in *. destruct (m_cmds m); [destruct H3|]. destruct (is_supported (m_name m) (s_lu s)) eqn:E; [reflexivity|]. now rewrite (B _ E) in H4.
Qed.

(** An update that has no error about [k] among its replies *)
Definition loose (k : string) (p : phase) : Prop :=
  exists todo got, p = Asking todo got /\ todo <> [] /\ Forall good todo /\ Forall (fun g => reply_wf g /\ reply_field k "err_code" g = None) got.
(** An update that will have or has the answer [f c] to command [c] of [k] *)
Definition carries (f : string -> json) (k c : string) (p : phase) : Prop :=
  exists todo got, p = Asking todo got /\ todo <> [] /\ Forall good todo /\ Forall (truthful f k c) got /\
    ((exists r, In r todo /\ present [k; c] r) \/ exists g, In g got /\ reply_field k c g = Some (f c)).
Definition rem (p : phase) : nat := match p with First => 0 | Asking todo _ => length todo end.
Lemma carries_loose f k c p : carries f k c p -> loose k p.
Proof.
  intros (todo & got & -> & N & G & T & _). exists todo, got. split; [reflexivity|]. split; [exact N|]. split; [exact G|].
  eapply Forall_impl; [|exact T]. intros a (H1 & _ & H3). auto.
Qed.
Lemma plan_carries f k c s rs : ordinary s -> asked s k c -> plan s = Ok rs -> carries f k c (Asking rs []).
Proof.
  intros O A E. destruct (plan_asks _ _ _ _ O E A) as (r & Hr & P). exists rs, []. split; [reflexivity|].
  split; [intro X; subst; destruct Hr|]. split; [exact (plan_good _ _ O E)|]. split; [constructor|]. left; eauto.
Qed.

(** What holds of the object whatever is under way *)
Record Sound (k c : string) (s : sys) : Prop := mkSound {
  so_lu : s_lu s <> [];
  so_ord : ordinary s;
  so_asked : asked s k c;
  so_err : field k "err_code" (s_lu s) = None;
  so_known : s_world s k <> None;
  so_ups : forall x, In x (s_ups s) -> loose k (snd x) }.

Lemma asked_finish k c s got id : asked s k c -> field k "err_code" (merge_replies (s_lu s) got) = None -> asked (finish id got s) k c.
Proof.
  intros [H|(m & H1 & H2 & H3 & H4)] Er; [left; exact H|right]. exists m. unfold finish. cbn [s_mods s_lu]. repeat (split; [assumption|]).
  unfold supported in *. destruct (m_cmds m); [destruct H3|]. rewrite H2. now apply no_error_supported.
Qed.
Lemma latest_no_err k got : Forall (fun g => reply_wf g /\ reply_field k "err_code" g = None) got -> latest k "err_code" got = None.
Proof. induction 1 as [|g l [_ H] _ IH]; [reflexivity|]. cbn. now rewrite IH. Qed.
Lemma err_finish k u got : field k "err_code" u = None -> Forall (fun g => reply_wf g /\ reply_field k "err_code" g = None) got ->
  field k "err_code" (merge_replies u got) = None.
Proof.
  intros E L. rewrite merge_replies_field by (eapply Forall_impl; [|exact L]; intros a [X _]; exact X). now rewrite (latest_no_err _ _ L).
Qed.
Lemma sound_ups k c s l : Sound k c s -> (forall x, In x l -> loose k (snd x)) -> Sound k c (with_ups s l).
Proof. intros [] H. constructor; auto. Qed.
Lemma sound_finish k c s id got : Sound k c s -> Forall (fun g => reply_wf g /\ reply_field k "err_code" g = None) got -> Sound k c (finish id got s).
Proof.
  intros [] L. pose proof (err_finish _ _ _ so_err0 L) as Er. constructor; unfold finish; cbn [s_lu s_world s_ups]; auto.
  - now apply merge_nonempty.
  - now apply asked_finish.
Qed.
(** One step, seen on the queue: what a change of nothing but the queue and the replies
    needs.  The four outcomes of an event that does not change the device. *)
Inductive move (k c : string) (s : sys) : event -> sys -> Prop :=
| mv_same e : move k c s e s
| mv_begin id rs : plan s = Ok rs -> move k c s (EBegin id) (with_ups s (s_ups s ++ [(id, Asking rs [])]))
| mv_fail ok x rest : s_ups s = x :: rest -> move k c s (EAnswer ok) (with_ups s rest)
| mv_cancel id : move k c s (ECancel id) (with_ups s (remove id (s_ups s)))
| mv_next ok id r r2 todo got rest : s_ups s = (id, Asking (r :: r2 :: todo) got) :: rest ->
    move k c s (EAnswer ok) (with_ups s (rest ++ [(id, Asking (r2 :: todo) (got ++ [reply_to (s_world s) r]))]))
| mv_done ok id r got rest : s_ups s = (id, Asking [r] got) :: rest ->
    move k c s (EAnswer ok) (finish id (got ++ [reply_to (s_world s) r]) (with_ups s rest)).
Lemma step_move k c s e : Sound k c s -> no_change e -> move k c s e (step s e).
Proof.
  intros S N. destruct e as [id|ok|id|w]; cbn [step]; [| | |destruct N].
  - destruct (under_way id (s_ups s)); [constructor|]. destruct (s_lu s) eqn:E; [destruct (so_lu _ _ _ S E)|].
    unfold start. destruct (plan s) eqn:P; [|constructor]. now constructor.
  - destruct (s_ups s) as [|[id p] rest] eqn:E; [constructor|].
    destruct ok; cbn [negb]; [|eapply mv_fail; exact E].
    assert (L : loose k p) by (apply (so_ups _ _ _ S (id, p)); rewrite E; left; reflexivity).
    destruct L as (todo & got & -> & Hn & _). destruct todo as [|r [|r2 todo]]; [congruence| |].
    + exact (mv_done k c s true id r got rest E).
    + exact (mv_next k c s true id r r2 todo got rest E).
  - constructor.
Qed.
Lemma truthful_known k (c : string) (w : device) r : w k <> None -> good r -> reply_wf (reply_to w r) /\ reply_field k "err_code" (reply_to w r) = None.
Proof.
  intros K G. destruct (w k) as [f|] eqn:E; [|congruence]. destruct (reply_truthful w r k f c E G) as (H1 & _ & H3). auto.
Qed.
Lemma loose_next k (c : string) (w : device) r r2 todo got : w k <> None -> loose k (Asking (r :: r2 :: todo) got) -> loose k (Asking (r2 :: todo) (got ++ [reply_to w r])).
Proof.
  intros K (t & g & E & _ & G & L). injection E as <- <-. inversion G; subst. eexists _, _. split; [reflexivity|]. split; [discriminate|]. split; [assumption|].
  apply Forall_app. split; [exact L|]. constructor; [|constructor]. exact (truthful_known k c w r K H1).
Qed.
Lemma loose_done k (c : string) (w : device) r got : w k <> None -> loose k (Asking [r] got) ->
  Forall (fun g => reply_wf g /\ reply_field k "err_code" g = None) (got ++ [reply_to w r]).
Proof.
  intros K (t & g & E & _ & G & L). injection E as <- <-. inversion G; subst.
  apply Forall_app. split; [exact L|]. constructor; [|constructor]. exact (truthful_known k c w r K H1).
Qed.
Lemma carries_next f k c w r r2 todo got : w k = Some f -> carries f k c (Asking (r :: r2 :: todo) got) -> carries f k c (Asking (r2 :: todo) (got ++ [reply_to w r])).
Proof.
  intros K (t & g & E & _ & G & T & H). injection E as <- <-. inversion G as [|? ? Gr Gt]; subst. eexists _, _. split; [reflexivity|]. split; [discriminate|]. split; [assumption|].
  split. { apply Forall_app. split; [exact T|]. constructor; [|constructor]. now apply reply_truthful. }
  destruct H as [(r' & [->|Hi] & P)|(g & Hg & E)].
  - right. exists (reply_to w r'). split; [apply in_app_iff; right; left; reflexivity|]. now apply (reply_field_ok _ _ _ f c K Gr).
  - left; eauto.
  - right. exists g. split; [apply in_app_iff; auto|exact E].
Qed.
Lemma carries_done f k c w r got u : w k = Some f -> carries f k c (Asking [r] got) -> field k c (merge_replies u (got ++ [reply_to w r])) = Some (f c).
Proof.
  intros K (t & g & E & _ & G & T & H). injection E as <- <-. inversion G as [|? ? Gr Gt]; subst.
  assert (T' : Forall (truthful f k c) (got ++ [reply_to w r])) by (apply Forall_app; split; [exact T|]; constructor; [now apply reply_truthful|constructor]).
  assert (X : exists g, In g (got ++ [reply_to w r]) /\ reply_field k c g = Some (f c)).
  { destruct H as [(r' & [->|[]] & P)|(g & Hg & E)].
    - exists (reply_to w r'). split; [apply in_app_iff; right; left; reflexivity|]. now apply (reply_field_ok _ _ _ f c K Gr).
    - exists g. split; [apply in_app_iff; auto|exact E]. }
  destruct (latest_truthful f k c _ T') as (_ & _ & L).
  rewrite merge_replies_field by (eapply Forall_impl; [|exact T']; intros a (Y & _); exact Y). now rewrite (L X).
Qed.
Lemma sound_move k c s e s' : Sound k c s -> move k c s e s' -> Sound k c s'.
Proof.
  intros S M. pose proof (so_ups _ _ _ S) as U. destruct M as [e|id rs P|ok x rest E|id|ok id r r2 todo got rest E|ok id r got rest E].
  - exact S.
  - apply sound_ups; [exact S|]. intros x Hx. apply in_app_iff in Hx as [Hx|[<-|[]]]; [auto|]. cbn.
    destruct (s_world s k) as [f|] eqn:Ew; [|destruct (so_known _ _ _ S Ew)].
    apply (carries_loose f k c). exact (plan_carries f k c s rs (so_ord _ _ _ S) (so_asked _ _ _ S) P).
  - apply sound_ups; [exact S|]. intros y Hy. apply U. rewrite E. right; exact Hy.
  - apply sound_ups; [exact S|]. intros [i p] Hy. apply In_remove in Hy. auto.
  - apply sound_ups; [exact S|]. intros x Hx. apply in_app_iff in Hx as [Hx|[<-|[]]]; [apply U; rewrite E; right; exact Hx|]. cbn.
    apply (loose_next k c); [apply (so_known _ _ _ S)|]. apply (U (id, _)). rewrite E. left; reflexivity.
  - apply sound_finish.
    + apply sound_ups; [exact S|]. intros y Hy. apply U. rewrite E. right; exact Hy.
    + apply (loose_done k c); [apply (so_known _ _ _ S)|]. apply (U (id, _)). rewrite E. left; reflexivity.
Qed.
Lemma sound_device k c s w : Sound k c s -> w k <> None -> Sound k c (step s (EDevice w)).
Proof. intros [] K. constructor; auto. Qed.
Lemma sound_step k c s e : Sound k c s -> knows k e -> Sound k c (step s e).
Proof.
  intros S K. destruct e as [id|ok|id|w]; try (eapply sound_move; [exact S|]; apply step_move; [exact S|exact I]).
  now apply sound_device.
Qed.

(** ** Every update under way carries the answer *)
Record Inv (f : string -> json) (k c : string) (s0 s : sys) : Prop := mkInv {
  inv_sound : Sound k c s;
  inv_world : s_world s k = Some f;
  inv_ups : forall x, In x (s_ups s) -> carries f k c (snd x);
  inv_done : forall id, In id (s_done s) -> In id (s_done s0) \/ shown s k c = Some (f c) }.
Lemma inv_step f k c s0 s e : Inv f k c s0 s -> no_change e -> Inv f k c s0 (step s e).
Proof.
  intros I N. pose proof (inv_sound _ _ _ _ _ I) as S. pose proof (step_move k c s e S N) as M. pose proof (sound_move _ _ _ _ _ S M) as S'.
  remember (step s e) as s'. clear Heqs'. destruct I as [_ W U D]. destruct M as [e|id rs P|ok x rest E|id|ok id r r2 todo got rest E|ok id r got rest E]; (split; [exact S'| | |]); auto.
  - intros x Hx. apply in_app_iff in Hx as [Hx|[<-|[]]]; [auto|]. exact (plan_carries f k c s rs (so_ord _ _ _ S) (so_asked _ _ _ S) P).
  - intros y Hy. apply U. rewrite E. right; exact Hy.
  - intros [i p] Hy. apply In_remove in Hy. auto.
  - intros x Hx. apply in_app_iff in Hx as [Hx|[<-|[]]]; [apply U; rewrite E; right; exact Hx|]. cbn. apply carries_next; [exact W|].
    apply (U (id, _)). rewrite E. left; reflexivity.
  - intros y Hy. apply U. rewrite E. right; exact Hy.
  - intros j _. right. unfold shown, finish. cbn [s_lu with_ups]. apply (carries_done f k c); [exact W|]. apply (U (id, _)). rewrite E. left; reflexivity.
Qed.
Lemma inv_run f k c s0 es : forall s, Inv f k c s0 s -> Forall no_change es -> Inv f k c s0 (run s es).
Proof. induction es as [|e es IH]; intros s I N; [exact I|]. inversion N; subst. cbn. apply IH; auto. now apply inv_step. Qed.

(** ** A history with changes of the device *)
(** Before the last change: an update has at most [n] requests left, or it has not made
    any yet *)
Definition young (n : nat) (k c : string) (p : phase) : Prop :=
  (rem p <= n)%nat \/ exists todo, p = Asking todo [] /\ exists r, In r todo /\ present [k; c] r.
Record Pre (n : nat) (k c : string) (s : sys) : Prop := mkPre {
  pre_sound : Sound k c s;
  pre_size : forall x, In x (s_ups s) -> (rem (snd x) <= S n)%nat;
  pre_ups : forall x, In x (s_ups s) -> young n k c (snd x) }.
Definition fits (n : nat) (s : sys) (e : event) : Prop :=
  match e with EBegin _ => forall rs, plan s = Ok rs -> length rs = n \/ length rs = S n | _ => True end.
Lemma pre_step n k c s e : Pre n k c s -> knows k e -> fits n s e -> Pre n k c (step s e).
Proof.
  intros I K F. pose proof (pre_sound _ _ _ _ I) as S. pose proof (sound_step k c s e S K) as S'.
  destruct I as [_ Z Y]. assert (C : no_change e \/ exists w, e = EDevice w) by (destruct e; eauto; left; exact I).
  destruct C as [N|[w ->]]; [|constructor; auto].
  pose proof (step_move k c s e S N) as M. remember (step s e) as s'. clear Heqs'.
  destruct M as [e|id rs P|ok x rest E|id|ok id r r2 todo got rest E|ok id r got rest E]; (split; [exact S'| |]); auto.
  - intros x Hx. apply in_app_iff in Hx as [Hx|[<-|[]]]; [auto|]. cbn. destruct (F rs P); lia.
  - intros x Hx. apply in_app_iff in Hx as [Hx|[<-|[]]]; [auto|]. right. exists rs. split; [reflexivity|]. exact (plan_asks _ _ _ _ (so_ord _ _ _ S) P (so_asked _ _ _ S)).
  - intros y Hy. apply Z. rewrite E. right; exact Hy.
  - intros y Hy. apply Y. rewrite E. right; exact Hy.
  - intros [i p] Hy. apply In_remove in Hy. auto.
  - intros [i p] Hy. apply In_remove in Hy. auto.
  - intros x Hx. apply in_app_iff in Hx as [Hx|[<-|[]]]; [apply Z; rewrite E; right; exact Hx|]. cbn.
    specialize (Z (id, Asking (r :: r2 :: todo) got)). rewrite E in Z. specialize (Z (or_introl eq_refl)). cbn in Z. lia.
  - intros x Hx. apply in_app_iff in Hx as [Hx|[<-|[]]]; [apply Y; rewrite E; right; exact Hx|]. left. cbn.
    specialize (Z (id, Asking (r :: r2 :: todo) got)). rewrite E in Z. specialize (Z (or_introl eq_refl)). cbn in Z. lia.
  - intros y Hy. apply Z. rewrite E. right; exact Hy.
  - intros y Hy. apply Y. rewrite E. right; exact Hy.
Qed.
Lemma sized_app n es1 : forall s es2, sized n s (es1 ++ es2) -> sized n s es1 /\ sized n (run s es1) es2.
Proof. induction es1 as [|e es1 IH]; intros s es2 H; [split; [exact I|exact H]|]. cbn in *. destruct H as [H1 H2]. destruct (IH _ _ H2). auto. Qed.
Lemma pre_run n k c es : forall s, Pre n k c s -> Forall (knows k) es -> sized n s es -> Pre n k c (run s es).
Proof. induction es as [|e es IH]; intros s P K Z; [exact P|]. inversion K; subst. destruct Z as [Z1 Z2]. cbn. apply IH; auto. now apply pre_step. Qed.

(** After the last change: an update carries the answer, or it is ahead of the update
    [d] *)
Section Ahead.
Variables (n : nat) (f : string -> json) (k c : string) (d : nat).
Definition le_or (m : nat) (x : nat * phase) : Prop := carries f k c (snd x) \/ (rem (snd x) <= m)%nat.
Definition lt_or (m : nat) (x : nat * phase) : Prop := carries f k c (snd x) \/ (rem (snd x) < m)%nat.
Definition ahead (q : list (nat * phase)) : Prop :=
  forall q1 p q2, q = q1 ++ (d, p) :: q2 -> carries f k c p /\ Forall (le_or (rem p)) q1 /\ Forall (lt_or (rem p)) q2.
Record Post (s0 s : sys) : Prop := mkPost {
  po_sound : Sound k c s;
  po_world : s_world s k = Some f;
  po_ups : forall x, In x (s_ups s) -> le_or n x;
  po_d : ((forall x, In x (s_ups s) -> carries f k c (snd x)) /\ shown s k c = Some (f c)) \/
         ((In d (s_done s) -> In d (s_done s0)) /\ ahead (s_ups s)) }.
Lemma ahead_tail x q : ahead (x :: q) -> ahead q.
Proof. intros A q1 p q2 ->. destruct (A (x :: q1) p q2 eq_refl) as (H1 & H2 & H3). inversion H2; subst. auto. Qed.
Lemma ahead_remove i q : ahead q -> ahead (remove i q).
Proof.
  intros A q1 p q2 E. apply filter_split in E as (l1 & l2 & E & <- & <-). destruct (A _ _ _ E) as (H1 & H2 & H3). split; [exact H1|].
  split; apply Forall_forall; intros x Hx; apply filter_In in Hx as [Hx _]; [rewrite Forall_forall in H2|rewrite Forall_forall in H3]; auto.
Qed.
Lemma ahead_begin id rs q : ahead q -> Forall (le_or n) q -> (n <= length rs)%nat -> carries f k c (Asking rs []) -> ahead (q ++ [(id, Asking rs [])]).
Proof.
  intros A L Hn C q1 p q2 E. apply snoc_split in E as [(-> & -> & E)|(q' & -> & E)].
  - injection E as -> <-. split; [exact C|]. split; [|constructor]. eapply Forall_impl; [|exact L]. intros x [H|H]; [left; exact H|right; cbn; lia].
  - destruct (A _ _ _ E) as (H1 & H2 & H3). split; [exact H1|]. split; [exact H2|]. apply Forall_app. split; [exact H3|]. constructor; [left; exact C|constructor].
Qed.
Lemma ahead_next id r r2 todo got g q : ahead ((id, Asking (r :: r2 :: todo) got) :: q) ->
  (carries f k c (Asking (r :: r2 :: todo) got) -> carries f k c (Asking (r2 :: todo) (got ++ [g]))) ->
  ahead (q ++ [(id, Asking (r2 :: todo) (got ++ [g]))]).
Proof.
  intros A C q1 p q2 E. apply snoc_split in E as [(-> & -> & E)|(q' & -> & E)].
  - injection E as -> <-. destruct (A [] _ _ eq_refl) as (H1 & _ & H3). split; [auto|]. split; [|constructor].
    eapply Forall_impl; [|exact H3]. intros x [H|H]; [left; exact H|right; cbn in *; lia].
  - subst q. destruct (A (_ :: q1) p q' eq_refl) as (H1 & H2 & H3). inversion H2; subst. split; [exact H1|]. split; [assumption|].
    apply Forall_app. split; [exact H3|]. constructor; [|constructor]. destruct H4 as [H|H]; [left; exact (C H)|right; cbn in *; lia].
Qed.
Lemma post_step s0 s e : Post s0 s -> no_change e -> fits n s e -> Post s0 (step s e).
Proof.
  intros I N F. pose proof (po_sound _ _ I) as S. pose proof (step_move k c s e S N) as M. pose proof (sound_move _ _ _ _ _ S M) as S'.
  remember (step s e) as s'. clear Heqs'. destruct I as [_ W U D].
  destruct M as [e|id rs P|ok x rest E|id|ok id r r2 todo got rest E|ok id r got rest E].
  - constructor; auto.
  - pose proof (plan_carries f k c s rs (so_ord _ _ _ S) (so_asked _ _ _ S) P) as Cr.
    assert (Hn : (n <= length rs)%nat) by (cbn in F; destruct (F rs P); lia).
    constructor; auto.
    + intros x Hx. apply in_app_iff in Hx as [Hx|[<-|[]]]; [auto|left; exact Cr].
    + destruct D as [[D1 D2]|[D1 D2]]; [left|right].
      * split; [|exact D2]. intros x Hx. apply in_app_iff in Hx as [Hx|[<-|[]]]; auto.
      * split; [exact D1|]. apply ahead_begin; auto. apply Forall_forall. exact U.
  - constructor; auto.
    + intros y Hy. apply U. rewrite E. right; exact Hy.
    + destruct D as [[D1 D2]|[D1 D2]]; [left|right].
      * split; [|exact D2]. intros y Hy. apply D1. rewrite E. right; exact Hy.
      * split; [exact D1|]. rewrite E in D2. exact (ahead_tail _ _ D2).
  - constructor; auto.
    + intros [i p] Hy. apply In_remove in Hy. auto.
    + destruct D as [[D1 D2]|[D1 D2]]; [left|right].
      * split; [|exact D2]. intros [i p] Hy. apply In_remove in Hy. auto.
      * split; [exact D1|]. now apply ahead_remove.
  - assert (Cn : carries f k c (Asking (r :: r2 :: todo) got) -> carries f k c (Asking (r2 :: todo) (got ++ [reply_to (s_world s) r]))) by (intro; now apply carries_next).
    constructor; auto.
    + intros x Hx. apply in_app_iff in Hx as [Hx|[<-|[]]]; [apply U; rewrite E; right; exact Hx|].
      destruct (U (id, Asking (r :: r2 :: todo) got)) as [H|H]; [rewrite E; left; reflexivity|left; auto|right; cbn in *; lia].
    + destruct D as [[D1 D2]|[D1 D2]]; [left|right].
      * split; [|exact D2]. intros x Hx. apply in_app_iff in Hx as [Hx|[<-|[]]]; [apply D1; rewrite E; right; exact Hx|].
        apply Cn. apply (D1 (id, _)). rewrite E. left; reflexivity.
      * split; [exact D1|]. rewrite E in D2. exact (ahead_next _ _ _ _ _ _ _ D2 Cn).
  - assert (Hi : In (id, Asking [r] got) (s_ups s)) by (rewrite E; left; reflexivity).
    constructor; auto.
    + intros y Hy. apply U. rewrite E. right; exact Hy.
    + assert (Sh : carries f k c (Asking [r] got) -> shown (finish id (got ++ [reply_to (s_world s) r]) (with_ups s rest)) k c = Some (f c))
        by (intro C; unfold shown, finish; cbn [s_lu with_ups]; now apply (carries_done f k c)).
      destruct D as [[D1 D2]|[D1 D2]].
      * left. split; [|apply Sh; apply (D1 (id, _) Hi)]. intros y Hy. apply D1. rewrite E. right; exact Hy.
      * rewrite E in D2. destruct (Nat.eq_dec id d) as [->|Hd].
        -- left. destruct (D2 [] _ _ eq_refl) as (H1 & _ & H3). split; [|auto]. intros y Hy. cbn [s_ups finish with_ups] in Hy.
           rewrite Forall_forall in H3. destruct (H3 y Hy) as [H|H]; [exact H|]. exfalso.
           assert (L : loose k (snd y)) by (apply (so_ups _ _ _ S y); rewrite E; right; exact Hy).
           destruct L as (t & g & El & Nt & _). rewrite El in H. cbn in H. destruct t; [congruence|cbn in H; lia].
        -- right. split; [|exact (ahead_tail _ _ D2)]. cbn [s_done finish]. intros [H|H]; [congruence|]. cbn in H. auto.
Qed.
Lemma post_run s0 es : forall s, Post s0 s -> Forall no_change es -> sized n s es -> Post s0 (run s es).
Proof. induction es as [|e es IH]; intros s P N Z; [exact P|]. inversion N; subst. destruct Z as [Z1 Z2]. cbn. apply IH; auto. now apply post_step. Qed.
Lemma pre_post s : Pre n k c s -> s_world s k = Some f -> under_way d (s_ups s) = false -> Post s s.
Proof.
  intros [S Z Y] W D. constructor; auto.
  - intros x Hx. destruct (Y x Hx) as [H|(todo & E & r & Hr & P)]; [right; exact H|left].
    destruct (so_ups _ _ _ S x Hx) as (t & g & E' & Nt & G & _). rewrite E in *. injection E' as <- <-.
    exists todo, []. split; [reflexivity|]. split; [exact Nt|]. split; [exact G|]. split; [constructor|]. left; eauto.
  - right. split; [auto|]. intros q1 p q2 E. exfalso. rewrite E in D. unfold under_way in D. rewrite existsb_app in D. cbn in D.
    rewrite Nat.eqb_refl in D. cbn in D. rewrite Bool.orb_true_r in D. discriminate.
Qed.
End Ahead.

(** ** One request for each update *)
Lemma mods_step s e : s_mods (step s e) = s_mods s /\ s_limit (step s e) = s_limit s.
Proof.
  destruct e as [id|ok|id|w]; cbn [step]; auto.
  - destruct (under_way id (s_ups s)); auto. destruct (s_lu s); auto. unfold start. destruct (plan s); auto.
  - destruct (s_ups s) as [|[id [|[|r [|]] got]] rest]; destruct ok; auto. cbn [negb]. unfold start. destruct (plan _); auto.
Qed.
Lemma one_sized es : forall s, one_request s -> ordinary s -> sized 1 s es.
Proof.
  induction es as [|e es IH]; intros s O Or; [exact I|]. cbn [sized]. destruct (mods_step s e) as [M L]. split.
  - destruct e; auto. intros rs P. destruct (plan_one _ _ O Or P) as [r ->]. left; reflexivity.
  - apply IH; [unfold one_request in *; now rewrite M, L|unfold ordinary in *; now rewrite M].
Qed.
Lemma one_sized0 es : forall s, one_request s -> ordinary s -> sized 0 s es.
Proof.
  induction es as [|e es IH]; intros s O Or; [exact I|]. cbn [sized]. destruct (mods_step s e) as [M L]. split.
  - destruct e; auto. intros rs P. destruct (plan_one _ _ O Or P) as [r ->]. right; reflexivity.
  - apply IH; [unfold one_request in *; now rewrite M, L|unfold ordinary in *; now rewrite M].
Qed.

(** ** A module that answered with an error *)
Lemma at_keys_merged l : forall a b k, merged a l b -> (forall m, In m l -> jwf (i_query m) /\ ~ present [k] (i_query m)) -> ~ present [k] a -> ~ present [k] b.
Proof.
  intros a b k H. induction H as [|a m l b c H _ IH]; intros Hl Ha; [exact Ha|]. apply IH; [intros; apply Hl; right; assumption|].
  intro P. unfold present in P. destruct (at_keys [k] b) as [v|] eqn:E; [|congruence].
  destruct (Hl m (or_introl eq_refl)) as [W Nq]. destruct (merge_only _ _ _ _ _ W H E) as [[X|X] _]; auto.
Qed.
Lemma plan_skips s rs k : ordinary s -> plan s = Ok rs -> k <> "system" -> is_supported k (s_lu s) = false -> forall r, In r rs -> ~ present [k] r.
Proof.
  intros O H Hk Hs. unfold plan in H. fold (asking s) in H.
  destruct (requests_split _ _ _ _ (ex_intro _ _ eq_refl) H) as (g & gs & b & bs & est & _ & _ & E & -> & Hg & Hgs & _).
  assert (Q : forall m, In m (g ++ concat gs) -> jwf (i_query m) /\ ~ present [k] (i_query m)).
  { intros m Hm. rewrite E in Hm. apply filter_In in Hm as [Hm Hx]. split; [apply (good_asking s O m Hm)|].
    apply in_map_iff in Hm as (x & <- & Hi). cbn [i_query i_supported] in *. unfold query_of, supported in *.
    destruct (m_cmds x); [intro P; apply P; reflexivity|]. intro P. apply P. cbn [at_keys dget]. destruct (String.eqb_spec k (m_name x)) as [->|]; [congruence|reflexivity]. }
  intros r Hr. apply filter_In in Hr as [[<-|Hr] _].
  - apply (at_keys_merged _ _ _ _ Hg); [intros; apply Q, in_app_iff; auto|]. intro P. apply P. cbn. rewrite seqb_neq by exact Hk. reflexivity.
  - assert (Q' : forall m, In m (concat gs) -> jwf (i_query m) /\ ~ present [k] (i_query m)) by (intros; apply Q, in_app_iff; auto).
    clear - Hgs Q' Hr. induction Hgs as [|g0 b0 gs bs H0 Hgs IH]; [destruct Hr|]. cbn [concat] in Q'. destruct Hr as [<-|Hr].
    + apply (at_keys_merged _ _ _ _ H0); [intros; apply Q', in_app_iff; auto|]. intro P; apply P; reflexivity.
    + apply IH; auto. intros; apply Q', in_app_iff; auto.
Qed.
Lemma skipped_reply w r k : ~ present [k] r -> forall c, reply_field k c (reply_to w r) = None.
Proof.
  intros N c. unfold reply_field, reply_to. destruct r; try reflexivity. rewrite (dget_map (fun k v => answer_of (w k) v)).
  unfold present in N. cbn in N. destruct (dget k d); [|reflexivity]. exfalso. apply N. discriminate.
Qed.
Definition silent (k : string) (p : phase) : Prop :=
  exists todo got, p = Asking todo got /\ Forall good todo /\ Forall (fun r => ~ present [k] r) todo /\ Forall reply_wf got /\ Forall (fun g => forall c, reply_field k c g = None) got.
Record Frozen (k : string) (s0 s : sys) : Prop := mkFrozen {
  fr_lu : s_lu s <> [];
  fr_ord : ordinary s;
  fr_err : is_supported k (s_lu s) = false;
  fr_same : forall c, shown s k c = shown s0 k c;
  fr_ups : forall id p, In (id, p) (s_ups s) -> silent k p }.
Lemma frozen_ups k s0 s l : Frozen k s0 s -> (forall id p, In (id, p) l -> silent k p) -> Frozen k s0 (with_ups s l).
Proof. intros [] C. constructor; auto. Qed.
Lemma frozen_finish k s0 s id got : Frozen k s0 s -> Forall reply_wf got -> Forall (fun g => forall c, reply_field k c g = None) got -> Frozen k s0 (finish id got s).
Proof.
  intros [] W N. unfold finish. constructor; cbn [s_lu s_ups with_ups]; auto.
  - now apply merge_nonempty.
  - now apply merge_replies_err.
  - intro c. unfold shown in *. cbn [s_lu]. rewrite merge_replies_field by exact W.
    assert (L : latest k c got = None). { clear - N. induction N as [|g l H _ IH]; [reflexivity|]. cbn. now rewrite IH. }
    rewrite L. apply fr_same0.
Qed.
Lemma frozen_step k s0 s e : k <> "system" -> Frozen k s0 s -> Frozen k s0 (step s e).
Proof.
  intros Hk I. destruct e as [id|ok|id|w]; cbn [step].
  - destruct (under_way id (s_ups s)); [exact I|]. destruct (s_lu s) eqn:E; [destruct (fr_lu _ _ _ I E)|]. clear E.
    unfold start. destruct (plan s) as [rs|] eqn:E; [|exact I]. apply frozen_ups; [exact I|]. intros j q H.
    apply in_app_iff in H as [H|[H|[]]]; [exact (fr_ups _ _ _ I _ _ H)|]. injection H as <- <-.
    exists rs, []. split; [reflexivity|]. split; [exact (plan_good _ _ (fr_ord _ _ _ I) E)|]. split; [|split; constructor].
    apply Forall_forall. exact (plan_skips _ _ _ (fr_ord _ _ _ I) E Hk (fr_err _ _ _ I)).
  - destruct (s_ups s) as [|[id p] rest] eqn:L; [exact I|].
    assert (J : Frozen k s0 (with_ups s rest)) by (apply frozen_ups; [exact I|]; intros j q H; apply (fr_ups _ _ _ I j q); rewrite L; right; exact H).
    destruct ok; cbn [negb]; [|exact J].
    assert (Hi : In (id, p) (s_ups s)) by (rewrite L; left; reflexivity).
    destruct (fr_ups _ _ _ I id p Hi) as (todo & got & -> & Gt & Nt & Wg & Ng).
    destruct todo as [|r todo]; [now apply frozen_finish|].
    inversion Gt as [|? ? Gr Gt']; subst. inversion Nt as [|? ? Nr Nt']; subst.
    assert (W : Forall reply_wf (got ++ [reply_to (s_world s) r])) by (apply Forall_app; split; [exact Wg|]; constructor; [now apply reply_ok|constructor]).
    assert (N : Forall (fun g => forall c, reply_field k c g = None) (got ++ [reply_to (s_world s) r])) by (apply Forall_app; split; [exact Ng|]; constructor; [now apply skipped_reply|constructor]).
    destruct todo as [|r2 todo]; [now apply frozen_finish|]. apply frozen_ups; [exact J|]. intros j q H.
    apply in_app_iff in H as [H|[H|[]]]; [apply (fr_ups _ _ _ I j q); rewrite L; right; exact H|]. injection H as <- <-. eexists _, _. split; [reflexivity|]. auto.
  - apply frozen_ups; [exact I|]. intros j q H. apply In_remove in H. exact (fr_ups _ _ _ I _ _ H).
  - destruct I. constructor; auto.
Qed.
Lemma frozen_run k s0 es : forall s, k <> "system" -> Frozen k s0 s -> Frozen k s0 (run s es).
Proof. induction es; intros s Hk I; [exact I|]. cbn. apply IHes; [exact Hk|]. now apply frozen_step. Qed.

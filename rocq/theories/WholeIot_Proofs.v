(** Proofs for [WholeIot_Props]. *)
From Coq Require Import Lia.
From Verif Require Import Base Base_Lemmas Py Crypto_Model Retry_Model Iot_Model Iot_Spec Iot_Proofs Iot_Props.
From Verif Require IotUpd_Spec IotUpd_Proofs.
From Verif Require Import Factory_Model Stack_Spec IotUpd_Model WholeIot_Model WholeIot_Spec.
Open Scope string_scope.
Open Scope list_scope.
Open Scope Z_scope.

(** ** Programs and lists of queries *)
Section Follow.
Context {R : Type}.
Variable dumps : json -> bytes.
Inductive ileads : iprog R -> list (bytes * Z) -> list (list act * res json) -> R -> Prop :=
| ileads_ret r : ileads (IRet r) [] [] r
| ileads_query q k qs rs tr a r : ileads (k a) qs rs r -> ileads (IQuery q k) ((dumps q, 3) :: qs) ((tr, a) :: rs) r.
Lemma iperform_leads {D} (send : D -> bytes -> D * res json) treset p : forall d d' r,
  iperform dumps send treset p d = (d', r) -> exists qs rs, iot_all send treset d qs = (d', rs) /\ ileads p qs rs r.
Proof.
  induction p as [r0|q k IH]; intros d d' r H; cbn [iperform] in H.
  - injection H as <- <-. exists [], []. split; [reflexivity|constructor].
  - destruct (iot_query (fun d => send d (dumps q)) treset 3 d) as [[d1 tr] a] eqn:E. destruct (IH a _ _ _ H) as (qs & rs & H1 & H2).
    exists ((dumps q, 3) :: qs), ((tr, a) :: rs). split; [|now constructor]. cbn [iot_all]. now rewrite E, H1.
Qed.
Lemma ileads_perform {D} (send : D -> bytes -> D * res json) treset p qs rs r : ileads p qs rs r ->
  forall d d', iot_all send treset d qs = (d', rs) -> iperform dumps send treset p d = (d', r).
Proof.
  induction 1 as [r|q k qs rs tr a r H IH]; intros d d' E; cbn [iot_all iperform] in *.
  - now injection E as <-.
  - destruct (iot_query (fun d => send d (dumps q)) treset 3 d) as [[d1 tr1] a1]. destruct (iot_all send treset d1 qs) as [d2 rs2] eqn:E2.
    injection E as <- <- <- <-. now apply IH.
Qed.
Lemma iperform_transfer {D E} (one : D -> bytes -> D * res json) ra (two : E -> bytes -> E * res json) rb (d d' : D) (e : E) (Q : E -> Prop) (p : iprog R) r :
  iperform dumps one ra p d = (d', r) ->
  (forall qs rs, iot_all one ra d qs = (d', rs) -> exists e', iot_all two rb e qs = (e', rs) /\ Q e') ->
  exists e', iperform dumps two rb p e = (e', r) /\ Q e'.
Proof.
  intros H G. destruct (iperform_leads _ _ _ _ _ _ H) as (qs & rs & H1 & H2). destruct (G _ _ H1) as (e' & H3 & H4).
  exists e'. split; [|exact H4]. exact (ileads_perform _ _ _ _ _ _ H2 _ _ H3).
Qed.
End Follow.

(** A query that is answered at once *)
Lemma iot_query_ok {D} (exec : D -> D * res json) treset d d' j : exec d = (d', Ok j) -> iot_query exec treset 3 d = (d', [Exec], Ok j).
Proof. intros H. unfold iot_query. change (Z.to_nat (3 + 1)) with 4%nat. cbn [iot_loop]. now rewrite H. Qed.

(** ** Requests *)
Definition sys_of (o : lobj) (w : device) : sys := mkSys (l_lu o) (l_mods o) (l_limit o) w [] [].
Definition the_plan (o : lobj) : res (list json) :=
  requests (l_limit o) base (map (fun m => mkImod (supported m (l_lu o)) (m_size m) (query_of m)) (l_mods o)).
Lemma plan_sys o w : plan (sys_of o w) = the_plan o. Proof. reflexivity. Qed.
Lemma ordinary_sys o w : ordinary (l_mods o) -> IotUpd_Spec.ordinary (sys_of o w).
Proof. intros H m Hm. destruct (H m Hm) as (H1 & _ & H2). now split. Qed.
Lemma supported_wants o m : m_cmds m <> [] -> (supported m (l_lu o) = true <-> shows o (m_name m) "err_code" = None).
Proof. intros N. unfold supported. destruct (m_cmds m); [congruence|]. apply IotUpd_Proofs.no_error_supported. Qed.
Lemma wants_asked o w k c : wants o k c -> IotUpd_Spec.asked (sys_of o w) k c.
Proof.
  intros [H|(m & H1 & H2 & H3 & H4)]; [left; exact H|right]. exists m. repeat (split; [assumption|]).
  apply supported_wants; [intros E; rewrite E in H3; destruct H3|]. now rewrite H2.
Qed.

(** every value inside is a dictionary *)
Definition alld (j : json) : Prop := forall p v, at_keys p j = Some v -> is_dict v.
Lemma alld_nil : alld (JObj []).
Proof. intros [|k p] v H; cbn in H; [injection H as <-; eexists; reflexivity|discriminate]. Qed.
Lemma alld_base : alld base.
Proof.
  unfold base, create_request. intros [|k p] v H; cbn [at_keys dget] in H; [injection H as <-; eexists; reflexivity|].
  destruct (String.eqb k "system"); [|discriminate]. destruct p as [|k2 p]; cbn [at_keys dget] in H; [injection H as <-; eexists; reflexivity|].
  destruct (String.eqb k2 "get_sysinfo"); [|discriminate]. exact (alld_nil _ _ H).
Qed.
Lemma query_at m p v : at_keys p (query_of m) = Some v -> is_dict v /\
  (p <> [] -> m_cmds m <> [] /\ exists q, p = m_name m :: q /\ (q <> [] -> exists c, q = [c] /\ In c (m_cmds m))).
Proof.
  unfold query_of. destruct (m_cmds m) as [|c0 cs] eqn:E.
  - intros H. split; [exact (alld_nil _ _ H)|]. intros N. destruct p; [congruence|discriminate].
  - rewrite <- E. destruct p as [|k p]; cbn [at_keys dget]; [intros H; split; [injection H as <-; eexists; reflexivity|congruence]|].
    destruct (String.eqb_spec k (m_name m)) as [->|]; [|discriminate]. destruct p as [|c p]; cbn [at_keys].
    + intros H; split; [injection H as <-; eexists; reflexivity|]. intros _. split; [congruence|]. exists []. split; [reflexivity|congruence].
    + destruct (dget c (map (fun c => (c, JObj [])) (m_cmds m))) as [x|] eqn:G; [|discriminate].
      apply dget_In in G. apply in_map_iff in G as (c' & G & I). injection G as -> <-.
      destruct p as [|a p]; cbn [at_keys dget]; [|discriminate]. intros H; injection H as <-. split; [eexists; reflexivity|].
      intros _. split; [congruence|]. exists [c]. split; [reflexivity|]. intros _. now exists c.
Qed.
Lemma alld_merge a q b : jwf q -> alld a -> alld q -> merge a q = Ok b -> alld b.
Proof.
  intros W A Q H p v E. destruct (merge_only p a q b v W H E) as (P & N).
  assert (D : is_dict v \/ ~ is_dict v) by (destruct v; [right|right|right|right|right|right|left]; try (intros [x X]; discriminate); eexists; reflexivity).
  destruct D as [D|D]; [exact D|]. destruct (N D) as [X|X]; [exact (Q _ _ X)|exact (A _ _ X)].
Qed.
Lemma alld_query m : alld (query_of m). Proof. intros p v H. now destruct (query_at _ _ _ H). Qed.
Lemma merge_ok a q : jwf q -> is_dict a -> is_dict q -> alld a -> alld q -> exists b, merge a q = Ok b /\ alld b /\ is_dict b.
Proof.
  intros W Da Dq A Q. destruct (merge_total q a W Dq Da) as (b & H & D).
  - intros p va vb Ha Hb. left. split; [exact (A _ _ Ha)|exact (Q _ _ Hb)].
  - exists b. split; [exact H|]. split; [exact (alld_merge _ _ _ W A Q H)|exact D].
Qed.
Lemma query_dict m : is_dict (query_of m).
Proof. unfold query_of. destruct (m_cmds m); eexists; reflexivity. Qed.
Lemma split_ok limit (lu : dict (dict json)) l : ordinary l -> forall req est out, alld req -> is_dict req ->
  exists rs, split limit (map (fun m => mkImod (supported m lu) (m_size m) (query_of m)) l) req est out = Ok rs.
Proof.
  induction l as [|m l IH]; intros O req est out A D; cbn [map split]; [eexists; reflexivity|].
  assert (Ol : ordinary l) by (intros x Hx; apply O; now right).
  cbn [i_supported i_size i_query]. destruct (supported m lu); [|now apply IH].
  destruct (O m (or_introl eq_refl)) as (O1 & _ & O2). destruct (IotUpd_Proofs.good_query m O1 O2) as (W & _).
  destruct (limit <? est + m_size m).
  - destruct (merge_ok (JObj []) (query_of m) W (ex_intro _ _ eq_refl) (query_dict m) alld_nil (alld_query m)) as (b & -> & B & Db). cbn [bind]. now apply IH.
  - destruct (merge_ok req (query_of m) W D (query_dict m) A (alld_query m)) as (b & -> & B & Db). cbn [bind]. now apply IH.
Qed.
Lemma plan_total o : ordinary (l_mods o) -> exists rs, the_plan o = Ok rs.
Proof.
  intros O. unfold the_plan, requests.
  destruct (split_ok (l_limit o) (l_lu o) (l_mods o) O base (match jcontains "system" base with Ok true => 1024 | _ => 0 end) [] alld_base) as (rs & E).
  - eexists; reflexivity.
  - rewrite E. eexists; reflexivity.
Qed.

(** what is in the requests is wanted *)
Lemma merged_only l : forall a b p, merged a l b -> (forall m, In m l -> jwf (i_query m)) -> present p b ->
  present p a \/ exists m, In m l /\ present p (i_query m).
Proof.
  induction l as [|m l IH]; intros a b p H W P; inversion H; subst; [now left|].
  destruct (IH _ _ p H5 (fun x Hx => W x (or_intror Hx)) P) as [X|(x & Hx & X)]; [|right; exists x; split; [now right|exact X]].
  unfold present in X. destruct (at_keys p b0) as [v|] eqn:E; [|congruence].
  destruct (merge_only p _ _ _ _ (W m (or_introl eq_refl)) H3 E) as ([Y|Y] & _); [right; exists m; split; [now left|exact Y]|now left].
Qed.
Lemma plan_only o rs r k : ordinary (l_mods o) -> the_plan o = Ok rs -> In r rs ->
  (present [k] r -> exists c, wants o k c) /\ (forall c, present [k; c] r -> wants o k c).
Proof.
  intros O H Hr. unfold the_plan in H.
  destruct (requests_split _ _ _ _ (ex_intro _ _ eq_refl) H) as (g & gs & b & bs & est & _ & _ & E & -> & Hg & Hgs & _).
  set (ms := map (fun m => mkImod (supported m (l_lu o)) (m_size m) (query_of m)) (l_mods o)) in *.
  assert (Q : forall m, In m (g ++ concat gs) -> jwf (i_query m) /\ forall p, present p (i_query m) -> p <> [] ->
    exists k, (exists c, wants o k c) /\ (p = [k] \/ exists c, p = [k; c] /\ wants o k c)).
  { intros m Hm. rewrite E in Hm. apply filter_In in Hm as [Hm Hs]. apply in_map_iff in Hm as (x & <- & Hx). cbn [i_query i_supported] in *.
    destruct (O x Hx) as (O1 & _ & O2). destruct (IotUpd_Proofs.good_query x O1 O2) as (W & _). split; [exact W|].
    intros p P N. unfold present in P. destruct (at_keys p (query_of x)) as [v|] eqn:A; [|congruence].
    destruct (query_at _ _ _ A) as (_ & G). destruct (G N) as (C & q & -> & G2). exists (m_name x).
    assert (S : shows o (m_name x) "err_code" = None) by now apply supported_wants.
    assert (V : forall c, In c (m_cmds x) -> wants o (m_name x) c) by (intros c Hc; right; exists x; auto).
    split; [destruct (m_cmds x) as [|c0 cs]; [congruence|exists c0; apply V; now left]|].
    destruct q as [|c q]; [now left|right]. destruct (G2 ltac:(discriminate)) as (c' & Eq & I). injection Eq as -> ->. exists c'. split; [reflexivity|now apply V]. }
  assert (B : forall p, present p base -> p <> [] -> p = ["system"] \/ p = ["system"; "get_sysinfo"]).
  { intros p P N. unfold present, base, create_request in P. destruct p as [|a p]; [congruence|]. cbn [at_keys dget] in P.
    destruct (String.eqb_spec a "system") as [->|]; [|congruence]. destruct p as [|c p]; [now left|]. cbn [at_keys dget] in P.
    destruct (String.eqb_spec c "get_sysinfo") as [->|]; [|congruence]. destruct p; [now right|]. cbn in P. congruence. }
  assert (G : exists a l, merged a l r /\ (a = base \/ a = JObj []) /\ forall m, In m l -> In m (g ++ concat gs)).
  { apply filter_In in Hr as [[<-|Hr] _]; [exists base, g; split; [exact Hg|]; split; [now left|]; intros m Hm; apply in_app_iff; now left|].
    destruct (In_nth_error _ _ Hr) as (n & Hn). clear - Hgs Hr. exists (JObj []).
    assert (X : exists l, In l gs /\ merged (JObj []) l r).
    { induction Hgs as [|l b' gs bs H1 _ IH]; [destruct Hr|]. destruct Hr as [<-|Hr]; [exists l; split; [now left|exact H1]|].
      destruct (IH Hr) as (l' & I & M). exists l'. split; [now right|exact M]. }
    destruct X as (l & I & M). exists l. split; [exact M|]. split; [now right|]. intros m Hm. apply in_app_iff. right. apply in_concat. eauto. }
  destruct G as (a & l & M & Ha & Hl).
  assert (T : forall p, present p r -> p <> [] -> exists k, (exists c, wants o k c) /\ (p = [k] \/ exists c, p = [k; c] /\ wants o k c)).
  { intros p P N. destruct (merged_only _ _ _ _ M (fun m Hm => proj1 (Q m (Hl m Hm))) P) as [X|(m & Hm & X)].
    - destruct Ha as [-> | ->].
      + exists "system". assert (Ws : wants o "system" "get_sysinfo") by (left; split; reflexivity). split; [now exists "get_sysinfo"|].
        destruct (B p X N) as [-> | ->]; [now left|right; now exists "get_sysinfo"].
      + destruct p; [congruence|]. exfalso. now apply X.
    - exact (proj2 (Q m (Hl m Hm)) p X N). }
  split.
  - intros P. destruct (T _ P ltac:(discriminate)) as (k' & W & [X|(c & X & _)]); [injection X as ->; exact W|discriminate X].
  - intros c P. destruct (T _ P ltac:(discriminate)) as (k' & W & [X|(c' & X & Y)]); [discriminate X|]. injection X as -> ->. exact Y.
Qed.
Lemma plan_questions o rs : ordinary (l_mods o) -> the_plan o = Ok rs -> Forall IotUpd_Proofs.good rs /\ Forall question rs.
Proof.
  intros O H. pose proof (IotUpd_Proofs.plan_good (sys_of o (fun _ => None)) rs (ordinary_sys _ _ O) H) as G. split; [exact G|].
  rewrite Forall_forall in G |- *. intros r Hr. destruct (G r Hr) as (W & S & N). split; [exact W|]. split; [exact S|]. intros k. split; [apply N|].
  intros P. destruct (proj2 (plan_only o rs r k O H Hr) _ P) as [[_ X]|(m & Hm & _ & Hc & _)]; [discriminate X|].
  destruct (O m Hm) as (_ & X & _). now apply X.
Qed.

Lemma plan_within o rs : ordinary (l_mods o) -> the_plan o = Ok rs -> Forall (within (l_mods o)) rs.
Proof.
  intros O H. apply Forall_forall. intros r Hr k P. destruct (plan_only o rs r k O H Hr) as [P1 P2]. split.
  - destruct (P1 P) as (c & [[-> _]|(m & Hm & Hn & _)]); [now left|right; now exists m].
  - intros c Pc. destruct (P2 c Pc) as [X|(m & Hm & Hn & Hc & _)]; [now left|right; now exists m].
Qed.

(** ** Replies *)
Section Replies.
Variable w : device.
Variable rs : list json.
Hypothesis Hgood : Forall IotUpd_Proofs.good rs.
Let got := map (reply_to w) rs.
Lemma got_wf : Forall reply_wf got.
Proof. apply Forall_map. eapply Forall_impl; [|exact Hgood]. intros r. apply IotUpd_Proofs.reply_ok. Qed.
Lemma latest_only k c : latest k c got = None \/ exists r, In r rs /\ latest k c got = reply_field k c (reply_to w r).
Proof.
  unfold got. clear Hgood. induction rs as [|r l IH]; [now left|]. cbn [map latest].
  destruct (latest k c (map (reply_to w) l)) as [v|] eqn:E.
  - right. destruct IH as [X|(r' & I & X)]; [discriminate X|]. exists r'. split; [now right|exact X].
  - right. exists r. split; [now left|reflexivity].
Qed.
Lemma latest_some k c r v : In r rs -> reply_field k c (reply_to w r) = Some v -> latest k c got <> None.
Proof.
  unfold got. clear Hgood. induction rs as [|r0 l IH]; intros I H; [destruct I|]. cbn [map latest]. destruct I as [->|I].
  - rewrite H. destruct (latest k c (map (reply_to w) l)); discriminate.
  - specialize (IH I H). destruct (latest k c (map (reply_to w) l)); congruence.
Qed.
Lemma present_dec p r : present p r \/ ~ present p r.
Proof. unfold present. destruct (at_keys p r); [left; discriminate|right; congruence]. Qed.
Lemma latest_known k f c : w k = Some f ->
  ((exists r, In r rs /\ present [k; c] r) -> latest k c got = Some (f c)) /\
  ((forall r, In r rs -> ~ present [k; c] r) -> latest k c got = None).
Proof.
  intros Hw. rewrite Forall_forall in Hgood. split.
  - intros (r & I & P). destruct (IotUpd_Proofs.reply_field_ok w r k f c Hw (Hgood r I)) as [H _].
    pose proof (latest_some k c r _ I (H P)) as S. destruct (latest_only k c) as [X|(r' & I' & X)]; [congruence|].
    rewrite X in *. destruct (IotUpd_Proofs.reply_field_ok w r' k f c Hw (Hgood r' I')) as [H1 H2].
    destruct (present_dec [k; c] r') as [Y|Y]; [now apply H1|]. rewrite (H2 Y) in S. congruence.
  - intros N. destruct (latest_only k c) as [X|(r' & I' & X)]; [exact X|]. rewrite X.
    destruct (IotUpd_Proofs.reply_field_ok w r' k f c Hw (Hgood r' I')) as [_ H2]. apply H2. now apply N.
Qed.
Definition the_error : dict json := [("err_code", JInt (-1)); ("err_msg", JStr "module not support")].
Lemma reply_field_none r k c : w k = None -> IotUpd_Proofs.good r ->
  (present [k] r -> reply_field k c (reply_to w r) = dget c the_error) /\ (~ present [k] r -> reply_field k c (reply_to w r) = None).
Proof.
  intros Hw (_ & (d & -> & S) & _). unfold reply_field, present. cbn [reply_to]. rewrite (IotUpd_Proofs.dget_map (fun k v => answer_of (w k) v)). cbn [at_keys].
  destruct (dget k d) as [v|] eqn:E; cbn [option_map]; [|split; [congruence|reflexivity]].
  unfold answer_of. rewrite Hw. split; [reflexivity|]. intros X. exfalso. apply X. discriminate.
Qed.
Lemma latest_unknown k c : w k = None ->
  ((exists r, In r rs /\ present [k] r) -> latest k c got = dget c the_error) /\
  ((forall r, In r rs -> ~ present [k] r) -> latest k c got = None).
Proof.
  intros Hw. rewrite Forall_forall in Hgood. split.
  - intros (r & I & P). destruct (reply_field_none r k c Hw (Hgood r I)) as [H _]. specialize (H P).
    destruct (latest_only k c) as [X|(r' & I' & X)].
    + rewrite X. destruct (dget c the_error) as [v|]; [|reflexivity]. exfalso. exact (latest_some k c r v I H X).
    + rewrite X. destruct (reply_field_none r' k c Hw (Hgood r' I')) as [H1 H2].
      destruct (present_dec [k] r') as [Y|Y]; [now apply H1|]. rewrite (H2 Y) in *.
      destruct (dget c the_error) as [v|]; [|reflexivity]. exfalso. exact (latest_some k c r v I H X).
  - intros N. destruct (latest_only k c) as [X|(r' & I' & X)]; [exact X|]. rewrite X.
    destruct (reply_field_none r' k c Hw (Hgood r' I')) as [_ H2]. apply H2. now apply N.
Qed.
End Replies.

Lemma merged_refreshed w o o' rs : ordinary (l_mods o) -> the_plan o = Ok rs ->
  l_mods o' = l_mods o -> l_limit o' = l_limit o -> l_lu o' = merge_replies (l_lu o) (map (reply_to w) rs) -> refreshed w o o'.
Proof.
  intros O H M L U. split; [exact M|]. split; [exact L|]. intros k. destruct (plan_questions o rs O H) as [G _].
  assert (F : forall c, shows o' k c = match latest k c (map (reply_to w) rs) with Some v => Some v | None => shows o k c end).
  { intros c. unfold shows. rewrite U. apply merge_replies_field. now apply got_wf. }
  assert (A : forall c, wants o k c -> exists r, In r rs /\ present [k; c] r).
  { intros c W. exact (IotUpd_Proofs.plan_asks (sys_of o w) rs k c (ordinary_sys _ _ O) H (wants_asked _ _ _ _ W)). }
  destruct (w k) as [f|] eqn:E.
  - intros c. rewrite F. destruct (latest_known w rs G k f c E) as [H1 H2]. split.
    + intros W. now rewrite (H1 (A c W)).
    + intros W. rewrite H2; [reflexivity|]. intros r Hr P. apply W. exact (proj2 (plan_only o rs r k O H Hr) c P).
  - assert (P1 : forall r c, present [k; c] r -> present [k] r).
    { intros r c P. unfold present in *. cbn [at_keys] in *. destruct r; try congruence. destruct (dget k d); congruence. }
    split; [|split].
    + intros c N1 N2. rewrite F. destruct (latest_unknown w rs G k c E) as [H1 H2].
      assert (Z : latest k c (map (reply_to w) rs) = None); [|now rewrite Z].
      destruct (existsb (fun r => match at_keys [k] r with Some _ => true | None => false end) rs) eqn:X.
      * apply existsb_exists in X as (r & I & X). rewrite H1.
        -- cbn [the_error dget]. destruct (String.eqb_spec c "err_code"); [congruence|]. destruct (String.eqb_spec c "err_msg"); [congruence|reflexivity].
        -- exists r. split; [exact I|]. unfold present. destruct (at_keys [k] r); [discriminate|congruence].
      * apply H2. intros r I P. assert (Y : existsb (fun r => match at_keys [k] r with Some _ => true | None => false end) rs = true); [|congruence].
        apply existsb_exists. exists r. split; [exact I|]. unfold present in P. destruct (at_keys [k] r); congruence.
    + intros (c & W). destruct (A c W) as (r & I & P). apply P1 in P.
      split; rewrite F; [rewrite (proj1 (latest_unknown w rs G k "err_code" E) (ex_intro _ r (conj I P)))|rewrite (proj1 (latest_unknown w rs G k "err_msg" E) (ex_intro _ r (conj I P)))]; reflexivity.
    + intros N c. rewrite F, (proj2 (latest_unknown w rs G k c E)); [reflexivity|]. intros r I P.
      destruct (proj1 (plan_only o rs r k O H I) P) as (c' & W). exact (N c' W).
Qed.

(** ** Updates *)
Section Direct.
Context {D : Type}.
Variable dumps : json -> bytes.
Variable send : D -> bytes -> D * res json.
Variable treset : D -> D.
Variable facts : D -> device.
Variable mods : list imodule.
Hypothesis Htells : tells mods dumps send facts.
Lemma ask_tells {R} q (k : res json -> iprog R) d out : question q -> within mods q -> iperform dumps send treset (IQuery q k) d = out ->
  exists d1, facts d1 = facts d /\ iperform dumps send treset (k (Ok (JObj (reply_to (facts d) q)))) d1 = out.
Proof.
  intros Q B H. destruct (Htells d q Q B) as (d1 & E & F). cbn [iperform] in H.
  rewrite (iot_query_ok (fun d => send d (dumps q)) treset d d1 _ E) in H. now exists d1.
Qed.
Lemma gather_tells {R} rs : forall got (k : res (list json) -> iprog R) d out, Forall question rs -> Forall (within mods) rs -> iperform dumps send treset (gather rs got k) d = out ->
  exists d1, facts d1 = facts d /\ iperform dumps send treset (k (Ok (got ++ map (fun r => JObj (reply_to (facts d) r)) rs))) d1 = out.
Proof.
  induction rs as [|r rs IH]; intros got k d out Q B H; cbn [gather map] in *.
  - exists d. rewrite app_nil_r. now split.
  - pose proof (Forall_inv Q) as Q1. pose proof (Forall_inv_tail Q) as Q2. destruct (ask_tells _ _ _ _ Q1 (Forall_inv B) H) as (d1 & F1 & H1). cbn in H1.
    destruct (IH _ _ _ _ Q2 (Forall_inv_tail B) H1) as (d2 & F2 & H2). exists d2. split; [congruence|]. rewrite F1 in H2.
    rewrite <- app_assoc in H2. exact H2.
Qed.
Lemma dicts_ok l : dicts (map JObj l) = Ok l.
Proof. induction l as [|x l IH]; [reflexivity|]. cbn [map dicts]. now rewrite IH. Qed.
Lemma dget_as_json k u : dget k (map (fun kv : string * dict json => (fst kv, JObj (snd kv))) u) = option_map JObj (dget k u).
Proof. exact (IotUpd_Proofs.dget_map (fun _ (v : dict json) => JObj v) k u). Qed.
Lemma extract_ok u s : field "system" "get_sysinfo" u = Some (JObj s) -> dget "system" s = None -> extract_sys_info (as_json u) = Ok (JObj s).
Proof.
  unfold field, extract_sys_info, as_json, jget_or_empty. intros H N. rewrite dget_as_json. destruct (dget "system" u) as [d|]; [|discriminate].
  cbn [option_map bind]. rewrite H. cbn [bind]. rewrite N. cbn [bind jlen List.length]. destruct (List.length s); reflexivity.
Qed.
Lemma modular_tells {R} o (k : lobj * res unit -> iprog R) d out : l_mods o = mods -> ordinary (l_mods o) ->
  iperform dumps send treset (modular o k) d = out ->
  exists d1 o1 r, facts d1 = facts d /\ refreshed (facts d) o o1 /\
    (forall s, informs (facts d) s -> r = Ok tt /\ l_sys o1 = Some (JObj s)) /\
    iperform dumps send treset (k (o1, r)) d1 = out.
Proof.
  intros Em O H. destruct (plan_total o O) as (rs & P). destruct (plan_questions o rs O P) as [_ Q]. pose proof (plan_within o rs O P) as B. rewrite Em in B.
  unfold modular in H. fold (the_plan o) in H. rewrite P in H. destruct (gather_tells _ _ _ _ _ Q B H) as (d1 & F & H1). clear H.
  cbn [List.app] in H1. rewrite <- (map_map (reply_to (facts d)) JObj) in H1. cbn [bind] in H1. rewrite dicts_ok in H1.
  set (o1 := set_lu (merge_replies (l_lu o) (map (reply_to (facts d)) rs)) o) in *. cbv zeta in H1.
  assert (R1 : refreshed (facts d) o o1) by (apply (merged_refreshed _ _ _ rs); auto).
  unfold with_sys in H1.
  assert (S : forall s, informs (facts d) s -> extract_sys_info (as_json (l_lu o1)) = Ok (JObj s)).
  { intros s (f & Hf & Hs & N). apply extract_ok; [|exact N]. destruct R1 as (_ & _ & R1). specialize (R1 "system"). rewrite Hf in R1.
    rewrite <- Hs. apply (R1 "get_sysinfo"). left. now split. }
  destruct (extract_sys_info (as_json (l_lu o1))) as [s|e] eqn:E.
  - exists d1, (set_sys s o1), (Ok tt). split; [exact F|]. split; [exact R1|]. split; [|exact H1]. intros s' Hs. specialize (S s' Hs). split; [reflexivity|]. cbn. congruence.
  - exists d1, o1, (Err e). split; [exact F|]. split; [exact R1|]. split; [|exact H1]. intros s' Hs. specialize (S s' Hs). discriminate S.
Qed.
Lemma base_question : question base.
Proof.
  destruct IotUpd_Proofs.good_base as (W & S & N). split; [exact W|]. split; [exact S|]. intros k. split; [apply N|].
  unfold present, base, create_request. cbn [at_keys dget]. destruct (String.eqb k "system"); [|congruence]. cbn [at_keys dget]. 
  destruct (String.eqb_spec "err_msg" "get_sysinfo") as [X|]; [discriminate X|congruence].
Qed.
Lemma base_within : within mods base.
Proof.
  intros k P. assert (E : k = "system"). { unfold present, base, create_request in P. cbn [at_keys dget] in P. destruct (String.eqb_spec k "system") as [E|]; [exact E|congruence]. }
  rewrite E. clear E P.
  split; [now left|]. intros c Pc. left. split; [reflexivity|]. unfold present, base, create_request in Pc. cbn [at_keys dget] in Pc.
  change (String.eqb "system" "system") with true in Pc. cbn [at_keys dget] in Pc. destruct (String.eqb_spec c "get_sysinfo") as [E|]; [exact E|congruence].
Qed.
Lemma first_tells {R} init o (k : lobj * res unit -> iprog R) d out s : l_lu o = [] -> informs (facts d) s ->
  iperform dumps send treset (update_legacy init o k) d = out ->
  exists d1, facts d1 = facts d /\ iperform dumps send treset (modular (informed o (modules_then init o (JObj s)) (JObj s)) k) d1 = out.
Proof.
  intros L (f & Hf & Hs & N) H. unfold update_legacy in H. rewrite L in H. destruct (ask_tells _ _ _ _ base_question base_within H) as (d1 & F & H1).
  exists d1. split; [exact F|]. unfold base, create_request in H1. cbn [reply_to map fst snd] in H1. rewrite Hf in H1. cbn [answer_of map fst snd] in H1. rewrite Hs in H1.
  cbv zeta in H1.
  assert (X : extract_sys_info (JObj [("system", JObj [("get_sysinfo", JObj s)])]) = Ok (JObj s)).
  { exact (extract_ok [("system", [("get_sysinfo", JObj s)])] s eq_refl N). }
  rewrite X in H1. unfold informed, modules_then. unfold ready, set_sys in H1. cbn [l_mods l_sys set_lu] in H1. destruct (l_mods o) as [|m l] eqn:M; [exact H1|].
  exact H1.
Qed.
End Direct.

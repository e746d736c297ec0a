(** C166: what a camera is called through its life. *)
From Verif Require Import Base Py Base_Lemmas Factory_Model Setup_Props DevType_Model DevType_Props Name_Model Name_Spec Name_Props CamName_Model CamName_Spec.
Open Scope string_scope.
Open Scope list_scope.

(** ** The renamed info *)
Lemma named_from k k' : In k' ["alias"; "device_type"] -> new_name cam_keys k = k' -> (k = "device_alias" /\ k' = "alias") \/ k = k'.
Proof.
  intros I. unfold new_name, cam_keys. cbn [dget]. intros E.
  repeat match type of E with context [String.eqb k ?x] => destruct (String.eqb_spec k x) as [->|] end;
    destruct I as [<-|[<-|[]]]; try discriminate E; auto.
Qed.
Lemma named_from_kid k k' : In k' ["alias"; "device_type"] -> new_name cam_child_keys k = k' -> k = k'.
Proof.
  intros I. unfold new_name, cam_child_keys. cbn [dget]. intros E.
  repeat match type of E with context [String.eqb k ?x] => destruct (String.eqb_spec k x) as [->|] end;
    destruct I as [<-|[<-|[]]]; try discriminate E; auto.
Qed.
Lemma renamed_none (names : dict string) (d : dict string) k : (forall k0, In k0 (dkeys d) -> new_name names k0 <> k) -> dget k (renamed names d) = None.
Proof.
  intros N. unfold renamed. rewrite renamed_acc. cbn [dget].
  enough (E : dget k (map (fun kv : string * string => (new_name names (fst kv), snd kv)) (rev d)) = None) by (rewrite E; reflexivity).
  apply dget_None. unfold dkeys. rewrite map_map. cbn [fst]. intros I. apply in_map_iff in I. destruct I as ((k0 & v) & E & I). cbn [fst] in E.
  apply in_rev in I. apply (N k0); [|exact E]. apply (in_map fst _ _ I).
Qed.
Lemma type_kept (b : dict string) f : dwf b -> dget "device_type" b = Some f -> dget "device_type" (renamed cam_keys b) = Some f.
Proof.
  intros W H. apply (dget_renamed_in string cam_keys "device_type" f b W H). intros k' _ E.
  destruct (named_from k' "device_type" (or_intror (or_introl eq_refl)) E) as [(_ & X)|X]; [discriminate X|exact X].
Qed.
Lemma alias_kept (b : dict string) : dwf b -> dget "alias" b = None -> dget "alias" (renamed cam_keys b) = dget "device_alias" b.
Proof.
  intros W N. apply dget_None in N. destruct (dget "device_alias" b) as [a|] eqn:E.
  - apply (dget_renamed_in string cam_keys "device_alias" a b W E). intros k' I X.
    destruct (named_from k' "alias" (or_introl eq_refl) X) as [(-> & _)| ->]; [reflexivity|contradiction].
  - apply renamed_none. intros k0 I X. destruct (named_from k0 "alias" (or_introl eq_refl) X) as [(-> & _)| ->]; [|contradiction].
    apply dget_None in E. contradiction.
Qed.
Lemma kid_type_kept (b : dict string) f : dwf b -> dget "device_type" b = Some f -> dget "device_type" (renamed cam_child_keys b) = Some f.
Proof.
  intros W H. apply (dget_renamed_in string cam_child_keys "device_type" f b W H). intros k' _ E. exact (named_from_kid k' "device_type" (or_intror (or_introl eq_refl)) E).
Qed.
Lemma kid_alias_kept (b : dict string) : dwf b -> dget "alias" (renamed cam_child_keys b) = dget "alias" b.
Proof.
  intros W. destruct (dget "alias" b) as [a|] eqn:E.
  - apply (dget_renamed_in string cam_child_keys "alias" a b W E). intros k' _ X. exact (named_from_kid k' "alias" (or_introl eq_refl) X).
  - apply renamed_none. intros k0 I X. apply (named_from_kid k0 "alias" (or_introl eq_refl)) in X. subst k0. apply dget_None in E. contradiction.
Qed.
Lemma model_gone (b : dict string) : dget "device_model" (renamed cam_child_keys b) = None.
Proof.
  apply renamed_none. intros k _. unfold new_name, cam_child_keys. cbn [dget].
  destruct (String.eqb_spec k "device_model") as [->|N]; [discriminate|].
  destruct (String.eqb_spec k "sw_ver"); [discriminate|]. destruct (String.eqb_spec k "hw_id"); [discriminate|exact N].
Qed.

(** ** The life of an object *)
Lemma crun_app s h h' : crun s (h ++ h') = crun (crun s h) h'.
Proof. apply fold_left_app. Qed.
Lemma clooks_same h : looks h -> forall s, same s (crun s h).
Proof. induction 1 as [|e h -> _ IH]; intros s; [repeat split|]. specialize (IH (clook s)). exact IH. Qed.
(** The type is unknown, or the one of the kind *)
Definition typed (f : string) (s : sdev) : Prop := s_type s = TUnknown \/ s_type s = cam_type_of (Some f).
Lemma clook_typed f s : typed f s -> (s_info s = [] \/ dget "device_type" (s_info s) = Some f) -> typed f (clook s).
Proof.
  intros Y I. unfold typed, clook. cbn [s_type]. unfold cam_type. destruct (is_unknown (s_type s)); cbn [andb]; [|exact Y].
  destruct I as [->|I]; [exact Y|]. destruct (s_info s) as [|x l]; [discriminate I|]. right. rewrite I. reflexivity.
Qed.
Lemma clooks_typed f h : looks h -> forall s, typed f s -> (s_info s = [] \/ dget "device_type" (s_info s) = Some f) -> typed f (crun s h).
Proof. induction 1 as [|e h -> _ IH]; intros s Y I; [exact Y|]. apply (IH (clook s)); [apply clook_typed; assumption|exact I]. Qed.

Definition cinv (s0 : sdev) (f : string) (s : sdev) : Prop :=
  s_tried s = true /\ s_ready s = true /\ s_disco s = s_disco s0 /\ dget "device_type" (s_info s) = Some f /\
  (exists i c, s_last s = Some (i, c)) /\ typed f s.
Lemma cinv_step s0 f s e : cinv s0 f s -> (forall b c, e = Update (Said b) c -> dwf b /\ dget "device_type" b = Some f) -> cinv s0 f (fst (cstep s e)).
Proof.
  intros (T & R & D & F & (i & c0 & L) & Y) O. destruct e as [[b|] c|x|]; cbn [cstep].
  - rewrite T. cbn [negb]. unfold crefresh. rewrite R, L. destruct (O b c eq_refl) as (W & K). unfold cinv. cbn. repeat split; auto.
    + apply type_kept; assumption.
    + exists (Said b), c0. reflexivity.
  - rewrite T. cbn [negb]. unfold crefresh. rewrite R, L. unfold cinv. cbn. repeat split; auto. exists Refused, c0. reflexivity.
  - rewrite T. cbn [negb]. unfold crefresh. rewrite R, L. unfold cinv. cbn. repeat split; auto. exists Refused, c0. reflexivity.
  - cbn [fst]. unfold cinv. repeat split; auto; [exists i, c0; exact L|]. apply clook_typed; [exact Y|right; exact F].
Qed.
Lemma cinv_run s0 f h : forall s, cinv s0 f s -> of_kind h f -> cinv s0 f (crun s h).
Proof.
  induction h as [|e h IH]; intros s I O; [exact I|]. apply (IH (fst (cstep s e))).
  - apply cinv_step; [exact I|]. intros b c ->. apply (O b c). left. reflexivity.
  - intros b c J. apply (O b c). right. exact J.
Qed.
Lemma starts_cam_fields s0 f : starts_cam s0 f -> s_tried s0 = false /\ s_ready s0 = false /\ s_last s0 = None /\ s_type s0 = TUnknown /\
  (s_info s0 = [] \/ dget "device_type" (s_info s0) = Some f).
Proof. intros [->|(d & m & r & -> & K & _)]; repeat split; [left; reflexivity|right; exact K]. Qed.
Lemma cinv_first s0 f h1 b0 comps : starts_cam s0 f -> looks h1 -> dwf b0 -> dget "device_type" b0 = Some f ->
  let s := crun s0 (h1 ++ [Update (Said b0) (Said comps)]) in cinv s0 f s /\ s_last s = Some (Said b0, Said comps) /\ s_info s = renamed cam_keys b0.
Proof.
  intros S L W K. destruct (starts_cam_fields s0 f S) as (T & _ & _ & Y & I). destruct (clooks_same h1 L s0) as (T1 & _ & _ & _ & D1 & _).
  cbv zeta. rewrite crun_app. cbn [crun fold_left cstep]. fold (crun s0 h1). rewrite <- T1, T. cbn [negb fst]. split; [|split; reflexivity].
  unfold cinv. cbn [s_tried s_ready s_disco s_info s_last s_type]. repeat split; eauto.
  - apply type_kept; assumption.
  - apply (clooks_typed f h1 L s0); [left; exact Y|exact I].
Qed.
(** The state right after the update in which the camera said [b] *)
Lemma cat_said s0 h1 c h2 b b0 comps f : starts_cam s0 f -> started (h1 ++ Update (Said b) c :: h2) b0 comps -> of_kind (h1 ++ Update (Said b) c :: h2) f ->
  (forall b' c', ~ In (Update (Said b') c') h2) ->
  let s := crun s0 (h1 ++ [Update (Said b) c]) in cinv s0 f s /\ (exists x, s_last s = Some (Said b, x)) /\ s_info s = renamed cam_keys b.
Proof.
  intros S (a & z & E & L) O N. cbv zeta. destruct (app_split _ _ _ _ _ _ _ E) as [(-> & X & ->)|[(l & -> & ->)|(l & -> & ->)]].
  - injection X as -> ->. destruct (O b0 (Said comps)) as (W & K); [apply in_or_app; right; left; reflexivity|].
    destruct (cinv_first s0 f a b0 comps S L W K) as (A & B & C). split; [exact A|split; [eexists; exact B|exact C]].
  - exfalso. unfold looks in L. rewrite Forall_forall in L. specialize (L (Update (Said b) c)). discriminate L. apply in_or_app. right. left. reflexivity.
  - destruct (O b0 (Said comps)) as (W & K); [apply in_or_app; left; apply in_or_app; right; left; reflexivity|].
    destruct (cinv_first s0 f a b0 comps S L W K) as (A & _ & _).
    assert (I : cinv s0 f (crun s0 (a ++ Update (Said b0) (Said comps) :: l))).
    { replace (a ++ Update (Said b0) (Said comps) :: l) with ((a ++ [Update (Said b0) (Said comps)]) ++ l) by (rewrite <- app_assoc; reflexivity).
      rewrite crun_app. apply cinv_run; [exact A|]. intros b' c' J. apply (O b' c'). apply in_or_app. left. apply in_or_app. right. right. exact J. }
    rewrite crun_app. set (s1 := crun s0 (a ++ Update (Said b0) (Said comps) :: l)) in *. clearbody s1.
    change (crun s1 [Update (Said b) c]) with (fst (cstep s1 (Update (Said b) c))).
    split; [apply cinv_step; [exact I|]; intros b' c' X; injection X as <- <-; apply (O b c); apply in_or_app; right; left; reflexivity|].
    destruct I as (T & R & _ & _ & (i & x & La) & _). cbn [cstep]. rewrite T. cbn [negb]. unfold crefresh. rewrite R, La. cbn. split; [eexists; reflexivity|reflexivity].
Qed.
Lemma cam_info_short b disc f m name : tells_cam b f m name -> exists i, cam_info b disc = Ok i /\ i_short i = m.
Proof.
  intros (_ & K & M & W & H & _). destruct (dget "sw_version" b) as [full|] eqn:Ef; [|contradiction]. destruct (dget "hw_version" b) as [hw|] eqn:Eh; [|contradiction].
  destruct (firmware full) as [v bl] eqn:Ev. apply firmware_versions in Ev.
  destruct (cam_device_info b disc m full v bl hw f M Ef Ev Eh K) as (t & _ & E & _). eexists. split; [exact E|reflexivity].
Qed.
Lemma decided_cam f : decided (cam_rules f) (cam_type_of (Some f)).
Proof. exact (proj2 (proj2 (cam_type_rules TUnknown [("device_type", f)])) f eq_refl). Qed.
Lemma final_type f s : typed f s -> dget "device_type" (s_info s) = Some f -> s_type (clook s) = cam_type_of (Some f).
Proof.
  intros Y I. unfold clook. cbn [s_type]. unfold cam_type. destruct Y as [->| ->].
  - destruct (s_info s) as [|x l]; [discriminate I|]. cbn [is_unknown andb]. rewrite I. reflexivity.
  - destruct (is_unknown (cam_type_of (Some f))); cbn [andb]; [|reflexivity]. destruct (s_info s) as [|x l]; [reflexivity|]. rewrite I. reflexivity.
Qed.

Section Text.
Variables (shown : dtype -> string) (host : string).
Definition or_none (name : option string) : string := match name with Some a => a | None => "None" end.

(** After an update that succeeded, name, model and type are those the camera last said, and the text of
    the object shows them *)
Theorem camera_called_partial : forall s0 h b0 comps b f m name,
  starts_cam s0 f -> started h b0 comps -> last_said h b -> of_kind h f -> tells_cam b f m name ->
  cmodel (crun s0 h) = Ok m /\ calias (crun s0 h) = name /\
  exists t, decided (cam_rules f) t /\
    crepr shown host (crun s0 h) = Ok ("<" ++ shown t ++ " at " ++ host ++ " - " ++ or_none name ++ " (" ++ m ++ ")>")%string.
Proof.
  intros s0 h b0 comps b f m name S St (h1 & c & h2 & -> & L) O Te.
  destruct (cat_said s0 h1 c h2 b b0 comps f S St O) as (I & (x & La) & In_); [intros b' c'; apply looks_in; exact L|].
  replace (h1 ++ Update (Said b) c :: h2) with ((h1 ++ [Update (Said b) c]) ++ h2) in * by (rewrite <- app_assoc; reflexivity).
  rewrite crun_app. set (s1 := crun s0 (h1 ++ [Update (Said b) c])) in *. clearbody s1.
  assert (I2 : cinv s0 f (crun s1 h2)).
  { apply cinv_run; [exact I|]. intros b' c' J. exfalso. exact (looks_in b' c' h2 L J). }
  destruct (clooks_same h2 L s1) as (_ & _ & La2 & In2 & _ & _). set (s2 := crun s1 h2) in *. clearbody s2. rewrite La in La2. rewrite In_ in In2.
  destruct I2 as (_ & _ & D & F & _ & Y).
  assert (N : calias s2 = name).
  { unfold calias. rewrite <- In2. destruct Te as (W & _ & _ & _ & _ & A & Z). rewrite (alias_kept b W Z). exact A. }
  assert (M : cmodel s2 = Ok m).
  { unfold cmodel, cinfo_of. rewrite <- La2, D. pose proof Te as (_ & _ & Mo & _). destruct S as [->|(d & m' & r & -> & _ & (full & Ed & _) & _)].
    - cbn [fresh s_disco]. destruct (cam_info_short b None f m name Te) as (i & -> & Es). cbn [bind]. rewrite Es. reflexivity.
    - cbn [discovered s_disco]. destruct d as [|y d]; [discriminate Ed|]. unfold dindex. rewrite Mo, Ed. cbn [bind].
      destruct (cam_info_short b (Some full) f m name Te) as (i & -> & Es). cbn [bind]. rewrite Es. reflexivity. }
  split; [exact M|]. split; [exact N|]. exists (cam_type_of (Some f)). split; [apply decided_cam|].
  unfold crepr. rewrite <- La2, M, N, (final_type f s2 Y F). cbn [bind]. unfold long_text. reflexivity.
Qed.

(** Until the first answer, the text says so, with what the discovery told *)
Theorem camera_called_before : forall s0 h, (looks h \/ exists h1 e h2, h = h1 ++ Silent e :: h2 /\ looks h1) ->
  (s0 = fresh -> crepr shown host (crun s0 h) = Ok ("<" ++ shown TUnknown ++ " at " ++ host ++ " - update() needed>")%string) /\
  (forall d f m r, s0 = discovered d -> found_cam d f m r ->
     cmodel (crun s0 h) = Ok m /\
     exists t, decided (cam_rules f) t /\
       crepr shown host (crun s0 h) = Ok ("<" ++ shown t ++ " at " ++ host ++ " - None (" ++ m ++ ") - update() needed>")%string).
Proof.
  intros s0 h H.
  assert (G : forall f, s_tried s0 = false -> s_ready s0 = false -> s_last s0 = None -> s_type s0 = TUnknown ->
              (s_info s0 = [] \/ dget "device_type" (s_info s0) = Some f) ->
              s_last (crun s0 h) = None /\ s_info (crun s0 h) = s_info s0 /\ s_disco (crun s0 h) = s_disco s0 /\ typed f (crun s0 h)).
  { intros f T R La Y I. destruct H as [L|(h1 & e & h2 & -> & L)].
    - pose proof (clooks_typed f h L s0 (or_introl Y) I) as Y'. destruct (clooks_same h L s0) as (_ & _ & A & B & D & _). repeat split; congruence || exact Y'.
    - pose proof (clooks_typed f h1 L s0 (or_introl Y) I) as Y'. destruct (clooks_same h1 L s0) as (T' & R' & A & B & D & _). rewrite crun_app.
      set (s1 := crun s0 h1) in *. change (crun s1 (Silent e :: h2)) with (crun (fst (cstep s1 (Silent e))) h2). cbn [cstep]. rewrite <- T', T. cbn [negb fst].
      assert (Q : forall hh s, s_tried s = true -> s_ready s = false -> s_last s = None -> typed f s -> (s_info s = [] \/ dget "device_type" (s_info s) = Some f) ->
                  s_last (crun s hh) = None /\ s_info (crun s hh) = s_info s /\ s_disco (crun s hh) = s_disco s /\ typed f (crun s hh)).
      { clear. induction hh as [|e hh IH]; intros s T R La Y I; [auto|]. change (crun s (e :: hh)) with (crun (fst (cstep s e)) hh).
        destruct e as [i c|x|]; cbn [cstep]; try (rewrite T; cbn [negb]; unfold crefresh; rewrite R; cbn [negb fst]; apply IH; assumption).
        cbn [fst]. apply (IH (clook s)); try assumption. apply clook_typed; assumption. }
      destruct (Q h2 (mkS true false (s_last s1) (s_info s1) (s_disco s1) (s_comps s1) (s_type s1)) eq_refl eq_refl) as (Q1 & Q2 & Q3 & Q4).
      { cbn [s_last]. congruence. }
      { exact Y'. }
      { cbn [s_info]. destruct I as [I|I]; [left|right]; congruence. }
      cbn [s_info s_disco] in Q2, Q3. split; [exact Q1|]. split; [congruence|]. split; [congruence|exact Q4]. }
  split.
  - intros ->. destruct (G "" eq_refl eq_refl eq_refl eq_refl (or_introl eq_refl)) as (La & In_ & D & Y). unfold crepr. rewrite La, D. cbn [fresh s_disco].
    unfold clook. cbn [s_type]. unfold cam_type. rewrite In_. cbn [fresh s_info]. rewrite Bool.andb_false_r. destruct Y as [->| ->]; reflexivity.
  - intros d f m r -> (K & (full & Ed & Mo) & Na). destruct (G f eq_refl eq_refl eq_refl eq_refl (or_intror K)) as (La & In_ & D & Y).
    cbn [discovered s_info s_disco] in In_, D.
    assert (M : cmodel (crun (discovered d) h) = Ok m).
    { unfold cmodel. rewrite La, In_, Ed. cbn [str_of]. pose proof (model_parts full m r Mo) as P. destruct (partition "(" full) as [x y]. destruct P as (-> & _). reflexivity. }
    split; [exact M|]. exists (cam_type_of (Some f)). split; [apply decided_cam|]. unfold crepr. rewrite La, D, M.
    rewrite (final_type f _ Y) by (rewrite In_; exact K). unfold calias. rewrite In_, Na. destruct d as [|x d]; [discriminate Ed|]. cbn [bind]. unfold long_text. reflexivity.
Qed.
End Text.

Section Refuted.
Variables (shown : dtype -> string) (host : string).
(** After an update the camera refused or did not answer, the model and the text of the object raise
    TypeError, although the name is still shown and the camera told its model before. *)
Theorem camera_called_after_failure_refuted : forall s0 h b0 comps b f m name,
  starts_cam s0 f -> started h b0 comps -> lost h b -> of_kind h f -> tells_cam b f m name ->
  calias (crun s0 h) = name /\ cmodel (crun s0 h) = Err PyTypeError /\ crepr shown host (crun s0 h) = Err PyTypeError.
Proof.
  intros s0 h b0 comps b f m name S St (h1 & c & h2 & -> & L & X) O Te.
  destruct (cat_said s0 h1 c h2 b b0 comps f S St O) as (I & (y & La) & In_).
  { intros b' c' J. rewrite Forall_forall in L. destruct (L _ J) as [E|E]; [discriminate E|exact E]. }
  replace (h1 ++ Update (Said b) c :: h2) with ((h1 ++ [Update (Said b) c]) ++ h2) in * by (rewrite <- app_assoc; reflexivity).
  rewrite crun_app. set (s1 := crun s0 (h1 ++ [Update (Said b) c])) in *. clearbody s1.
  assert (Q : forall hh s, cinv s0 f s -> Forall (fun e => e = Look \/ fails e) hh -> s_info (crun s hh) = s_info s /\
            (Exists fails hh \/ (exists x, s_last s = Some (Refused, x)) -> exists x, s_last (crun s hh) = Some (Refused, x))).
  { clear - f. induction hh as [|e hh IH]; intros s I L; [split; [reflexivity|intros [X|X]; [inversion X|exact X]]|].
    inversion L as [|? ? E L']; subst. change (crun s (e :: hh)) with (crun (fst (cstep s e)) hh).
    assert (I' : cinv s0 f (fst (cstep s e))). { apply cinv_step; [exact I|]. intros b c ->. destruct E as [E|E]; [discriminate E|destruct E]. }
    destruct (IH _ I' L') as (A & B). destruct I as (T & R & _ & _ & (i & x & La) & _).
    assert (P : s_info (fst (cstep s e)) = s_info s /\ (fails e \/ (exists x, s_last s = Some (Refused, x)) -> exists x, s_last (fst (cstep s e)) = Some (Refused, x))).
    { destruct E as [->|E].
      - split; [reflexivity|]. intros [F|F]; [destruct F|exact F].
      - assert (Z : fst (cstep s e) = fst (crefresh Refused s)).
        { destruct e as [[b|] c|ex|]; try destruct E; cbn [cstep]; rewrite T; reflexivity. }
        rewrite Z. unfold crefresh. rewrite R, La. cbn. split; [reflexivity|eauto]. }
    destruct P as (P1 & P2). split; [congruence|]. intros F. apply B. destruct F as [F|F].
    - inversion F as [? ? F'|? ? F']; subst; [right; apply P2; left; exact F'|left; exact F'].
    - right. apply P2. right. exact F. }
  destruct (Q h2 s1 I L) as (A & B). destruct (B (or_introl X)) as (x & Lx). set (s2 := crun s1 h2) in *. clearbody s2.
  split; [|split].
  - unfold calias. rewrite A, In_. destruct Te as (W & _ & _ & _ & _ & N & Z). rewrite (alias_kept b W Z). exact N.
  - unfold cmodel, cinfo_of. rewrite Lx. reflexivity.
  - unfold crepr, cmodel, cinfo_of. rewrite Lx. reflexivity.
Qed.
End Refuted.

(** ** Cameras on a hub *)
Section Kids.
Variables (shown : dtype -> string) (hub : string).
Lemma krun_app c h h' : krun c (h ++ h') = krun (krun c h) h'.
Proof. apply fold_left_app. Qed.
Definition ktyped (f : string) (c : kid) : Prop :=
  (n_type c = TUnknown \/ n_type c = cam_type_of (Some f)) /\ dget "device_type" (n_info c) = Some f.
Lemma klook_type f c : ktyped f c -> cam_type (n_type c) (n_info c) = cam_type_of (Some f).
Proof.
  intros ([Y|Y] & I); rewrite Y; unfold cam_type.
  - destruct (n_info c) as [|x l]; [discriminate I|]. cbn [is_unknown andb]. rewrite I. reflexivity.
  - destruct (is_unknown (cam_type_of (Some f))); cbn [andb]; [|reflexivity]. destruct (n_info c) as [|x l]; [reflexivity|]. rewrite I. reflexivity.
Qed.
Lemma ktyped_run f h : forall c, ktyped f c -> (forall b, In (KTold b) h -> dwf b /\ dget "device_type" b = Some f) -> ktyped f (krun c h).
Proof.
  induction h as [|e h IH]; intros c I O; [exact I|]. apply (IH (kstep c e)); [|intros b J; apply O; right; exact J].
  destruct e as [b| |]; cbn [kstep].
  - destruct (O b (or_introl eq_refl)) as (W & K). split; [exact (proj1 I)|]. cbn [n_info]. apply kid_type_kept; assumption.
  - exact I.
  - split; [right; cbn [n_type]; apply klook_type; exact I|exact (proj2 I)].
Qed.
Lemma untold h : (forall b', ~ In (KTold b') h) -> forall c, n_info (krun c h) = n_info c /\ n_told (krun c h) = n_told c.
Proof.
  induction h as [|e h IH]; intros N c; [split; reflexivity|]. destruct (IH (fun b J => N b (or_intror J)) (kstep c e)) as (A & B).
  change (krun c (e :: h)) with (krun (kstep c e) h). rewrite A, B.
  destruct e as [b| |]; [exfalso; exact (N b (or_introl eq_refl))|split; reflexivity|split; reflexivity].
Qed.
Lemma asked_run h : forall c, n_asked (krun c h) = true <-> n_asked c = true \/ In KAsked h.
Proof.
  induction h as [|e h IH]; intros c; [cbn; tauto|]. change (krun c (e :: h)) with (krun (kstep c e) h). rewrite IH.
  destruct e as [b| |]; cbn [kstep n_asked In]; intuition discriminate.
Qed.
(** A camera on a hub that has been asked is called what the hub last told of it *)
Theorem camera_on_hub_called_partial : forall info h b f m name,
  told_kind info h f -> last_told h b -> told_cam b f m name -> In KAsked h ->
  kid_model (krun (born info) h) = Ok m /\
  exists t, decided (cam_rules f) t /\
    kid_repr shown hub (krun (born info) h) = Ok ("<" ++ shown t ++ " " ++ or_none name ++ " (" ++ m ++ ") of " ++ hub ++ ">")%string.
Proof.
  intros info h b f m name (W0 & K0 & O) (h1 & h2 & -> & N) Te A.
  assert (Y : ktyped f (krun (born info) (h1 ++ KTold b :: h2))).
  { apply ktyped_run; [|exact O]. split; [left; reflexivity|]. cbn [born n_info]. apply kid_type_kept; assumption. }
  assert (Q : n_asked (krun (born info) (h1 ++ KTold b :: h2)) = true) by (apply asked_run; right; exact A).
  assert (R : n_info (krun (born info) (h1 ++ KTold b :: h2)) = renamed cam_child_keys b /\ n_told (krun (born info) (h1 ++ KTold b :: h2)) = b).
  { rewrite krun_app. change (krun (krun (born info) h1) (KTold b :: h2)) with (krun (kstep (krun (born info) h1) (KTold b)) h2).
    destruct (untold h2 N (kstep (krun (born info) h1) (KTold b))) as (-> & ->). split; reflexivity. }
  destruct R as (Ri & Rt). set (c := krun (born info) (h1 ++ KTold b :: h2)) in *. clearbody c.
  destruct Te as (W & K & M & Fw & Hw & Al & _).
  assert (E : kid_model c = Ok m).
  { unfold kid_model. rewrite Q, Rt. destruct b as [|x l] eqn:Eb; [discriminate M|]. rewrite <- Eb in *. clear Eb x l.
    unfold cam_child_info, dindex. rewrite M. destruct (dget "sw_ver" b) as [full|]; [|contradiction]. destruct (dget "hw_ver" b) as [hw|]; [|contradiction].
    rewrite K. cbn [bind]. destruct (firmware full). reflexivity. }
  split; [exact E|]. exists (cam_type_of (Some f)). split; [apply decided_cam|].
  unfold kid_repr. rewrite E, (klook_type f c Y), Ri, (kid_alias_kept b W), Al. reflexivity.
Qed.
(** Until it has been asked, it is called "None", whatever the hub told of it *)
Theorem camera_on_hub_called_refuted : forall info h b f m name,
  told_kind info h f -> last_told h b -> told_cam b f m name -> ~ In KAsked h ->
  kid_model (krun (born info) h) = Ok "None".
Proof.
  intros info h b f m name _ (h1 & h2 & -> & N) _ A.
  assert (Q : n_asked (krun (born info) (h1 ++ KTold b :: h2)) = false).
  { destruct (n_asked (krun (born info) (h1 ++ KTold b :: h2))) eqn:E; [|reflexivity]. apply asked_run in E. destruct E as [E|E]; [discriminate E|contradiction]. }
  assert (R : n_info (krun (born info) (h1 ++ KTold b :: h2)) = renamed cam_child_keys b).
  { rewrite krun_app. change (krun (krun (born info) h1) (KTold b :: h2)) with (krun (kstep (krun (born info) h1) (KTold b)) h2).
    destruct (untold h2 N (kstep (krun (born info) h1) (KTold b))) as (-> & _). reflexivity. }
  unfold kid_model. rewrite Q, R, model_gone. reflexivity.
Qed.
End Kids.
Print Assumptions camera_called_partial.
Print Assumptions camera_called_before.
Print Assumptions camera_called_after_failure_refuted.
Print Assumptions camera_on_hub_called_partial.
Print Assumptions camera_on_hub_called_refuted.

(** The hypotheses are met *)
Definition a_cam (name : string) : dict string :=
  [("device_type", "SMART.IPCAMERA"); ("device_model", "C210"); ("device_alias", name); ("sw_version", "1.4.2 Build 1"); ("hw_version", "2.0")].
Definition a_disco : dict string := [("device_type", "SMART.IPCAMERA"); ("device_model", "C210(EU)")].
Example camera_called_ex :
  let h := [Look; Update (Said (a_cam "Porch")) (Said ["motion"]); Silent KTimeout; Update (Said (a_cam "Gate")) Refused; Look] in
  starts_cam (discovered a_disco) "SMART.IPCAMERA" /\ started h (a_cam "Porch") ["motion"] /\ last_said h (a_cam "Gate") /\ of_kind h "SMART.IPCAMERA"
  /\ tells_cam (a_cam "Gate") "SMART.IPCAMERA" "C210" (Some "Gate")
  /\ crepr (fun _ => "DeviceType.Camera") "10.0.0.7" (crun (discovered a_disco) h) = Ok "<DeviceType.Camera at 10.0.0.7 - Gate (C210)>".
Proof.
  assert (W : forall n, dwf (a_cam n)). { intros n. unfold dwf, dkeys, a_cam. cbn [map fst]. repeat constructor; cbn; intuition discriminate. }
  repeat split; try (cbn; discriminate); try apply W.
  - right. exists a_disco, "C210", (Some "EU"). split; [reflexivity|]. split; [reflexivity|]. split; [|reflexivity].
    exists "C210(EU)". split; [reflexivity|]. repeat split; discriminate.
  - exists [Look], [Silent KTimeout; Update (Said (a_cam "Gate")) Refused; Look]. split; [reflexivity|repeat constructor].
  - exists [Look; Update (Said (a_cam "Porch")) (Said ["motion"]); Silent KTimeout], Refused, [Look]. split; [reflexivity|repeat constructor].
  - cbn in H. destruct H as [H|[H|[H|[H|[H|[]]]]]]; try discriminate H; injection H as <- <-; apply W.
  - cbn in H. destruct H as [H|[H|[H|[H|[H|[]]]]]]; try discriminate H; injection H as <- <-; reflexivity.
Qed.
Example camera_lost_ex :
  let h := [Update (Said (a_cam "Porch")) (Said ["motion"]); Silent KTimeout] in
  starts_cam fresh "SMART.IPCAMERA" /\ lost h (a_cam "Porch") /\ crepr (fun _ => "DeviceType.Camera") "10.0.0.7" (crun fresh h) = Err PyTypeError.
Proof.
  split; [left; reflexivity|]. split; [|reflexivity]. exists [], (Said ["motion"]), [Silent KTimeout]. split; [reflexivity|]. split; [|constructor; exact I].
  constructor; [right; exact I|constructor].
Qed.
Definition a_kid : dict string := [("device_id", "7"); ("device_type", "SMART.IPCAMERA"); ("device_model", "D230"); ("alias", "Door"); ("sw_ver", "1.1"); ("hw_ver", "1.20")].
Example camera_on_hub_ex :
  told_kind a_kid [KTold a_kid; KAsked] "SMART.IPCAMERA" /\ last_told [KTold a_kid; KAsked] a_kid /\ told_cam a_kid "SMART.IPCAMERA" "D230" (Some "Door")
  /\ kid_repr (fun _ => "DeviceType.Camera") "H" (krun (born a_kid) [KTold a_kid; KAsked]) = Ok "<DeviceType.Camera Door (D230) of H>".
Proof.
  assert (W : dwf a_kid). { unfold dwf, dkeys, a_kid. cbn [map fst]. repeat constructor; cbn; intuition discriminate. }
  repeat split; try exact W; try discriminate.
  - destruct H as [H|[H|[]]]; [injection H as <-; exact W|discriminate H].
  - destruct H as [H|[H|[]]]; [injection H as <-; reflexivity|discriminate H].
  - exists [], [KAsked]. split; [reflexivity|]. intros b' [H|[]]. discriminate H.
Qed.

(** C165: what a device is called through its life. *)
From Verif Require Import Base Py Base_Lemmas Factory_Model Effect_Props Setup_Model Setup_Props DevType_Model DevType_Props Name_Model Name_Spec.
Open Scope string_scope.
Open Scope list_scope.

Lemma run_app s h h' : run s (h ++ h') = run (run s h) h'.
Proof. apply fold_left_app. Qed.
Definition same (s s' : sdev) : Prop :=
  s_tried s = s_tried s' /\ s_ready s = s_ready s' /\ s_last s = s_last s' /\ s_info s = s_info s' /\ s_disco s = s_disco s' /\ s_comps s = s_comps s'.
Lemma looks_same h : looks h -> forall s, same s (run s h).
Proof.
  induction 1 as [|e h -> _ IH]; intros s; [repeat split|]. specialize (IH (look s)). exact IH.
Qed.
Lemma same_type s h : looks h -> s_type s = TUnknown -> s_comps s = [] -> s_type (run s h) = TUnknown.
Proof.
  intros L. revert s. induction L as [|e h -> _ IH]; intros s T C; [exact T|]. apply (IH (look s)); [|exact C].
  unfold look. cbn [s_type]. rewrite T, C. unfold smart_type. cbn [is_unknown negb]. rewrite Bool.orb_true_r. reflexivity.
Qed.

(** Once the first update has succeeded *)
Definition inv (s0 : sdev) (comps : list string) (f : string) (s : sdev) : Prop :=
  s_tried s = true /\ s_ready s = true /\ s_comps s = comps /\ s_disco s = s_disco s0 /\ dget "type" (s_info s) = Some f /\
  (exists i, s_last s = Some (i, Said comps)) /\ (s_type s = TUnknown \/ s_type s = type_from_components comps f).
Lemma inv_step s0 comps f s e : inv s0 comps f s -> (forall d c, e = Update (Said d) c -> dget "type" d = Some f) -> inv s0 comps f (fst (step s e)).
Proof.
  intros (T & R & C & D & F & (i & L) & Y) O. destruct e as [[d|] c|x|]; cbn [step].
  - rewrite T. cbn [negb]. unfold refresh. rewrite R, L. cbn. repeat split; try (eapply O; reflexivity); eauto; eexists; reflexivity.
  - rewrite T. cbn [negb]. unfold refresh. rewrite R, L. cbn. repeat split; eauto; eexists; reflexivity.
  - rewrite T. cbn [negb]. unfold refresh. rewrite R, L. cbn. repeat split; eauto; eexists; reflexivity.
  - unfold inv. cbn. repeat split; eauto. rewrite C. unfold smart_type. destruct (is_unknown (s_type s)) eqn:U; cbn [negb]; [|exact Y].
    rewrite F. destruct (String.eqb f "" || match comps with [] => true | _ => false end); [exact Y|right; reflexivity].
Qed.
Lemma inv_run s0 comps f h : forall s, inv s0 comps f s -> of_family h f -> inv s0 comps f (run s h).
Proof.
  induction h as [|e h IH]; intros s I O; [exact I|]. apply (IH (fst (step s e))).
  - apply inv_step; [exact I|]. intros d c ->. apply (O d c). left. reflexivity.
  - intros d c J. apply (O d c). right. exact J.
Qed.
Lemma starts_fields s0 : starts s0 -> s_tried s0 = false /\ s_last s0 = None /\ s_comps s0 = [] /\ s_type s0 = TUnknown.
Proof. intros [->|(d & m & r & -> & _)]; repeat split. Qed.
Lemma inv_started s0 h d0 comps f : starts s0 -> started h d0 comps -> of_family h f -> inv s0 comps f (run s0 h).
Proof.
  intros S (h1 & h2 & -> & L) O. destruct (starts_fields s0 S) as (T & _ & C & Y).
  destruct (looks_same h1 L s0) as (T1 & _ & _ & _ & D1 & C1). rewrite run_app.
  change (run (run s0 h1) (Update (Said d0) (Said comps) :: h2)) with (run (fst (step (run s0 h1) (Update (Said d0) (Said comps)))) h2). apply inv_run; [|intros d c J; apply (O d c); apply in_or_app; right; right; exact J].
  cbn [step]. rewrite <- T1, T. unfold inv. cbn [negb fst s_tried s_ready s_comps s_disco s_info s_last s_type]. repeat split; eauto.
  - apply (O d0 (Said comps)). apply in_or_app. right. left. reflexivity.
  - left. apply same_type; assumption.
Qed.
(** A later update that succeeds leaves what the device said *)
Lemma said_now s0 comps f s d c : inv s0 comps f s -> let s' := fst (step s (Update (Said d) c)) in s_last s' = Some (Said d, Said comps) /\ s_info s' = d.
Proof. intros (T & R & _ & _ & _ & (i & L) & _). cbn [step]. rewrite T. cbn [negb]. unfold refresh. rewrite R, L. split; reflexivity. Qed.
Lemma looks_in d c h : looks h -> ~ In (Update (Said d) c) h.
Proof. intros L I. unfold looks in L. rewrite Forall_forall in L. specialize (L _ I). discriminate L. Qed.
Lemma app_split (A : Type) (a b : list A) : forall x y c d, a ++ x :: b = c ++ y :: d ->
  (a = c /\ x = y /\ b = d) \/ (exists l, c = a ++ x :: l /\ b = l ++ y :: d) \/ (exists l, a = c ++ y :: l /\ d = l ++ x :: b).
Proof.
  induction a as [|z a IH]; intros x y [|z' c] d E; cbn in E.
  - left. injection E as -> ->. auto.
  - right. left. injection E as -> ->. exists c. auto.
  - right. right. injection E as -> <-. exists a. auto.
  - injection E as -> E. destruct (IH x y c d E) as [(-> & H)|[(l & -> & H)|(l & -> & H)]].
    + left. split; [reflexivity|exact H].
    + right. left. exists l. split; [reflexivity|exact H].
    + right. right. exists l. split; [reflexivity|exact H].
Qed.
(** The state right after the update in which the device said [d] for the last time *)
Lemma at_said s0 h1 c h2 d d0 comps f : starts s0 -> started (h1 ++ Update (Said d) c :: h2) d0 comps -> of_family (h1 ++ Update (Said d) c :: h2) f ->
  (forall d' c', ~ In (Update (Said d') c') h2) ->
  let s := run s0 (h1 ++ [Update (Said d) c]) in inv s0 comps f s /\ s_last s = Some (Said d, Said comps) /\ s_info s = d.
Proof.
  intros S (a & b & E & L) O N. cbv zeta. destruct (app_split _ _ _ _ _ _ _ E) as [(-> & X & ->)|[(l & -> & ->)|(l & -> & ->)]].
  - injection X as -> ->.
    assert (I : inv s0 comps f (run s0 (a ++ [Update (Said d0) (Said comps)]))).
    { apply (inv_started s0 _ d0 comps f S); [exists a, []; auto|]. intros d' c' J. apply (O d' c'). apply in_app_iff in J. apply in_app_iff.
      destruct J as [J|[J|[]]]; [left; exact J|right; left; exact J]. }
    split; [exact I|]. rewrite run_app. destruct (starts_fields s0 S) as (T & _). destruct (looks_same a L s0) as (T1 & _). cbn [run fold_left step].
    fold (run s0 a). rewrite <- T1, T. split; reflexivity.
  - exfalso. unfold looks in L. rewrite Forall_forall in L. specialize (L (Update (Said d) c)). discriminate L. apply in_or_app. right. left. reflexivity.
  - assert (I : inv s0 comps f (run s0 (a ++ Update (Said d0) (Said comps) :: l))).
    { apply (inv_started s0 _ d0 comps f S); [exists a, l; auto|]. intros d' c' J. apply (O d' c'). apply in_or_app. left. exact J. }
    rewrite run_app. cbn [run fold_left]. change (fold_left (fun s e => fst (step s e)) ?h s0) with (run s0 h).
    destruct (said_now _ _ _ _ d c I) as (A & B). split; [|split; [exact A|exact B]].
    apply inv_step; [exact I|]. intros d' c' X. injection X as <- <-. apply (O d c). apply in_or_app. right. left. reflexivity.
Qed.
Lemma nickname_of d f m name : tells_name d f m name -> nickname d = Ok name.
Proof.
  intros (_ & _ & _ & _ & N). unfold nickname. destruct name as [a|].
  - destruct N as (Ne & T & ->). destruct (String.eqb_spec (b64 a) "") as [E|_].
    + pose proof (truthy_b64 a Ne) as B. cbn in B. rewrite E in B. discriminate B.
    + rewrite (decoded_text a T). reflexivity.
  - destruct N as [->| ->]; reflexivity.
Qed.
Lemma smart_info_short di comps disc f m name : tells_name di f m name -> a_family f -> exists i, smart_info di comps disc = Ok i /\ i_short i = m.
Proof.
  intros (M & F & W & H & _) (p & d & -> & Lp & Ld). destruct (dget "fw_ver" di) as [full|] eqn:Ef; [|contradiction]. destruct (dget "hw_ver" di) as [hw|] eqn:Eh; [|contradiction].
  destruct (firmware full) as [v b] eqn:Ev. apply firmware_versions in Ev.
  destruct (smart_device_info di comps disc m full v b hw p d M Ef Ev Eh F Lp Ld) as (i & E & _ & S & _). eauto.
Qed.

Section Text.
Variables (shown : dtype -> string) (host : string).

(** After an update that succeeded, name and model are those the device last said, and the text of the
    object shows them with the type its family and components make it. *)
Theorem smart_called_partial : forall s0 h d0 comps d f m name,
  starts s0 -> started h d0 comps -> last_said h d -> of_family h f -> a_family f -> comps <> [] -> tells_name d f m name ->
  model (run s0 h) = Ok m /\ nickname (s_info (run s0 h)) = Ok name /\
  exists t, decided (smart_rules f comps) t /\
    repr shown host (run s0 h) = Ok ("<" ++ shown t ++ " at " ++ host ++ " - " ++ match name with Some a => a | None => "None" end ++ " (" ++ m ++ ")>")%string.
Proof.
  intros s0 h d0 comps d f m name S St (h1 & c & h2 & -> & L) O A C Te.
  destruct (at_said s0 h1 c h2 d d0 comps f S St O) as (I & La & In_); [intros d' c'; apply looks_in; exact L|].
  replace (h1 ++ Update (Said d) c :: h2) with ((h1 ++ [Update (Said d) c]) ++ h2) in * by (rewrite <- app_assoc; reflexivity).
  rewrite run_app. set (s1 := run s0 (h1 ++ [Update (Said d) c])) in *.
  assert (I2 : inv s0 comps f (run s1 h2)).
  { apply inv_run; [exact I|]. intros d' c' J. exfalso. exact (looks_in d' c' h2 L J). }
  destruct (looks_same h2 L s1) as (_ & _ & La2 & In2 & _ & _). set (s2 := run s1 h2) in *. rewrite La in La2. rewrite In_ in In2. clear La In_ I.
  destruct I2 as (_ & _ & Co & Di & Fa & _ & Ty).
  assert (M : exists i, info_of s2 = Ok i /\ i_short i = m).
  { unfold info_of. rewrite <- La2, Di. destruct S as [->|(dd & mm & r & -> & ((full & E & _) & _))]; cbn [fresh discovered s_disco].
    - exact (smart_info_short d comps None f m name Te A).
    - destruct dd as [|x dd]; [discriminate E|]. unfold dindex. rewrite E. cbn [bind]. exact (smart_info_short d comps (Some full) f m name Te A). }
  destruct M as (i & Ei & Es).
  assert (Mo : model s2 = Ok m) by (unfold model; rewrite <- La2, Ei; cbn [bind]; rewrite Es; reflexivity).
  assert (Ni : nickname (s_info s2) = Ok name) by (rewrite <- In2; exact (nickname_of d f m name Te)).
  split; [exact Mo|]. split; [exact Ni|]. exists (type_from_components comps f). split; [apply smart_type_rules; reflexivity|].
  assert (Y : s_type (look s2) = type_from_components comps f).
  { unfold look. cbn [s_type]. rewrite Co. unfold smart_type. destruct Ty as [-> | ->].
    - cbn [is_unknown negb]. rewrite Fa. destruct (String.eqb_spec f "") as [->|_]; [destruct A as ([|? ?] & ? & ? & _); discriminate|].
      destruct comps; [contradiction|reflexivity].
    - destruct (is_unknown (type_from_components comps f)) eqn:U; cbn [negb]; [|reflexivity].
      rewrite Fa. destruct (String.eqb_spec f "") as [->|_]; [destruct A as ([|? ?] & ? & ? & _); discriminate|]. destruct comps; [contradiction|reflexivity]. }
  unfold repr. rewrite <- La2, Y, Ni, Mo. cbn [bind]. unfold long_text. destruct (s_disco s2) as [[|? ?]|], name; reflexivity.
Qed.

(** Before: what the discovery told, or the address alone.  If the first update gets no answer the object stays so. *)
Theorem smart_called_before : forall s0 h, (looks h \/ exists h1 e h2, h = h1 ++ Silent e :: h2 /\ looks h1) ->
  (s0 = fresh -> repr shown host (run s0 h) = Ok ("<" ++ shown TUnknown ++ " at " ++ host ++ " - update() needed>")%string) /\
  (forall d m r, s0 = discovered d -> found_as d m r ->
     model (run s0 h) = Ok m /\ repr shown host (run s0 h) = Ok ("<" ++ shown TUnknown ++ " at " ++ host ++ " - None (" ++ m ++ ") - update() needed>")%string).
Proof.
  intros s0 h H.
  assert (G : starts s0 \/ (exists d, s0 = discovered d) -> s_last (run s0 h) = None /\ s_info (run s0 h) = s_info s0 /\ s_disco (run s0 h) = s_disco s0
              /\ s_comps (run s0 h) = [] /\ s_type (run s0 h) = TUnknown).
  { intros S0. assert (F0 : s_tried s0 = false /\ s_ready s0 = false /\ s_last s0 = None /\ s_comps s0 = [] /\ s_type s0 = TUnknown).
    { destruct S0 as [[->|(d & m & r & -> & _)]|(d & ->)]; repeat split. }
    destruct F0 as (T & R & La & C & Y). destruct H as [L|(h1 & e & h2 & -> & L)].
    - pose proof (same_type s0 h L Y C) as Y'. destruct (looks_same h L s0) as (_ & _ & A & B & D & E). repeat split; congruence.
    - pose proof (same_type s0 h1 L Y C) as Y'. destruct (looks_same h1 L s0) as (T' & R' & A & B & D & E). rewrite run_app. cbn [run fold_left].
      fold (run s0 h1). cbn [step]. rewrite <- T', T. cbn [negb fst].
      set (s1 := mkS true false _ _ _ _ _). fold (run s1 h2).
      assert (Q : forall hh s, s_tried s = true -> s_ready s = false -> s_comps s = [] -> s_type s = TUnknown ->
                  s_last (run s hh) = s_last s /\ s_info (run s hh) = s_info s /\ s_disco (run s hh) = s_disco s /\ s_comps (run s hh) = [] /\ s_type (run s hh) = TUnknown).
      { clear. induction hh as [|e hh IH]; intros s T R C Y; [auto|]. change (run s (e :: hh)) with (run (fst (step s e)) hh).
        destruct e as [i c|x|]; cbn [step]; try (rewrite T; cbn [negb]; unfold refresh; rewrite R; cbn [negb fst]; apply IH; assumption).
        cbn [fst]. destruct (IH (look s)) as (a & b & c & d & e); try assumption.
        - unfold look. cbn [s_type]. rewrite Y, C. unfold smart_type. cbn [is_unknown negb]. rewrite Bool.orb_true_r. reflexivity.
        - repeat split; assumption. }
      destruct (Q h2 s1) as (a & b & c & d & f); try reflexivity; try (cbn; congruence). cbn [s1 s_last s_info s_disco] in *. repeat split; congruence. }
  split.
  - intros ->. destruct G as (A & B & C & D & E); [left; left; reflexivity|]. unfold repr, look. cbn [s_type]. rewrite A, B, C, D, E. reflexivity.
  - intros d m r -> Fo. destruct G as (A & B & C & D & E); [right; eauto|]. cbn [discovered s_info s_disco] in B, C.
    destruct Fo as ((full & Ef & Mo) & Nn).
    assert (M : model (run (discovered d) h) = Ok m).
    { unfold model. rewrite A, B, Ef. cbn [str_of]. pose proof (model_parts full m r Mo) as P. destruct (partition "(" full) as [x y]. destruct P as (-> & _). reflexivity. }
    split; [exact M|]. unfold repr, look. cbn [s_type]. rewrite A, C, E, D. destruct d as [|x d]; [discriminate Ef|].
    rewrite M. unfold nickname. rewrite B, Nn. cbn [bind]. unfold smart_type. cbn [is_unknown negb]. rewrite Bool.orb_true_r. unfold long_text. reflexivity.
Qed.

(** ** After an update the device refused or did not answer, the model and the text of the object raise
    TypeError, although the name is still shown and the device told its model before. *)
Theorem smart_called_after_failure_refuted : forall s0 h d0 comps d f m name,
  starts s0 -> started h d0 comps -> lost h d -> of_family h f -> tells_name d f m name ->
  nickname (s_info (run s0 h)) = Ok name /\ model (run s0 h) = Err PyTypeError /\ repr shown host (run s0 h) = Err PyTypeError.
Proof.
  intros s0 h d0 comps d f m name S St (h1 & c & h2 & -> & L & X) O Te.
  destruct (at_said s0 h1 c h2 d d0 comps f S St O) as (I & La & In_).
  { intros d' c' J. rewrite Forall_forall in L. destruct (L _ J) as [E|E]; [discriminate E|exact E]. }
  replace (h1 ++ Update (Said d) c :: h2) with ((h1 ++ [Update (Said d) c]) ++ h2) in * by (rewrite <- app_assoc; reflexivity).
  rewrite run_app. set (s1 := run s0 (h1 ++ [Update (Said d) c])) in *. clearbody s1.
  assert (Q : forall hh s, inv s0 comps f s -> Forall (fun e => e = Look \/ fails e) hh -> s_info (run s hh) = s_info s /\
            (Exists fails hh \/ (exists x, s_last s = Some (Refused, x)) -> exists x, s_last (run s hh) = Some (Refused, x))).
  { clear - f. induction hh as [|e hh IH]; intros s I L; [split; [reflexivity|intros [X|X]; [inversion X|exact X]]|].
    inversion L as [|? ? E L']; subst. change (run s (e :: hh)) with (run (fst (step s e)) hh).
    assert (I' : inv s0 comps f (fst (step s e))).
    { apply inv_step; [exact I|]. intros d' c' ->. destruct E as [E|E]; [discriminate E|contradiction E]. }
    destruct (IH _ I' L') as (A & B). destruct I as (T & R & _ & _ & _ & (i & La) & _).
    destruct e as [[x|] c|x|]; [destruct E as [E|E]; [discriminate E|contradiction E]| | |].
    - cbn [step] in *. rewrite T in *. cbn [negb] in *. unfold refresh in *. rewrite R, La in *. cbn [negb fst] in *. split; [exact A|]. intros _. apply B. right. eexists. reflexivity.
    - cbn [step] in *. rewrite T in *. cbn [negb] in *. unfold refresh in *. rewrite R, La in *. cbn [negb fst] in *. split; [exact A|]. intros _. apply B. right. eexists. reflexivity.
    - cbn [step fst] in *. split; [exact A|]. intros [X|X]; apply B; [|right; exact X]. inversion X as [? ? F|]; subst; [contradiction F|left; assumption]. }
  destruct (Q h2 s1 I L) as (A & B). destruct (B (or_introl X)) as (x & La2). clear B Q I.
  assert (Ni : nickname (s_info (run s1 h2)) = Ok name) by (rewrite A, In_; exact (nickname_of d f m name Te)).
  assert (M : model (run s1 h2) = Err PyTypeError) by (unfold model, info_of; rewrite La2; reflexivity).
  split; [exact Ni|]. split; [exact M|]. unfold repr. rewrite La2, Ni, M. destruct (s_disco (run s1 h2)) as [[|? ?]|]; reflexivity.
Qed.
(** A first update the device refuses: the text raises for ever, and no later update succeeds. *)
Theorem smart_called_first_refused_refuted : forall s0 h1 c h2,
  starts s0 -> looks h1 ->
  let s := run s0 (h1 ++ Update Refused c :: h2) in
  model s = Err PyTypeError /\ repr shown host s = Err PyTypeError /\ forall i c', snd (step s (Update i c')) = Err KKasa.
Proof.
  intros s0 h1 c h2 S L s. destruct (starts_fields s0 S) as (T & La & C & Y). destruct (looks_same h1 L s0) as (T' & _ & A & B & D & E).
  assert (G : s_tried s = true /\ s_ready s = false /\ s_last s = Some (Refused, c) /\ s_info s = s_info s0 /\ s_disco s = s_disco s0).
  { unfold s. rewrite run_app. cbn [run fold_left]. fold (run s0 h1). cbn [step]. rewrite <- T', T. cbn [negb fst].
    set (s1 := mkS true false _ _ _ _ _). fold (run s1 h2).
    assert (Q : forall hh s, s_tried s = true -> s_ready s = false ->
       s_tried (run s hh) = true /\ s_ready (run s hh) = false /\ s_last (run s hh) = s_last s /\ s_info (run s hh) = s_info s /\ s_disco (run s hh) = s_disco s).
    { clear. induction hh as [|e hh IH]; intros s T R; [auto|]. change (run s (e :: hh)) with (run (fst (step s e)) hh).
      destruct e as [i c|x|]; cbn [step]; try (rewrite T; cbn [negb]; unfold refresh; rewrite R; cbn [negb fst]; apply IH; assumption).
      cbn [fst]. exact (IH (look s) T R). }
    destruct (Q h2 s1 eq_refl eq_refl) as (a & b & x & y & z). cbn [s1 s_last s_info s_disco] in *. repeat split; congruence. }
  destruct G as (G1 & G2 & G3 & G4 & G5).
  assert (M : model s = Err PyTypeError) by (unfold model, info_of; rewrite G3; reflexivity).
  assert (N : nickname (s_info s0) = Ok None).
  { destruct S as [->|(d & m & r & -> & (_ & N))]; [reflexivity|]. unfold nickname. cbn [discovered s_info]. rewrite N. reflexivity. }
  split; [exact M|]. split.
  - unfold repr. rewrite G3, G4, N, M. destruct (s_disco s) as [[|? ?]|]; reflexivity.
  - intros i c'. cbn [step]. rewrite G1. cbn [negb]. unfold refresh. rewrite G2. reflexivity.
Qed.
End Text.
Print Assumptions smart_called_partial.
Print Assumptions smart_called_before.
Print Assumptions smart_called_after_failure_refuted.
Print Assumptions smart_called_first_refused_refuted.

(** ** A child is of the model its parent's list says once it has answered itself; before that it is of the model "None". *)
Theorem child_called_partial : forall info comps m f name, tells_name info f m name -> a_family f -> kid_model (mkK info comps true) = Ok m.
Proof.
  intros info comps m f name T A. unfold kid_model. cbn [k_asked k_info k_comps]. destruct (smart_info_short info comps None f m name T A) as (i & -> & S).
  cbn [bind]. rewrite S. reflexivity.
Qed.
Print Assumptions child_called_partial.
Theorem child_called_refuted : forall info comps m, dget "model" info = Some m -> dget "device_model" info = None -> kid_model (mkK info comps false) = Ok "None".
Proof. intros info comps m _ N. unfold kid_model. cbn [k_asked k_info]. rewrite N. reflexivity. Qed.
Print Assumptions child_called_refuted.

(** ** Legacy devices *)
Section LegacyText.
Variables (type_of : dict string -> res dtype) (type host : string).
Definition legacy_text (sys : dict string) (m : string) (mark : string) : string :=
  ("<" ++ type ++ " at " ++ host ++ " - " ++ match dget "alias" sys with Some a => a | None => "None" end ++ " (" ++ m ++ ")" ++ mark ++ ">")%string.
Lemma lmodel_sys sys m s : tells_sys sys m -> type_of sys <> Err KKasa -> (forall e, type_of sys <> Err e) -> l_last s = Some sys -> lmodel type_of s = Ok m.
Proof.
  intros ((full & region & E & M) & W & H) _ T L. unfold lmodel. rewrite L. destruct (dget "sw_ver" sys) as [sw|] eqn:Es; [|contradiction]. destruct (dget "hw_ver" sys) as [hw|] eqn:Eh; [|contradiction].
  destruct (type_of sys) as [t|e] eqn:Et; [|exfalso; exact (T e eq_refl)]. destruct (firmware sw) as [v b] eqn:Ev. apply firmware_versions in Ev.
  rewrite (iot_device_info sys (Ok t) false full m region sw v b hw t E M Es Ev Eh eq_refl). reflexivity.
Qed.
Lemma lrun_nones h : Forall (fun u => u = None) h -> forall s, lrun s h = s.
Proof. induction 1 as [|u h -> _ IH]; intros s; [reflexivity|]. exact (IH s). Qed.
Lemma lrepr_sys sys m s : tells_sys sys m -> (forall e, type_of sys <> Err e) -> l_last s = Some sys -> l_sys s = Some sys ->
  lmodel type_of s = Ok m /\ lrepr type_of type host s = Ok (legacy_text sys m "").
Proof.
  intros T K L S. pose proof (lmodel_sys sys m s T (K KKasa) K L) as M. split; [exact M|]. unfold lrepr. rewrite L, M. unfold lalias. rewrite S. cbn [bind]. unfold long_text, legacy_text.
  destruct (l_disco s), (dget "alias" sys); reflexivity.
Qed.
(** Name and model are those of the last system information the device sent, whatever failed since; the text never raises. *)
Theorem legacy_called : forall s0 h,
  (forall h1 sys m h2, h = h1 ++ Some sys :: h2 -> Forall (fun u => u = None) h2 -> tells_sys sys m -> (forall e, type_of sys <> Err e) ->
     lmodel type_of (lrun s0 h) = Ok m /\ lrepr type_of type host (lrun s0 h) = Ok (legacy_text sys m "")) /\
  (Forall (fun u => u = None) h ->
     (s0 = lfresh -> lrepr type_of type host (lrun s0 h) = Ok ("<" ++ type ++ " at " ++ host ++ " - update() needed>")%string) /\
     (forall sys m, s0 = lfound_sys sys -> tells_sys sys m -> (forall e, type_of sys <> Err e) ->
        lmodel type_of (lrun s0 h) = Ok m /\ lrepr type_of type host (lrun s0 h) = Ok (legacy_text sys m "")) /\
     (forall info full m region, lfound info = Ok s0 -> dget "device_model" info = Some full -> model_of full m region ->
        lmodel type_of (lrun s0 h) = Ok m /\ lrepr type_of type host (lrun s0 h) = Ok (legacy_text info m " - update() needed"))).
Proof.
  intros s0 h. split; [|intros N; split; [|split]].
  - intros h1 sys m h2 -> N T K.
    assert (E : lrun s0 (h1 ++ Some sys :: h2) = mkL (Some sys) (Some sys) (l_disco (lrun s0 h1))).
    { unfold lrun. rewrite fold_left_app. cbn [fold_left lupdate]. exact (lrun_nones h2 N _). }
    rewrite E. apply lrepr_sys; auto.
  - intros ->. rewrite lrun_nones by exact N. reflexivity.
  - intros sys m -> T K. rewrite lrun_nones by exact N. apply lrepr_sys; auto.
  - intros info full m region F E M. unfold lfound, dindex in F. rewrite E in F. cbn [bind] in F. injection F as <-. rewrite lrun_nones by exact N.
    pose proof (model_parts full m region M) as P. destruct (partition "(" full) as [x y]. destruct P as (-> & _). cbn [fst].
    unfold lrepr, lmodel, lalias. cbn [l_last l_disco l_sys]. rewrite dget_dset_same, dget_dset_other by discriminate. cbn [bind]. split; [reflexivity|].
    unfold long_text, legacy_text. destruct (dget "alias" info); reflexivity.
Qed.
End LegacyText.
Print Assumptions legacy_called.

(** ** A plug that is discovered, updated, not reached, and updated again *)
Definition p110_said : dict string :=
  [("model", "P110"); ("type", "SMART.TAPOPLUG"); ("fw_ver", "1.3.0 Build 230905 Rel.152200"); ("hw_ver", "1.0"); ("nickname", "VGVhcG90"); ("specs", "EU")].
Definition p110_found : dict string := [("device_model", "P110(EU)"); ("device_type", "SMART.TAPOPLUG"); ("ip", "127.0.0.1")].
Definition type_text (t : dtype) : string := match t with TPlug => "DeviceType.Plug" | TUnknown => "DeviceType.Unknown" | _ => "?" end.
Definition p110_first : event := Update (Said p110_said) (Said ["device"; "energy_monitoring"]).
Example p110_hyps :
  starts (discovered p110_found) /\ started [Look; p110_first; Look; Silent PyTimeout] p110_said ["device"; "energy_monitoring"] /\
  last_said [Look; p110_first; Look] p110_said /\ lost [Look; p110_first; Look; Silent PyTimeout] p110_said /\
  of_family [Look; p110_first; Look; Silent PyTimeout] "SMART.TAPOPLUG" /\ a_family "SMART.TAPOPLUG" /\ tells_name p110_said "SMART.TAPOPLUG" "P110" (Some "Teapot").
Proof.
  split. { right. exists p110_found, "P110", (Some "EU"). split; [reflexivity|]. split; [|reflexivity]. exists "P110(EU)". split; [reflexivity|]. repeat split; discriminate. }
  split. { exists [Look], [Look; Silent PyTimeout]. split; [reflexivity|]. repeat constructor. }
  split. { exists [Look], (Said ["device"; "energy_monitoring"]), [Look]. split; [reflexivity|]. repeat constructor. }
  split. { exists [Look], (Said ["device"; "energy_monitoring"]), [Look; Silent PyTimeout]. split; [reflexivity|]. split.
    - constructor; [left; reflexivity|]. constructor; [right; exact Logic.I|constructor].
    - apply Exists_cons_tl, Exists_cons_hd. exact Logic.I. }
  split. { intros d c [E|[E|[E|[E|[]]]]]; try discriminate E. injection E as <- <-. reflexivity. }
  split. { exists "SMART", "TAPOPLUG". repeat split. }
  repeat split; try discriminate. exists (map N_of_ascii (list_ascii_of_string "Teapot")). split; [|vm_compute; reflexivity].
  cbn [list_ascii_of_string map]. repeat (constructor; [left; reflexivity|]). constructor.
Qed.
Example p110_texts :
  let s := run (discovered p110_found) in
  map (fun h => repr type_text "127.0.0.1" (s h)) [[Look]; [Silent PyTimeout]; [Look; p110_first; Look]; [p110_first; Silent PyTimeout];
     [p110_first; Silent PyTimeout; Update (Said p110_said) Refused]]
  = [Ok "<DeviceType.Unknown at 127.0.0.1 - None (P110) - update() needed>"; Ok "<DeviceType.Unknown at 127.0.0.1 - None (P110) - update() needed>";
     Ok "<DeviceType.Plug at 127.0.0.1 - Teapot (P110)>"; Err PyTypeError; Ok "<DeviceType.Plug at 127.0.0.1 - Teapot (P110)>"].
Proof. vm_compute. reflexivity. Qed.
(** The address of a device made by hand, and its model *)
Example fresh_text : repr type_text "127.0.0.1" fresh = Ok "<DeviceType.Unknown at 127.0.0.1 - update() needed>" /\ model fresh = Ok "None".
Proof. split; reflexivity. Qed.
Example hs100_texts :
  let sys := [("model", "HS100(UK)"); ("sw_ver", "1.2.6 Build 200727 Rel.121701"); ("hw_ver", "1.0"); ("alias", "Kettle")] in
  tells_sys sys "HS100" /\
  lrepr (fun _ => Ok TPlug) "DeviceType.Plug" "127.0.0.1" (lrun lfresh [None; Some sys; None]) = Ok "<DeviceType.Plug at 127.0.0.1 - Kettle (HS100)>" /\
  lrepr (fun _ => Ok TPlug) "DeviceType.Plug" "127.0.0.1" (lrun lfresh [None]) = Ok "<DeviceType.Plug at 127.0.0.1 - update() needed>".
Proof.
  cbv zeta. split; [|split; reflexivity]. split; [|split; discriminate]. exists "HS100(UK)", (Some "UK"). split; [reflexivity|]. repeat split; discriminate.
Qed.

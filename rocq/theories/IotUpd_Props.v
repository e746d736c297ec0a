(** What a legacy device object shows when its updates overlap (C138). *)
From Coq Require Import Lia.
From Verif Require Import Base Base_Lemmas Py Iot_Model Iot_Spec Iot_Proofs Iot_Props IotUpd_Model IotUpd_Spec IotUpd_Proofs.
Open Scope string_scope.
Open Scope list_scope.
Open Scope Z_scope.

(** ** The property *)
(** Whatever happens before, and whichever updates are under way then: an update that
    begins after the last change of the device and returns leaves the object showing the
    device as it is, and so it stays, whatever else begins, fails, is cancelled or
    returns.  [n]: the number of requests of an update may vary by one. *)
Theorem legacy_update_current_partial : forall n s es w es' id k c,
  s_ups s = [] -> s_lu s <> [] -> ordinary s ->
  asked s k c -> known s k -> ~ failed_once s k ->
  Forall (knows k) (es ++ [EDevice w]) -> sized n s (es ++ EDevice w :: es') ->
  Forall no_change es' ->
  let changed := run s (es ++ [EDevice w]) in
  under_way id (s_ups changed) = false -> returned id changed (run changed es') ->
  current (run changed es') k c.
Proof.
  intros n s es w es' id k c U L O A K F Kn Z N changed D R.
  assert (P0 : Pre n k c s).
  { constructor; [constructor; auto|rewrite U; intros ? []|rewrite U; intros ? []].
    - unfold failed_once, shown in F. destruct (field k "err_code" (s_lu s)); [|reflexivity]. exfalso. apply F. discriminate.
    - rewrite U. intros ? []. }
  assert (Z' : sized n s ((es ++ [EDevice w]) ++ es')) by (rewrite <- app_assoc; exact Z).
  apply sized_app in Z' as [Z1 Z2]. fold changed in Z2.
  pose proof (pre_run n k c _ s P0 Kn Z1) as P1. fold changed in P1.
  destruct (s_world changed k) as [f|] eqn:W; [|destruct (so_known _ _ _ (pre_sound _ _ _ _ P1) W)].
  pose proof (post_run n f k c id changed es' changed (pre_post n f k c id changed P1 W D) N Z2) as [S W' _ [[_ H]|[H _]]].
  - exists f. auto.
  - destruct R as [R1 R2]. destruct (R2 (H R1)).
Qed.
Print Assumptions legacy_update_current_partial.

(** Every update of a bulb makes one or two requests, whatever it learnt to leave out *)
Theorem bulb_requests : forall s es, s_mods s = bulb_modules -> s_limit s = bulb_limit -> sized 1 s es.
Proof.
  intros s es. revert s. induction es as [|e es IH]; intros s M L; [exact I|]. cbn [sized]. destruct (mods_step s e) as [M' L']. split; [|apply IH; congruence].
  destruct e; auto. intros rs P. unfold plan in P. rewrite M, L in P. unfold bulb_modules in P. cbn [map supported m_cmds m_name m_size m_flag] in P.
  destruct (is_supported "smartlife.iot.common.emeter" (s_lu s)), (is_supported "smartlife.iot.common.schedule" (s_lu s)),
    (is_supported "smartlife.iot.common.anti_theft" (s_lu s)), (is_supported "smartlife.iot.common.timesetting" (s_lu s)),
    (is_supported "countdown" (s_lu s)), (is_supported "smartlife.iot.common.cloud" (s_lu s)); vm_compute in P; injection P as <-; cbn; auto.
Qed.
Print Assumptions bulb_requests.
(** So it holds of every bulb *)
Theorem legacy_bulb_current : forall s es w es' id k c,
  s_mods s = bulb_modules -> s_limit s = bulb_limit ->
  s_ups s = [] -> s_lu s <> [] -> asked s k c -> known s k -> ~ failed_once s k -> Forall (knows k) (es ++ [EDevice w]) ->
  Forall no_change es' ->
  let changed := run s (es ++ [EDevice w]) in
  under_way id (s_ups changed) = false -> returned id changed (run changed es') ->
  current (run changed es') k c.
Proof.
  intros s es w es' id k c M L U Lu A K F Kn N. apply (legacy_update_current_partial 1); auto.
  - unfold ordinary. rewrite M. intros m Hm. unfold bulb_modules in Hm. cbn in Hm.
    repeat (destruct Hm as [<-|Hm]; [cbn; split; [intuition discriminate|repeat constructor; cbn; intuition discriminate]|]). destruct Hm.
  - now apply bulb_requests.
Qed.
Print Assumptions legacy_bulb_current.

(** Where one request carries the whole update, which holds of every plug, even an
    update that began before the change shows it when it returns after it. *)
Theorem legacy_one_request : forall s es w es' id k c,
  one_request s -> s_ups s = [] -> s_lu s <> [] -> ordinary s ->
  asked s k c -> known s k -> ~ failed_once s k -> Forall (knows k) (es ++ [EDevice w]) ->
  Forall no_change es' ->
  let changed := run s (es ++ [EDevice w]) in
  returned id changed (run changed es') -> current (run changed es') k c.
Proof.
  intros s es w es' id k c One U L O A K F Kn N changed R.
  assert (P0 : Pre 0 k c s).
  { constructor; [constructor; auto|rewrite U; intros ? []|rewrite U; intros ? []].
    - unfold failed_once, shown in F. destruct (field k "err_code" (s_lu s)); [|reflexivity]. exfalso. apply F. discriminate.
    - rewrite U. intros ? []. }
  pose proof (pre_run 0 k c _ s P0 Kn (one_sized0 _ s One O)) as P1. fold changed in P1.
  destruct (s_world changed k) as [f|] eqn:W; [|destruct (so_known _ _ _ (pre_sound _ _ _ _ P1) W)].
  assert (I1 : Inv f k c changed changed).
  { destruct P1 as [S _ Y]. constructor; auto. intros x Hx. destruct (so_ups _ _ _ S x Hx) as (t & g & E & Nt & G & _).
    destruct (Y x Hx) as [H|(todo & E' & r & Hr & P)].
    - rewrite E in H. cbn in H. destruct t; [congruence|cbn in H; lia].
    - rewrite E' in E. injection E as <- <-. rewrite E'. exists todo, []. split; [reflexivity|]. split; [exact Nt|]. split; [exact G|]. split; [constructor|]. left; eauto. }
  pose proof (inv_run _ _ _ _ es' _ I1 N) as [_ W' _ D]. destruct R as [R1 R2]. destruct (D id R1) as [H|H]; [destruct (R2 H)|]. exists f. auto.
Qed.
Print Assumptions legacy_one_request.
Theorem plug_one_request : forall s, s_mods s = plug_modules -> s_limit s = plug_limit -> one_request s /\ ordinary s.
Proof.
  intros s M L. unfold one_request, ordinary. rewrite M, L. split; [split|].
  - intros m Hm. unfold plug_modules in Hm. cbn in Hm. repeat (destruct Hm as [<-|Hm]; [cbn; lia|]). destruct Hm.
  - cbn. unfold plug_limit. lia.
  - intros m Hm. unfold plug_modules in Hm. cbn in Hm.
    repeat (destruct Hm as [<-|Hm]; [cbn; split; [intuition discriminate|repeat constructor; cbn; intuition discriminate]|]). destruct Hm.
Qed.
Print Assumptions plug_one_request.

(** The very first update of an object: two queries at least, the first for the system
    information alone. *)
Theorem legacy_first_update : forall s id es id' k c,
  s_ups s = [] -> s_lu s = [] -> ordinary s -> known s "system" -> known s k ->
  ((k = "system" /\ c = "get_sysinfo") \/ exists m, In m (s_mods s) /\ m_name m = k /\ In c (m_cmds m)) ->
  Forall no_change es ->
  let s' := run s (EBegin id :: EAnswer true :: es) in
  returned id' s s' -> current s' k c.
Proof.
  intros s id es id' k c U L O Ks K A N s' R.
  destruct (s_world s "system") as [g|] eqn:Ws; [|destruct (Ks Ws)].
  destruct (s_world s k) as [f|] eqn:Wk; [|destruct (K Wk)].
  assert (Lu : merge_replies [] [reply_to (s_world s) base] = [("system", [("get_sysinfo", g "get_sysinfo")])]).
  { unfold base, create_request, reply_to. cbn [map fst snd]. rewrite Ws. cbn. reflexivity. }
  set (s1 := with_lu (with_ups s []) [("system", [("get_sysinfo", g "get_sysinfo")])]).
  assert (Es : s' = run (match plan s1 with Ok rs => with_ups s1 (s_ups s1 ++ [(id, Asking rs [])]) | Err _ => s1 end) es).
  { unfold s'. cbn [run fold_left]. f_equal. cbn [step]. rewrite U, L. cbn [under_way existsb step s_ups with_ups app negb s_world]. rewrite Lu. reflexivity. }
  rewrite Es in *. clear s' Es.
  assert (A1 : asked s1 k c).
  { destruct A as [A|(m & H1 & H2 & H3)]; [left; exact A|right]. exists m. repeat (split; [assumption|]). unfold supported.
    destruct (m_cmds m); [destruct H3|]. apply no_error_supported. unfold field, s1. cbn [s_lu with_lu]. cbn [dget].
    destruct (String.eqb (m_name m) "system"); reflexivity. }
  assert (S1 : Sound k c s1).
  { constructor.
    - discriminate.
    - exact O.
    - exact A1.
    - unfold field, s1. cbn [s_lu with_lu dget]. destruct (String.eqb k "system"); reflexivity.
    - unfold s1. cbn [s_world with_lu with_ups]. congruence.
    - intros ? []. }
  assert (I1 : Inv f k c s (match plan s1 with Ok rs => with_ups s1 (s_ups s1 ++ [(id, Asking rs [])]) | Err _ => s1 end)).
  { destruct (plan s1) as [rs1|] eqn:P1; [|constructor; auto; intros ? []].
    assert (C : carries f k c (Asking rs1 [])) by exact (plan_carries f k c s1 rs1 O A1 P1).
    constructor; [apply sound_ups; [exact S1|]| | |].
    - intros x [<-|[]]. apply (carries_loose f k c). exact C.
    - exact Wk.
    - intros x [<-|[]]. exact C.
    - auto. }
  pose proof (inv_run _ _ _ _ es _ I1 N) as [_ W' _ D].
  destruct R as [R1 R2]. destruct (D id' R1) as [H|H]; [destruct (R2 H)|]. exists f. auto.
Qed.
Print Assumptions legacy_first_update.

(** ** Where it fails *)
(** A module that once answered with an error is left out of every later update: for
    ever, and whatever the device answers by then, the object shows what it showed. *)
Theorem legacy_failed_module_refuted : forall s es k c,
  s_ups s = [] -> s_lu s <> [] -> ordinary s -> k <> "system" -> failed_once s k ->
  shown (run s es) k c = shown s k c.
Proof.
  intros s es k c U L O Hk F. apply (frozen_run k s es s Hk). constructor; auto.
  - unfold failed_once, shown in F. destruct (is_supported k (s_lu s)) eqn:E; [|reflexivity]. apply no_error_supported in E. congruence.
  - rewrite U. intros ? ? [].
Qed.
Print Assumptions legacy_failed_module_refuted.

(** An update that fails or is cancelled changes nothing that is shown: the replies it
    has are dropped. *)
Theorem legacy_failed_update_silent : forall s e k c,
  match e with EAnswer ok => ok = false | _ => True end -> shown (step s e) k c = shown s k c.
Proof.
  intros s e k c H. destruct e as [id|ok|id|w]; cbn [step]; try reflexivity.
  - destruct (under_way id (s_ups s)); [reflexivity|]. destruct (s_lu s) eqn:E; [reflexivity|]. unfold start. destruct (plan s); reflexivity.
  - subst ok. destruct (s_ups s) as [|[id p] rest]; reflexivity.
Qed.
Print Assumptions legacy_failed_update_silent.

(** ** Cases *)
Definition bulb_world (on : Z) (ems : bool) : device := fun k =>
  if String.eqb k "system" then Some (fun _ => JObj [("light_state", JObj [("on_off", JInt on)])])
  else if String.eqb k "smartlife.iot.common.emeter" then if ems then Some (fun c => JObj [("power_mw", JInt (10800 * on))]) else None
  else if String.eqb k "countdown" then None
  else Some (fun c => JObj [("err_code", JInt 0)]).
Definition new_bulb (on : Z) (ems : bool) : sys := mkSys [] bulb_modules bulb_limit (bulb_world on ems) [] [].
Definition bulb (on : Z) (ems : bool) : sys := run (new_bulb on ems) [EBegin 0; EAnswer true; EAnswer true; EAnswer true].
Definition shown_on (s : sys) : option json := option_map (fun j => match j with JObj d => match dget "light_state" d with Some v => v | None => JNull end | _ => JNull end) (shown s "system" "get_sysinfo").
(** The first update: two requests after the sysinfo query; countdown is not known *)
Example bulb_first_case :
  s_done (bulb 0 true) = [0%nat] /\ s_ups (bulb 0 true) = [] /\
  shown_on (bulb 0 true) = Some (JObj [("on_off", JInt 0)]) /\
  failed_once (bulb 0 true) "countdown" /\ ~ failed_once (bulb 0 true) "system" /\
  asked (bulb 0 true) "smartlife.iot.common.emeter" "get_realtime" /\ known (bulb 0 true) "smartlife.iot.common.emeter".
Proof.
  split; [vm_compute; reflexivity|]. split; [vm_compute; reflexivity|]. split; [vm_compute; reflexivity|].
  split; [unfold failed_once; vm_compute; discriminate|]. split; [unfold failed_once; vm_compute; intro H; apply H; reflexivity|].
  split; [|unfold known; vm_compute; discriminate].
  right. exists (mkM "smartlife.iot.common.emeter" 2048 ["get_realtime"; "get_daystat"; "get_monthstat"] true).
  split; [vm_compute; left; reflexivity|]. split; [reflexivity|]. split; [left; reflexivity|vm_compute; reflexivity].
Qed.
(** Update 1 has read the system information when the bulb is switched on and update 2
    begins; update 1 returns in between and still shows the bulb off, update 2 shows it
    on. *)
Example bulb_overlap_case :
  let changed := run (bulb 0 true) ([EBegin 1; EAnswer true] ++ [EDevice (bulb_world 1 true)]) in
  under_way 2 (s_ups changed) = false /\
  shown_on (run changed [EBegin 2; EAnswer true]) = Some (JObj [("on_off", JInt 0)]) /\
  s_done (run changed [EBegin 2; EAnswer true]) = [1; 0]%nat /\
  s_done changed = [0]%nat /\ s_done (run changed [EBegin 2; EAnswer true; EAnswer true; EAnswer true]) = [2; 1; 0]%nat /\
  shown_on (run changed [EBegin 2; EAnswer true; EAnswer true; EAnswer true]) = Some (JObj [("on_off", JInt 1)]).
Proof. vm_compute. repeat split; reflexivity. Qed.
(** A bulb that could not answer for its energy meter at first: the object never learns
    of it *)
Example bulb_meter_lost_case :
  let es := [EDevice (bulb_world 1 true); EBegin 1; EAnswer true; EAnswer true] in
  failed_once (bulb 1 false) "smartlife.iot.common.emeter" /\ s_done (run (bulb 1 false) es) = [1; 0]%nat /\
  shown (run (bulb 1 false) es) "smartlife.iot.common.emeter" "get_realtime" = None /\
  shown (run (bulb 1 true) es) "smartlife.iot.common.emeter" "get_realtime" = Some (JObj [("power_mw", JInt 10800)]).
Proof. split; [unfold failed_once; vm_compute; discriminate|]. vm_compute. repeat split; reflexivity. Qed.
Example plug_case : one_request (mkSys [("system", [])] plug_modules plug_limit (bulb_world 1 true) [] []).
Proof. apply plug_one_request; reflexivity. Qed.

(** ** Updates return *)
(** An update under way returns once the queries that are left have been answered, whichever other updates are
    cancelled. *)
Lemma left_remove i (l : list (nat * phase)) : (fold_right (fun u n => (left_of (snd u) + n)%nat) 0%nat (remove i l) <= fold_right (fun u n => (left_of (snd u) + n)%nat) 0%nat l)%nat.
Proof. induction l as [|[j p] l IH]; [cbn; lia|]. cbn [remove filter fst]. unfold remove in IH. destruct (negb (Nat.eqb i j)); cbn [fold_right snd]; lia. Qed.
Lemma left_app (l l' : list (nat * phase)) : fold_right (fun u n => (left_of (snd u) + n)%nat) 0%nat (l ++ l') =
  (fold_right (fun u n => (left_of (snd u) + n)%nat) 0%nat l + fold_right (fun u n => (left_of (snd u) + n)%nat) 0%nat l')%nat.
Proof. induction l as [|u l IH]; [reflexivity|]. cbn. lia. Qed.
Lemma left_pos p : (1 <= left_of p)%nat.
Proof. destruct p; unfold left_of; lia. Qed.
Theorem legacy_update_returns : forall es s id,
  under_way id (s_ups s) = true \/ In id (s_done s) -> all_planned s -> Forall (undisturbed id) es ->
  (queries_left s <= List.length (filter (fun e => match e with EAnswer _ => true | _ => false end) es))%nat ->
  In id (s_done (run s es)).
Proof.
  induction es as [|e es IH]; intros s id U P N L.
  - cbn in *. destruct U as [U|U]; [|exact U]. unfold queries_left in L. destruct (s_ups s) as [|[i p] l]; [discriminate U|]. cbn [fold_right snd filter List.length] in L. exfalso. pose proof (left_pos p). lia.
  - inversion N as [|? ? N1 N2]; subst. cbn [run fold_left]. fold (run (step s e) es). destruct e as [i|ok|i|w]; [destruct N1| | |].
    + cbn in N1. subst ok. cbn [filter List.length] in L. unfold queries_left in L. cbn [step]. destruct (s_ups s) as [|[i p] rest] eqn:Hu.
      { destruct U as [U|U]; [discriminate U|]. apply IH; [now right|exact P|exact N2|]. unfold queries_left. rewrite Hu. cbn. lia. }
      assert (Hp : p <> First) by (apply (P i p); rewrite Hu; now left).
      assert (Pr : forall j q, In (j, q) rest -> q <> First) by (intros j q I; apply (P j q); rewrite Hu; now right).
      assert (Ur : under_way id rest = true \/ In id (i :: s_done s)).
      { destruct U as [U|U]; [|right; now right]. cbn in U. destruct (Nat.eqb_spec id i) as [->|]; [right; now left|left; exact U]. }
      cbn [fold_right snd] in L. cbn [negb]. destruct p as [|todo got]; [now elim Hp|]. destruct todo as [|r [|r2 todo]].
      * apply IH; [exact Ur|exact Pr|exact N2|]. unfold queries_left. cbn in L |- *. lia.
      * apply IH; [exact Ur|exact Pr|exact N2|]. unfold queries_left. cbn in L |- *. lia.
      * apply IH; [|intros j q I; cbn in I; apply in_app_iff in I; destruct I as [I|[I|[]]]; [exact (Pr j q I)|injection I as <- <-; discriminate]|exact N2|].
        -- cbn [s_ups s_done with_ups]. destruct Ur as [Ur|[->|Ur]]; [left|left|right; exact Ur]; unfold under_way; rewrite existsb_app; unfold under_way in *; [now rewrite Ur|].
           cbn. rewrite Nat.eqb_refl. apply orb_true_r.
        -- unfold queries_left. cbn [s_ups with_ups]. rewrite left_app. cbn in L |- *. lia.
    + cbn in N1. apply IH; [|intros j q I; cbn in I; apply In_remove in I; exact (P j q I)|exact N2|].
      * cbn [step s_ups s_done with_ups]. destruct U as [U|U]; [left|now right]. unfold under_way in *. apply existsb_exists in U. destruct U as (x & Ix & Ex).
        apply existsb_exists. exists x. split; [|exact Ex]. unfold remove. apply filter_In. split; [exact Ix|]. apply Nat.eqb_eq in Ex. subst. apply negb_true_iff, Nat.eqb_neq. congruence.
      * unfold queries_left in *. cbn [step s_ups with_ups]. pose proof (left_remove i (s_ups s)). cbn in L. lia.
    + apply IH; [exact U|exact P|exact N2|]. exact L.
Qed.
Print Assumptions legacy_update_returns.
Example legacy_update_returns_ex :
  let s := run (bulb 0 true) [EBegin 1; EBegin 2] in
  under_way 1 (s_ups s) = true /\ all_planned s /\ queries_left s = 4%nat /\ s_done (run s [EAnswer true; ECancel 2; EAnswer true]) = [1; 0]%nat.
Proof. split; [reflexivity|]. split; [|split; vm_compute; reflexivity]. intros i p I. vm_compute in I. destruct I as [I|[I|[]]]; injection I as <- <-; discriminate. Qed.

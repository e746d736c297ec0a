(** C148: a hub and its children, over protocol, transport and device, show what the hub and the
    children say. *)
From Verif Require Import Base Base_Lemmas Py Codes_Model Retry_Model Smart_Model Smart_Spec Child_Model Child_Spec Hub_Model Hub_Spec Hub_Proofs Hub_Props.
From Verif Require Import Stack_Spec Stack_Props Stack2_Props Smod_Model Smod_Spec Whole_Model Whole_Spec Whole_Proofs Whole_Props.
From Verif Require Import Family_Model Family_Spec Family_Proofs Family_Props WholeHub_Model WholeHub_Spec WholeHub_Proofs.
Open Scope string_scope.
Open Scope list_scope.
Open Scope Z_scope.
Notation world := Smart_Model.world.
Notation reports := Family_Spec.reports.

(** ** An update as it is made is one of those of C135, whatever is below *)
Theorem family_program_is_update : forall D A (one : A -> Z -> world D -> world D * list Retry_Model.act * res (dict rval)) hub kid par kpar make
    is_hub uc comps init now f w w' f' r rs out,
  dwf (f_kids f) ->
  perform one (update_family hub kid par kpar make is_hub uc comps init now f) w = (w', (f', r, rs, out)) ->
  exists n lists kn, let world := mkWorld n comps lists init kn in
    family_update make is_hub uc world now f = (f', rs, out) /\ snd (fst (own_update world now f)) = r.
Proof.
  intros D A one hub kid par kpar make is_hub uc comps init now f w w' f' r rs out W H. unfold update_family in H. rewrite perform_via in H.
  destruct (perform _ (own_object _ _ _ _ _) w) as [w1 [[d1 r1] o1]] eqn:E1. destruct (own_object_net _ _ _ _ _ _ _ _ _ E1) as (n & lists & O).
  assert (Q : forall kn, exists n lists kn', own_update (mkWorld n comps lists init kn') now f = (d1, r1, o1) /\ kn' = kn) by (intros kn; now exists n, lists, kn).
  destruct o1 as [[]|e].
  2: { exists n, lists, (fun _ _ _ => Err Cancelled). cbv zeta. unfold family_update. rewrite O. cbn [perform] in H. pose proof (f_equal snd H) as X. cbn [snd] in X.
       injection X as <- <- <- <-. now split. }
  destruct (children_info make (mkFam d1 (f_kids f) (f_logged f))) as [f1 [b|e]] eqn:C.
  2: { exists n, lists, (fun _ _ _ => Err Cancelled). cbv zeta. unfold family_update. rewrite O, C. cbn [perform] in H. pose proof (f_equal snd H) as X. cbn [snd] in X.
       injection X as <- <- <- <-. now split. }
  destruct (b || uc || negb is_hub) eqn:B.
  - rewrite perform_via in H. destruct (perform _ (update_kids _ _ _ _ _) w1) as [w2 [[kids2 rs2] o2]] eqn:E2.
    destruct (update_kids_net _ _ _ _ _ _ _ _ _ (children_info_wf make _ _ _ C W) E2) as (kn & K).
    exists n, lists, kn. cbv zeta. unfold family_update. rewrite O, C, B. cbn [w_kids]. rewrite K. cbn [perform] in H. pose proof (f_equal snd H) as X. cbn [snd] in X.
    injection X as <- <- <- <-. now split.
  - exists n, lists, (fun _ _ _ => Err Cancelled). cbv zeta. unfold family_update. rewrite O, C, B. cbn [perform] in H. pose proof (f_equal snd H) as X. cbn [snd] in X.
    injection X as <- <- <- <-. now split.
Qed.
Print Assumptions family_program_is_update.

(** ** Every program that talks to a hub and to its children has, over each transport, the results and
    the effects it has with the children at hand, while network and sessions are healthy. *)
Definition relayed_query {D} life act send (q : Hub_Spec.ask) (rc : Z) : Prop :=
  match q with ToHub _ => True | ToKid id req => 0 <= rc /\ proper req /\ @relays D life act send id req end.
Lemma always_leads {A R} (P : A -> Z -> Prop) (p : prog A R) qs rs r : leads p qs rs r -> always P p -> Forall (fun x => P (fst x) (snd x)) qs.
Proof. induction 1 as [|q n k qs rs tr a r _ IH]; intros H; [constructor|]. destruct H as (H1 & H2). constructor; [exact H1|auto]. Qed.
Lemma perform_all {D E A R} (one : A -> Z -> world D -> world D * list Retry_Model.act * res (dict rval))
    (two : A -> Z -> world E -> world E * list Retry_Model.act * res (dict rval)) (w w' : world D) (v : world E) (Q : world E -> Prop) (p : prog A R) r :
  perform one p w = (w', r) ->
  (forall qs rs, leads p qs rs r -> ask_all one w qs = (w', rs) -> exists v', ask_all two v qs = (v', rs) /\ Q v') ->
  exists v', perform two p v = (v', r) /\ Q v'.
Proof.
  intros H G. destruct (perform_leads _ _ _ _ _ H) as (qs & rs & H1 & H2). destruct (G _ _ H2 H1) as (v' & H3 & H4).
  exists v'. split; [|exact H4]. exact (leads_perform _ _ _ _ _ H2 _ _ H3).
Qed.
Theorem hub_program_over_klap : forall R md5 sha1 sha256 enc_block dec_block json_loads S app auth c encode script kid x b (p : prog Hub_Spec.ask R) w' r y o,
  let direct := direct_send _ S _ _ encode as_dict script app (KlapPeer_Spec.understood json json_loads) in
  Klap_Spec.crypto_ok sha256 enc_block dec_block ->
  In auth (Klap_Model.candidates md5 sha1 sha256 c) ->
  klap_fresh md5 sha1 sha256 enc_block dec_block json_loads S app auth c x ->
  always (relayed_query (ticks script) (inside kid) direct) p ->
  perform (through (stack_send _ _ S _ _ (klap_client md5 sha1 sha256 enc_block dec_block json_loads c) encode as_dict script)
             (stack_reset _ _ S Klap_Model.klap_reset)) p
    (mkW (mkStack (fst x) 0 []) b []) = (w', r) ->
  KlapPeer_Spec.together md5 sha1 sha256 enc_block dec_block json json_loads S app auth c
    x (klap_happenings (k_trace (wdev w'))) y o ->
  KlapPeer_Spec.all_healthy sha256 S auth (klap_happenings (k_trace (wdev w'))) ->
  exists v', perform (at_hand (ticks script) (inside kid) direct (fun y => y)) p (mkW (KlapPeer_Spec.dv_state (snd x), 0%nat) b []) = (v', r) /\
  (fst (wdev v') = KlapPeer_Spec.dv_state (snd y) /\ wlog v' = wlog w').
Proof.
  intros R md5 sha1 sha256 enc_block dec_block json_loads S app auth c encode script kid x b p w' r y o direct H1 H2 H3 Ha H H4 H5.
  refine (perform_all _ _ _ w' _ (fun v' => fst (wdev v') = KlapPeer_Spec.dv_state (snd y) /\ wlog v' = wlog w') p r H _).
  intros qs rs L Hq. eapply whole_klap_hub; try eassumption. unfold relayed_all. exact (always_leads _ _ _ _ _ L Ha).
Qed.
Print Assumptions hub_program_over_klap.
Theorem hub_program_over_aes : forall R enc_block dec_block json_loads open_key login_text S app accepts welcome refusal encode script kid x b
    (p : prog Hub_Spec.ask R) w' r y o,
  let direct := direct_send _ S _ _ encode as_dict script app (AesPeer_Spec.understood json_loads) in
  Aes_Props.cipher_ok enc_block dec_block ->
  AesPeer_Spec.speaks json_loads S app welcome refusal ->
  AesPeer_Spec.knows login_text accepts ->
  aes_fresh enc_block dec_block json_loads open_key login_text S app accepts welcome refusal x ->
  always (relayed_query (ticks script) (inside kid) direct) p ->
  perform (through (stack_send _ _ S _ _ (aes_client enc_block dec_block json_loads open_key login_text) encode as_dict script)
             (stack_reset _ _ S Aes_Model.reset)) p
    (mkW (mkStack (fst x) 0 []) b []) = (w', r) ->
  AesPeer_Spec.together enc_block dec_block json_loads open_key login_text S app accepts welcome refusal
    x (aes_happenings (k_trace (wdev w'))) y o ->
  AesPeer_Spec.all_healthy S (aes_happenings (k_trace (wdev w'))) ->
  exists v', perform (at_hand (ticks script) (inside kid) direct (fun y => y)) p (mkW (AesPeer_Spec.dv_state (snd x), 0%nat) b []) = (v', r) /\
  (fst (wdev v') = AesPeer_Spec.dv_state (snd y) /\ wlog v' = wlog w').
Proof.
  intros R enc_block dec_block json_loads open_key login_text S app accepts welcome refusal encode script kid x b p w' r y o direct H1 H2 H3 H4 Ha H H5 H6.
  refine (perform_all _ _ _ w' _ (fun v' => fst (wdev v') = AesPeer_Spec.dv_state (snd y) /\ wlog v' = wlog w') p r H _).
  intros qs rs L Hq. eapply whole_aes_hub; try eassumption. unfold relayed_all. exact (always_leads _ _ _ _ _ L Ha).
Qed.
Print Assumptions hub_program_over_aes.

(** ** A truthful hub with truthful children *)
Notation to_child := (fun x q => ToKid x (CDict q)).
Lemma kids_dict (kans : string -> string -> option json -> answer) kpar (kids : dict dev) rs :
  Forall2 (fun (xk : string * dev) (xr : string * report) => fst xk = fst xr /\
    forall req, requested (snd xr) = Some req -> forall m, dget m (lu (snd xk)) =
      if in_dec string_dec m req then Some (shown req (told_by kans (fst xk) (kpar (fst xk)) m)) else None) kids rs ->
  dwf kids -> kids_shown kans kpar rs kids.
Proof.
  intros F W x r req k I Rq E. induction F as [|[y ky] [z rz] kids rs (Ez & Hz) F IH]; [destruct I|]. cbn [fst snd] in *. subst z.
  inversion W as [|? ? N W']; subst. cbn [dget] in E.
  assert (K : map fst kids = map fst rs) by (clear - F; induction F as [|? ? ? ? (X & _) _ IH]; [reflexivity|]; cbn [map]; congruence).
  destruct (String.eqb_spec x y) as [->|Ne].
  - injection E as <-. destruct I as [I|I].
    + injection I as <-. exact (Hz req Rq).
    + exfalso. apply N. change (In y (map fst kids)). rewrite K. apply in_map_iff. now exists (y, r).
  - destruct I as [I|I]; [now injection I as -> _|]. exact (IH W' I E).
Qed.
Lemma kids_same kids kids' : Forall2 (fun (xk xk' : string * dev) => fst xk' = fst xk /\ info (snd xk') = info (snd xk)) kids kids' ->
  dkeys kids' = dkeys kids /\ forall x, option_map info (dget x kids') = option_map info (dget x kids).
Proof.
  induction 1 as [|[x k] [x' k'] l l' (E1 & E2) _ (IH1 & IH2)]; [now split|]. cbn [fst snd] in *. subst x'. unfold dkeys in *. cbn [map fst]. split; [congruence|].
  intros y. cbn [dget]. destruct (String.eqb y x); [cbn [option_map]; congruence|apply IH2].
Qed.
(** What follows from the hub's own part of the update *)
Lemma family_rest D life act (send : D -> Smart_Model.request -> D * res (dict json)) treset kans make par kpar comps init is_hub uc now f (w w' : world D) f' r rs out :
  (forall id d m p, snd (act id d m p) = kans id m p) -> dwf (f_kids f) ->
  perform (at_hand life act send treset) (update_family ToHub to_child par kpar make is_hub uc comps init now f) w = (w', (f', r, rs, out)) ->
  exists w1 o1, perform (smart_ask send treset) (own_object par comps init now f) w = (w1, (f_dev f', r, o1)) /\ (out = Ok tt -> o1 = Ok tt) /\
    kids_shown kans kpar rs (f_kids f') /\
    (forall l cs, o1 = Ok tt -> reports (lu (f_dev f')) l cs -> objects l -> with_ids cs -> (forall x i c, exists k, make x i c = Ok k) ->
       out = Ok tt /\ (forall x, In x (dkeys (f_kids f')) <-> x <> "" /\ has l x /\ has cs x) /\
       (forall x k, dget x (f_kids f') = Some k -> last_entry l x (info k)) /\
       ((is_hub = true -> uc = true) -> map fst rs = dkeys (f_kids f'))).
Proof.
  intros Ha Hk H.
  pose proof (family_program_is_update _ _ _ _ _ _ _ _ _ _ _ _ _ _ _ _ _ _ _ _ Hk H) as (n0 & lists0 & kn0 & HU & _).
  unfold update_family in H. rewrite perform_via in H.
  destruct (perform _ (own_object par comps init now f) w) as [w1 [[d1 r1] o1]] eqn:E1.
  change (fun q : dict json => at_hand life act send treset (ToHub q)) with (smart_ask send treset) in E1.
  exists w1, o1.
  destruct o1 as [[]|e].
  2: { cbn [perform] in H. pose proof (f_equal snd H) as X. cbn [snd] in X. injection X as <- <- <- <-. split; [reflexivity|]. split; [discriminate|].
       split; [intros x r0 q k []|]. intros l cs X. discriminate X. }
  destruct (children_info make (mkFam d1 (f_kids f) (f_logged f))) as [f1 cb] eqn:C.
  pose proof (children_info_wf make _ _ _ C Hk) as Wk. pose proof (children_info_dev make _ _ _ C) as Fd. cbn [f_dev] in Fd.
  assert (Succ : forall l cs, reports (lu d1) l cs -> objects l -> with_ids cs -> (forall x i c, exists k, make x i c = Ok k) -> exists bb, cb = Ok bb).
  { intros l cs ((o0 & L1 & L2) & (oc & C1 & C2)) Ol Oc Mk. unfold children_info in C. cbn [f_dev] in C. unfold LIST, COMPONENTS in C. rewrite L1, C1 in C.
    assert (T : truthy (JObj o0) = true) by (destruct o0; [discriminate|reflexivity]). rewrite T in C.
    unfold create_delete, jitem, dindex in C. rewrite C2 in C. cbn [bind jiter] in C. rewrite L2 in C. cbn [bind jiter] in C.
    destruct (comp_dict_ok cs [] Oc) as (cd & Ecd). rewrite Ecd in C. cbn [f_kids f_logged f_dev] in C.
    destruct (visit_all_ok make Mk cd (dkeys (f_kids f)) l (mkAcc (f_kids f) (f_logged f) [] false) Ol) as (a & Va). rewrite Va in C. injection C as _ <-. eauto. }
  destruct cb as [bb|e].
  2: { cbn [perform] in H. pose proof (f_equal snd H) as X. cbn [snd] in X. injection X as <- <- <- <-. rewrite Fd. split; [reflexivity|]. split; [discriminate|].
       split; [intros x r0 q k []|]. intros l cs _ R0 Ol Oc Mk. destruct (Succ l cs R0 Ol Oc Mk) as (b0 & X). discriminate X. }
  destruct (bb || uc || negb is_hub) eqn:B.
  - rewrite perform_via in H. destruct (kids_say life act send treset kans Ha kpar (lu (f_dev f1)) now (f_kids f1) w1) as (w2 & kids2 & rs2 & _ & E2 & F1 & F2).
    change (fun q : Hub_Spec.ask => at_hand life act send treset q) with (at_hand life act send treset) in H. rewrite E2 in H. cbn [perform] in H.
    pose proof (f_equal snd H) as X. cbn [snd] in X. injection X as <- <- <- <-. cbn [f_kids f_dev]. rewrite Fd. split; [reflexivity|]. split; [reflexivity|].
    destruct (kids_same _ _ F1) as (K1 & K2).
    assert (Wk2 : dwf kids2) by (unfold dwf; now rewrite K1).
    split; [exact (kids_dict kans kpar kids2 rs2 F2 Wk2)|]. intros l cs _ R0 _ _ _. split; [reflexivity|].
    assert (R1 : reports (lu (f_dev (mkFam (f_dev f1) kids2 (f_logged f1)))) l cs) by (cbn [f_dev]; now rewrite Fd).
    destruct (family_children make is_hub uc _ now f _ _ l cs HU R1) as (G1 & G2). cbn [f_kids] in *. split; [exact G1|]. split.
    + intros x k E. destruct (G2 x k E) as (i0 & L0 & ->). exact L0.
    + intros _. clear - F2. induction F2 as [|[x k] [y ry] l l' (E & _) _ IH]; [reflexivity|]. cbn [fst snd] in E. subst. unfold dkeys in *. cbn [map fst]. now rewrite IH.
  - cbn [perform] in H. pose proof (f_equal snd H) as X. cbn [snd] in X. injection X as <- <- <- <-. rewrite Fd. split; [reflexivity|]. split; [reflexivity|].
    split; [intros x r0 q k []|]. intros l cs _ R0 _ _ _. split; [reflexivity|].
    assert (R1 : reports (lu (f_dev f1)) l cs) by now rewrite Fd.
    destruct (family_children make is_hub uc _ now f _ _ l cs HU R1) as (G1 & G2). split; [exact G1|]. split.
    + intros x k E. destruct (G2 x k E) as (i0 & L0 & ->). exact L0.
    + intros U. exfalso. destruct is_hub; [rewrite (U eq_refl) in B|]; destruct bb; try destruct uc; discriminate B.
Qed.
(** Children at hand or behind the hub: for an update it makes no difference. *)
Lemma family_at_hand D life act (send : D -> Smart_Model.request -> D * res (dict json)) treset make par kpar comps init is_hub uc now f (w w' : world D) f' r rs out :
  (forall id req, proper req -> relays life act send id req) -> modest rs ->
  perform (through send treset) (update_family ToHub to_child par kpar make is_hub uc comps init now f) w = (w', (f', r, rs, out)) ->
  perform (at_hand life act send treset) (update_family ToHub to_child par kpar make is_hub uc comps init now f) w = (w', (f', r, rs, out)).
Proof.
  intros Hr Hm H. destruct (perform_all _ (at_hand life act send treset) w w' w (fun v => v = w') _ _ H) as (v & E & ->); [|exact E].
  intros qs rs0 L Q. exists w'. split; [|reflexivity]. rewrite <- all_through; [exact Q|].
  pose proof (leads_family ToHub to_child par kpar make is_hub uc comps init now f qs rs0 f' r rs out L Hm) as F. revert F. apply Forall_impl.
  intros [q n] [(q0 & E)|(id & l & E & P & N)]; cbn [fst snd] in *; subst q; [exact I|]. split; [exact N|]. split; [exact P|]. now apply Hr.
Qed.
Lemma update_shows_lemma D life act (send : D -> Smart_Model.request -> D * res (dict json)) treset ans kans make par kpar val comps init is_hub uc now f
    (w w' : world D) f' r rs out :
  honest send ans -> live send -> complete send -> 2 <= wbatch w ->
  (forall id d m p, snd (act id d m p) = kans id m p) ->
  started (f_dev f) = true -> dwf (lu (f_dev f)) -> dwf (f_kids f) ->
  perform (at_hand life act send treset) (update_family ToHub to_child par kpar make is_hub uc comps init now f) w = (w', (f', r, rs, out)) ->
  (forall req k, requested r = Some req -> In k req -> known ans k (par k) (val k)) ->
  exists req, requested r = Some req /\
    (forall k, dget k (lu (f_dev f')) = then_shown req val (fun k => dget k (lu (f_dev f))) k) /\
    (out = Ok tt -> informs (val "get_device_info") (info (f_dev f'))) /\
    family_shown kans kpar make is_hub uc f' rs out (In "get_device_info" req /\ exists i, informs (val "get_device_info") i).
Proof.
  intros Hh Hl Hc Hb Ha Hs Hd Hk H Hv.
  destruct (family_rest _ _ _ _ _ _ _ _ _ _ _ _ _ _ _ _ _ _ _ _ _ Ha Hk H) as (w1 & o1 & E1 & Ho & Hkids & Hfam).
  unfold own_object in E1. rewrite Hs in E1.
  destruct (modules_honest send ans Hh Hl Hc treset par val false now (f_dev f) Ret w w1 (f_dev f', r, o1) Hb Hd E1
    (fun x r0 o => ex_intro _ r0 (conj eq_refl eq_refl)) Hv) as (req & Hq & _ & _ & _ & _ & Hg & Hi).
  cbn [fst snd] in *. exists req. split; [exact Hq|]. split; [exact Hg|]. split; [|split; [exact Hkids|]].
  - intros Eo. destruct Hi as [(i & (_ & V) & N & _ & E)|(_ & N)]; [rewrite E; now split|]. exfalso. apply N. auto.
  - intros l cs (I1 & i & V & Ni) R0 Ol Oc Mk. apply Hfam; try assumption.
    destruct Hi as [(i0 & _ & _ & X & _)|(G & _)]; [exact X|]. exfalso. apply Ni. now apply G.
Qed.
Lemma first_update_shows_lemma D life act (send : D -> Smart_Model.request -> D * res (dict json)) treset ans kans make par kpar val comps init is_hub uc now
    (w w' : world D) f' r rs out i :
  honest send ans -> live send -> complete send -> 2 <= wbatch w ->
  (forall id d m p, snd (act id d m p) = kans id m p) ->
  (forall k, In k (first_methods ++ list_methods) -> known ans k JNull (val k)) -> informs (val "get_device_info") i ->
  (forall resp, (forall k, dget k resp = if in_dec string_dec k first_methods then Some (shown first_methods (val k)) else None) ->
     comps resp = Ok true /\ exists l, init resp = Ok l) ->
  perform (at_hand life act send treset) (update_family ToHub to_child par kpar make is_hub uc comps init now new_family) w = (w', (f', r, rs, out)) ->
  (forall req k, requested r = Some req -> In k req -> known ans k (par k) (val k)) ->
  exists req, requested r = Some req /\
    (forall k, dget k (lu (f_dev f')) = then_shown req val (then_shown list_methods val (then_shown first_methods val (fun _ => None))) k) /\
    info (f_dev f') = i /\
    family_shown kans kpar make is_hub uc f' rs out True.
Proof.
  intros Hh Hl Hc Hb Ha Hf (Vi & Ni) Hin H Hv.
  destruct (family_rest _ _ _ _ _ _ _ _ _ _ _ _ _ _ _ _ _ _ _ _ _ Ha (dwf_nil : dwf (f_kids new_family)) H) as (w1 & o1 & E1 & Ho & Hkids & Hfam).
  unfold own_object in E1. cbn [f_dev new_family started new_dev f_kids negb perform] in E1.
  assert (W0 : dwf initial_query) by (repeat constructor; cbn; intuition discriminate).
  destruct (ask_many send ans Hh Hl Hc treset initial_query val w W0 ltac:(discriminate) Hb) as (wa & tr & ra & Ea & Ba & Wa & Ga).
  { intros m p E. apply dget_In in E. assert (X : In m first_methods /\ p = JNull).
    { cbn in E. destruct E as [E|[E|[E|[]]]]; injection E as <- <-; cbn; auto. }
    destruct X as (X & ->). apply Hf, in_or_app. now left. }
  rewrite Ea in E1.
  assert (GK : forall k, dget k (keep ra) = if in_dec string_dec k first_methods then Some (shown first_methods (val k)) else None).
  { intros k. rewrite dget_keep, Ga. destruct (in_dec string_dec k first_methods) as [I|N].
    - assert (M : dmem k initial_query = true) by (apply dmem_keys; exact I). rewrite M. now destruct (val k).
    - destruct (dmem k initial_query) eqn:M; [|reflexivity]. exfalso. apply N. now apply dmem_keys in M. }
  assert (T : try_get "get_device_info" (keep ra) = Ok i).
  { apply try_get_json; [exact Ni|]. rewrite GK. destruct (in_dec string_dec "get_device_info" first_methods) as [_|X]; [now rewrite Vi|]. exfalso. apply X. cbn. auto. }
  rewrite T in E1. destruct (Hin _ GK) as (Ec & l & El). rewrite Ec in E1. cbv zeta in E1. cbn [andb negb] in E1. cbn [perform] in E1.
  assert (W1 : dwf lists_query) by (repeat constructor; cbn; intuition discriminate).
  destruct (ask_many send ans Hh Hl Hc treset lists_query val wa W1 ltac:(discriminate) ltac:(lia)) as (wb & tr2 & rb & Eb & Bb & Wb & Gb).
  { intros m p E. apply dget_In in E. assert (X : In m list_methods /\ p = JNull).
    { cbn in E. destruct E as [E|[E|[]]]; injection E as <- <-; cbn; auto. }
    destruct X as (X & ->). apply Hf, in_or_app. now right. }
  rewrite Eb in E1. rewrite El in E1.
  assert (GL : forall k, dget k (keep rb) = if in_dec string_dec k list_methods then Some (shown list_methods (val k)) else None).
  { intros k. rewrite dget_keep, Gb. destruct (in_dec string_dec k list_methods) as [I|N].
    - assert (M : dmem k lists_query = true) by (apply dmem_keys; exact I). rewrite M. now destruct (val k).
    - destruct (dmem k lists_query) eqn:M; [|reflexivity]. exfalso. apply N. now apply dmem_keys in M. }
  set (d0 := cloud_first now _) in E1.
  assert (Wka : dwf (keep ra)) by (unfold dwf; rewrite keys_keep; exact Wa).
  assert (Wkb : dwf (keep rb)) by (unfold dwf; rewrite keys_keep; exact Wb).
  assert (Lu : lu d0 = dupdate (dupdate [] (keep ra)) (keep rb)) by reflexivity.
  assert (Wd : dwf (lu d0)) by (rewrite Lu; apply dwf_dupdate, dwf_dupdate, dwf_nil).
  assert (G0 : forall k, dget k (lu d0) = then_shown list_methods val (then_shown first_methods val (fun _ => None)) k).
  { intros k. rewrite Lu, dget_dupdate_wf by exact Wkb. unfold then_shown. rewrite GL. destruct (in_dec string_dec k list_methods); [reflexivity|].
    rewrite dget_dupdate_wf by exact Wka. rewrite GK. now destruct (in_dec string_dec k first_methods). }
  destruct (modules_honest send ans Hh Hl Hc treset par val true now d0 Ret wb w1 (f_dev f', r, o1) ltac:(lia) Wd E1
    (fun x r0 o => ex_intro _ r0 (conj eq_refl eq_refl)) Hv) as (req & Hq & _ & _ & _ & _ & Hg & Hi).
  cbn [fst snd] in *. exists req. split; [exact Hq|].
  assert (Hg2 : forall k, dget k (lu (f_dev f')) = then_shown req val (then_shown list_methods val (then_shown first_methods val (fun _ => None))) k).
  { intros k. rewrite Hg. unfold then_shown at 1 2. destruct (in_dec string_dec k req); [reflexivity|apply G0]. }
  split; [exact Hg2|].
  assert (Gi : dget "get_device_info" (lu (f_dev f')) = Some (RVal i)).
  { rewrite Hg2. unfold then_shown. destruct (in_dec string_dec "get_device_info" req); [now rewrite Vi|].
    destruct (in_dec string_dec "get_device_info" list_methods) as [X|_]; [exfalso; cbn in X; destruct X as [X|[X|[]]]; discriminate X|].
    destruct (in_dec string_dec "get_device_info" first_methods) as [_|X]; [now rewrite Vi|]. exfalso. apply X. cbn. auto. }
  destruct Hi as [(i0 & V & _ & X & E)|(G & _)]; [|exfalso; apply Ni; now apply G].
  rewrite Gi in V. injection V as ->. split; [exact E|]. split; [exact Hkids|]. intros l0 cs _ R0 Ol Oc Mk. now apply Hfam.
Qed.

(** After an update of a hub that was updated before it shows what it says and its children what they
    say. *)
Theorem hub_update_shows : forall D life act (send : D -> Smart_Model.request -> D * res (dict json)) treset ans kans make par kpar val comps init is_hub uc now f
    (w w' : world D) f' r rs out,
  honest send ans -> live send -> complete send -> 2 <= wbatch w ->
  (forall id req, proper req -> relays life act send id req) -> (forall id d m p, snd (act id d m p) = kans id m p) ->
  started (f_dev f) = true -> dwf (lu (f_dev f)) -> dwf (f_kids f) ->
  perform (through send treset) (update_family ToHub to_child par kpar make is_hub uc comps init now f) w = (w', (f', r, rs, out)) ->
  (forall req k, requested r = Some req -> In k req -> known ans k (par k) (val k)) -> modest rs ->
  exists req, requested r = Some req /\
    (forall k, dget k (lu (f_dev f')) = then_shown req val (fun k => dget k (lu (f_dev f))) k) /\
    (out = Ok tt -> informs (val "get_device_info") (info (f_dev f'))) /\
    family_shown kans kpar make is_hub uc f' rs out (In "get_device_info" req /\ exists i, informs (val "get_device_info") i).
Proof.
  intros D life act send treset ans kans make par kpar val comps init is_hub uc now f w w' f' r rs out Hh Hl Hc Hb Hr Ha Hs Hd Hk H Hv Hm.
  eapply update_shows_lemma; try eassumption. exact (family_at_hand _ _ _ _ _ _ _ _ _ _ _ _ _ _ _ _ _ _ _ _ Hr Hm H).
Qed.
Print Assumptions hub_update_shows.
(** ... and so after the first update of a hub with children. *)
Theorem hub_first_update_shows : forall D life act (send : D -> Smart_Model.request -> D * res (dict json)) treset ans kans make par kpar val comps init is_hub uc now
    (w w' : world D) f' r rs out i,
  honest send ans -> live send -> complete send -> 2 <= wbatch w ->
  (forall id req, proper req -> relays life act send id req) -> (forall id d m p, snd (act id d m p) = kans id m p) ->
  (forall k, In k (first_methods ++ list_methods) -> known ans k JNull (val k)) -> informs (val "get_device_info") i ->
  (forall resp, (forall k, dget k resp = if in_dec string_dec k first_methods then Some (shown first_methods (val k)) else None) ->
     comps resp = Ok true /\ exists l, init resp = Ok l) ->
  perform (through send treset) (update_family ToHub to_child par kpar make is_hub uc comps init now new_family) w = (w', (f', r, rs, out)) ->
  (forall req k, requested r = Some req -> In k req -> known ans k (par k) (val k)) -> modest rs ->
  exists req, requested r = Some req /\
    (forall k, dget k (lu (f_dev f')) = then_shown req val (then_shown list_methods val (then_shown first_methods val (fun _ => None))) k) /\
    info (f_dev f') = i /\ family_shown kans kpar make is_hub uc f' rs out True.
Proof.
  intros D life act send treset ans kans make par kpar val comps init is_hub uc now w w' f' r rs out i Hh Hl Hc Hb Hr Ha Hf Hi Hin H Hv Hm.
  eapply first_update_shows_lemma; try eassumption. exact (family_at_hand _ _ _ _ _ _ _ _ _ _ _ _ _ _ _ _ _ _ _ _ Hr Hm H).
Qed.
Print Assumptions hub_first_update_shows.

(** ** From the device object down to the device, and back *)
Theorem hub_update_over_klap_shows : forall md5 sha1 sha256 enc_block dec_block json_loads S app auth c encode script kid x b
    ans kans make par kpar val comps init is_hub uc now f w' f' r rs out y o,
  let device := direct_send _ S _ _ encode as_dict script app (KlapPeer_Spec.understood json json_loads) in
  Klap_Spec.crypto_ok sha256 enc_block dec_block ->
  In auth (Klap_Model.candidates md5 sha1 sha256 c) ->
  klap_fresh md5 sha1 sha256 enc_block dec_block json_loads S app auth c x ->
  perform (through (stack_send _ _ S _ _ (klap_client md5 sha1 sha256 enc_block dec_block json_loads c) encode as_dict script)
             (stack_reset _ _ S Klap_Model.klap_reset))
    (update_family ToHub to_child par kpar make is_hub uc comps init now f) (mkW (mkStack (fst x) 0 []) b []) = (w', (f', r, rs, out)) ->
  KlapPeer_Spec.together md5 sha1 sha256 enc_block dec_block json json_loads S app auth c
    x (klap_happenings (k_trace (wdev w'))) y o ->
  KlapPeer_Spec.all_healthy sha256 S auth (klap_happenings (k_trace (wdev w'))) ->
  honest device ans -> live device -> complete device -> 2 <= b ->
  (forall id req, proper req -> relays (ticks script) (inside kid) device id req) -> (forall id s m p, snd (kid id s m p) = kans id m p) ->
  started (f_dev f) = true -> dwf (lu (f_dev f)) -> dwf (f_kids f) ->
  (forall req k, requested r = Some req -> In k req -> known ans k (par k) (val k)) -> modest rs ->
  exists req, requested r = Some req /\
    (forall k, dget k (lu (f_dev f')) = then_shown req val (fun k => dget k (lu (f_dev f))) k) /\
    (out = Ok tt -> informs (val "get_device_info") (info (f_dev f'))) /\
    family_shown kans kpar make is_hub uc f' rs out (In "get_device_info" req /\ exists i, informs (val "get_device_info") i).
Proof.
  intros md5 sha1 sha256 enc_block dec_block json_loads S app auth c encode script kid x b ans kans make par kpar val comps init is_hub uc now f w' f' r rs out y o device
    H1 H2 H3 H H4 H5 Hh Hl Hc Hb Hr Ha Hs Hd Hk Hv Hm.
  destruct (perform_all _ (at_hand (ticks script) (inside kid) device (fun y => y)) _ w' (mkW (KlapPeer_Spec.dv_state (snd x), 0%nat) b []) (fun _ => True) _ _ H) as (v' & E & _).
  { intros qs rs0 L Q. destruct (whole_klap_hub md5 sha1 sha256 enc_block dec_block json_loads S app auth c encode script kid x b qs w' rs0 y o H1 H2 H3) as (v' & Ev & _); try assumption; [|now exists v'].
    pose proof (leads_family ToHub to_child par kpar make is_hub uc comps init now f qs rs0 f' r rs out L Hm) as F. revert F. apply Forall_impl.
    intros [q n] [(q0 & E)|(id & l & E & P & N)]; cbn [fst snd] in *; subst q; [exact I|]. split; [exact N|]. split; [exact P|]. now apply Hr. }
  refine (update_shows_lemma _ (ticks script) (inside kid) device (fun y => y) ans kans make par kpar val comps init is_hub uc now f (mkW (KlapPeer_Spec.dv_state (snd x), 0%nat) b []) v' f' r rs out Hh Hl Hc Hb _ Hs Hd Hk E Hv).
  intros id d m p. unfold inside. rewrite <- (Ha id (fst d) m p). now destruct (kid id (fst d) m p).
Qed.
Print Assumptions hub_update_over_klap_shows.
Theorem hub_first_update_over_klap_shows : forall md5 sha1 sha256 enc_block dec_block json_loads S app auth c encode script kid x b
    ans kans make par kpar val comps init is_hub uc now w' f' r rs out i y o,
  let device := direct_send _ S _ _ encode as_dict script app (KlapPeer_Spec.understood json json_loads) in
  Klap_Spec.crypto_ok sha256 enc_block dec_block ->
  In auth (Klap_Model.candidates md5 sha1 sha256 c) ->
  klap_fresh md5 sha1 sha256 enc_block dec_block json_loads S app auth c x ->
  perform (through (stack_send _ _ S _ _ (klap_client md5 sha1 sha256 enc_block dec_block json_loads c) encode as_dict script)
             (stack_reset _ _ S Klap_Model.klap_reset))
    (update_family ToHub to_child par kpar make is_hub uc comps init now new_family) (mkW (mkStack (fst x) 0 []) b []) = (w', (f', r, rs, out)) ->
  KlapPeer_Spec.together md5 sha1 sha256 enc_block dec_block json json_loads S app auth c
    x (klap_happenings (k_trace (wdev w'))) y o ->
  KlapPeer_Spec.all_healthy sha256 S auth (klap_happenings (k_trace (wdev w'))) ->
  honest device ans -> live device -> complete device -> 2 <= b ->
  (forall id req, proper req -> relays (ticks script) (inside kid) device id req) -> (forall id s m p, snd (kid id s m p) = kans id m p) ->
  (forall k, In k (first_methods ++ list_methods) -> known ans k JNull (val k)) -> informs (val "get_device_info") i ->
  (forall resp, (forall k, dget k resp = if in_dec string_dec k first_methods then Some (shown first_methods (val k)) else None) ->
     comps resp = Ok true /\ exists l, init resp = Ok l) ->
  (forall req k, requested r = Some req -> In k req -> known ans k (par k) (val k)) -> modest rs ->
  exists req, requested r = Some req /\
    (forall k, dget k (lu (f_dev f')) = then_shown req val (then_shown list_methods val (then_shown first_methods val (fun _ => None))) k) /\
    info (f_dev f') = i /\ family_shown kans kpar make is_hub uc f' rs out True.
Proof.
  intros md5 sha1 sha256 enc_block dec_block json_loads S app auth c encode script kid x b ans kans make par kpar val comps init is_hub uc now w' f' r rs out i y o device
    H1 H2 H3 H H4 H5 Hh Hl Hc Hb Hr Ha Hf Hi Hin Hv Hm.
  destruct (perform_all _ (at_hand (ticks script) (inside kid) device (fun y => y)) _ w' (mkW (KlapPeer_Spec.dv_state (snd x), 0%nat) b []) (fun _ => True) _ _ H) as (v' & E & _).
  { intros qs rs0 L Q. destruct (whole_klap_hub md5 sha1 sha256 enc_block dec_block json_loads S app auth c encode script kid x b qs w' rs0 y o H1 H2 H3) as (v' & Ev & _); try assumption; [|now exists v'].
    pose proof (leads_family ToHub to_child par kpar make is_hub uc comps init now new_family qs rs0 f' r rs out L Hm) as F. revert F. apply Forall_impl.
    intros [q n] [(q0 & E)|(id & l & E & P & N)]; cbn [fst snd] in *; subst q; [exact I|]. split; [exact N|]. split; [exact P|]. now apply Hr. }
  refine (first_update_shows_lemma _ (ticks script) (inside kid) device (fun y => y) ans kans make par kpar val comps init is_hub uc now (mkW (KlapPeer_Spec.dv_state (snd x), 0%nat) b []) v' f' r rs out i Hh Hl Hc Hb _ Hf Hi Hin E Hv).
  intros id d m p. unfold inside. rewrite <- (Ha id (fst d) m p). now destruct (kid id (fst d) m p).
Qed.
Print Assumptions hub_first_update_over_klap_shows.
Theorem hub_update_over_aes_shows : forall enc_block dec_block json_loads open_key login_text S app accepts welcome refusal encode script kid x b
    ans kans make par kpar val comps init is_hub uc now f w' f' r rs out y o,
  let device := direct_send _ S _ _ encode as_dict script app (AesPeer_Spec.understood json_loads) in
  Aes_Props.cipher_ok enc_block dec_block ->
  AesPeer_Spec.speaks json_loads S app welcome refusal ->
  AesPeer_Spec.knows login_text accepts ->
  aes_fresh enc_block dec_block json_loads open_key login_text S app accepts welcome refusal x ->
  perform (through (stack_send _ _ S _ _ (aes_client enc_block dec_block json_loads open_key login_text) encode as_dict script)
             (stack_reset _ _ S Aes_Model.reset))
    (update_family ToHub to_child par kpar make is_hub uc comps init now f) (mkW (mkStack (fst x) 0 []) b []) = (w', (f', r, rs, out)) ->
  AesPeer_Spec.together enc_block dec_block json_loads open_key login_text S app accepts welcome refusal
    x (aes_happenings (k_trace (wdev w'))) y o ->
  AesPeer_Spec.all_healthy S (aes_happenings (k_trace (wdev w'))) ->
  honest device ans -> live device -> complete device -> 2 <= b ->
  (forall id req, proper req -> relays (ticks script) (inside kid) device id req) -> (forall id s m p, snd (kid id s m p) = kans id m p) ->
  started (f_dev f) = true -> dwf (lu (f_dev f)) -> dwf (f_kids f) ->
  (forall req k, requested r = Some req -> In k req -> known ans k (par k) (val k)) -> modest rs ->
  exists req, requested r = Some req /\
    (forall k, dget k (lu (f_dev f')) = then_shown req val (fun k => dget k (lu (f_dev f))) k) /\
    (out = Ok tt -> informs (val "get_device_info") (info (f_dev f'))) /\
    family_shown kans kpar make is_hub uc f' rs out (In "get_device_info" req /\ exists i, informs (val "get_device_info") i).
Proof.
  intros enc_block dec_block json_loads open_key login_text S app accepts welcome refusal encode script kid x b ans kans make par kpar val comps init is_hub uc now f w' f' r rs out y o device
    H1 H2 H3 H3' H H4 H5 Hh Hl Hc Hb Hr Ha Hs Hd Hk Hv Hm.
  destruct (perform_all _ (at_hand (ticks script) (inside kid) device (fun y => y)) _ w' (mkW (AesPeer_Spec.dv_state (snd x), 0%nat) b []) (fun _ => True) _ _ H) as (v' & E & _).
  { intros qs rs0 L Q. destruct (whole_aes_hub enc_block dec_block json_loads open_key login_text S app accepts welcome refusal encode script kid x b qs w' rs0 y o H1 H2 H3 H3') as (v' & Ev & _); try assumption; [|now exists v'].
    pose proof (leads_family ToHub to_child par kpar make is_hub uc comps init now f qs rs0 f' r rs out L Hm) as F. revert F. apply Forall_impl.
    intros [q n] [(q0 & E)|(id & l & E & P & N)]; cbn [fst snd] in *; subst q; [exact I|]. split; [exact N|]. split; [exact P|]. now apply Hr. }
  refine (update_shows_lemma _ (ticks script) (inside kid) device (fun y => y) ans kans make par kpar val comps init is_hub uc now f (mkW (AesPeer_Spec.dv_state (snd x), 0%nat) b []) v' f' r rs out Hh Hl Hc Hb _ Hs Hd Hk E Hv).
  intros id d m p. unfold inside. rewrite <- (Ha id (fst d) m p). now destruct (kid id (fst d) m p).
Qed.
Print Assumptions hub_update_over_aes_shows.
Theorem hub_first_update_over_aes_shows : forall enc_block dec_block json_loads open_key login_text S app accepts welcome refusal encode script kid x b
    ans kans make par kpar val comps init is_hub uc now w' f' r rs out i y o,
  let device := direct_send _ S _ _ encode as_dict script app (AesPeer_Spec.understood json_loads) in
  Aes_Props.cipher_ok enc_block dec_block ->
  AesPeer_Spec.speaks json_loads S app welcome refusal ->
  AesPeer_Spec.knows login_text accepts ->
  aes_fresh enc_block dec_block json_loads open_key login_text S app accepts welcome refusal x ->
  perform (through (stack_send _ _ S _ _ (aes_client enc_block dec_block json_loads open_key login_text) encode as_dict script)
             (stack_reset _ _ S Aes_Model.reset))
    (update_family ToHub to_child par kpar make is_hub uc comps init now new_family) (mkW (mkStack (fst x) 0 []) b []) = (w', (f', r, rs, out)) ->
  AesPeer_Spec.together enc_block dec_block json_loads open_key login_text S app accepts welcome refusal
    x (aes_happenings (k_trace (wdev w'))) y o ->
  AesPeer_Spec.all_healthy S (aes_happenings (k_trace (wdev w'))) ->
  honest device ans -> live device -> complete device -> 2 <= b ->
  (forall id req, proper req -> relays (ticks script) (inside kid) device id req) -> (forall id s m p, snd (kid id s m p) = kans id m p) ->
  (forall k, In k (first_methods ++ list_methods) -> known ans k JNull (val k)) -> informs (val "get_device_info") i ->
  (forall resp, (forall k, dget k resp = if in_dec string_dec k first_methods then Some (shown first_methods (val k)) else None) ->
     comps resp = Ok true /\ exists l, init resp = Ok l) ->
  (forall req k, requested r = Some req -> In k req -> known ans k (par k) (val k)) -> modest rs ->
  exists req, requested r = Some req /\
    (forall k, dget k (lu (f_dev f')) = then_shown req val (then_shown list_methods val (then_shown first_methods val (fun _ => None))) k) /\
    info (f_dev f') = i /\ family_shown kans kpar make is_hub uc f' rs out True.
Proof.
  intros enc_block dec_block json_loads open_key login_text S app accepts welcome refusal encode script kid x b ans kans make par kpar val comps init is_hub uc now w' f' r rs out i y o device
    H1 H2 H3 H3' H H4 H5 Hh Hl Hc Hb Hr Ha Hf Hi Hin Hv Hm.
  destruct (perform_all _ (at_hand (ticks script) (inside kid) device (fun y => y)) _ w' (mkW (AesPeer_Spec.dv_state (snd x), 0%nat) b []) (fun _ => True) _ _ H) as (v' & E & _).
  { intros qs rs0 L Q. destruct (whole_aes_hub enc_block dec_block json_loads open_key login_text S app accepts welcome refusal encode script kid x b qs w' rs0 y o H1 H2 H3 H3') as (v' & Ev & _); try assumption; [|now exists v'].
    pose proof (leads_family ToHub to_child par kpar make is_hub uc comps init now new_family qs rs0 f' r rs out L Hm) as F. revert F. apply Forall_impl.
    intros [q n] [(q0 & E)|(id & l & E & P & N)]; cbn [fst snd] in *; subst q; [exact I|]. split; [exact N|]. split; [exact P|]. now apply Hr. }
  refine (first_update_shows_lemma _ (ticks script) (inside kid) device (fun y => y) ans kans make par kpar val comps init is_hub uc now (mkW (AesPeer_Spec.dv_state (snd x), 0%nat) b []) v' f' r rs out i Hh Hl Hc Hb _ Hf Hi Hin E Hv).
  intros id d m p. unfold inside. rewrite <- (Ha id (fst d) m p). now destruct (kid id (fst d) m p).
Qed.
Print Assumptions hub_first_update_over_aes_shows.

From Verif Require Import Crypto_Model Smod_Props.
(** ** Examples.  A hub with two children, each of which says of every method its name and the method's;
    its messages are written with two letters for one. *)
Definition xr_kans (id m : string) (p : option json) : answer :=
  if String.eqb m "get_bad" then AError (-1008) else AResult (JObj [("id", JStr id); ("name", JStr m)]).
Definition xr_says (id m : string) : dict json := ("method", JStr m) :: say (xr_kans id m None).
Definition xr_own (m : string) : json :=
  if String.eqb m "get_child_device_list" then JObj [("child_device_list", JArr [JObj [("device_id", JStr "k1"); ("rssi", JInt 1)]; JObj [("device_id", JStr "k2"); ("rssi", JInt 2)]])]
  else if String.eqb m "get_child_device_component_list" then JObj [("child_component_list", JArr [JObj [("device_id", JStr "k1")]; JObj [("device_id", JStr "k2")]])]
  else JObj [("name", JStr m)].
(** The words of one question *)
Definition first_word (x : json) : string := match x with JObj ((_, JStr m) :: _) => m | _ => "" end.
Definition errand (p : option json) : list string :=
  match p with
  | Some (JObj [(_, JStr id); (_, JObj [(_, JStr m); (_, q)])]) =>
      id :: m :: (if String.eqb m "multipleRequest" then match q with JObj [(_, JArr xs)] => map first_word xs | _ => [] end else [])
  | _ => []
  end.
Definition words_of (m : string) (p : option json) : list string := m :: if String.eqb m "control_child" then errand p else [].
Definition xr_answer (ws : list string) : answer :=
  match ws with
  | _ :: id :: m :: ms =>
      AResult (JObj [("responseData", JObj (if String.eqb m "multipleRequest"
        then say (AResult (JObj [("responses", JArr (map (fun m => JObj (xr_says id m)) ms))])) else say (xr_kans id m None)))])
  | m :: _ => if String.eqb m "get_bad" then AError (-1008) else AResult (xr_own m)
  | [] => AError (-1008)
  end.
Definition xr_ans (m : string) (p : option json) : answer := xr_answer (words_of m p).
Definition xr_reply (ws : list string) : dict json := ("method", JStr (hd "" ws)) :: say (xr_answer ws).
Definition sentence (ws : list string) : bytes := flat_map (fun m => spell m ++ ["b"%char]) ws ++ ["c"%char].
Definition xr_text (n : nat) (r : Smart_Model.request) : bytes :=
  match r with
  | Single m p => "S"%char :: sentence (words_of m p)
  | Batch l => "B"%char :: flat_map (fun x : string * option json => sentence (words_of (fst x) (snd x))) l
  end.
Fixpoint read (b cur : bytes) (acc : list string) : list (list string) :=
  match b with
  | "a"%char :: c :: b => read b (cur ++ [c]) acc
  | "b"%char :: b => read b [] (acc ++ [string_of_list_ascii cur])
  | "c"%char :: b => acc :: read b [] []
  | _ => []
  end.
Definition xr_json (b : bytes) : option (option json) :=
  Some (Some (JObj (match b with
    | "S"%char :: b => match read b [] [] with ws :: _ => xr_reply ws | [] => [] end
    | _ :: b => [("error_code", JInt 0); ("result", JObj [("responses", JArr (map (fun ws => JObj (xr_reply ws)) (read b [] [])))])]
    | [] => []
    end))).
Definition xr_app (s : nat) (m : bytes) : nat * bytes := (s, m).
Definition xr_kid (id : string) (s : nat) (m : string) (p : option json) : nat * answer := (s, xr_kans id m p).
Lemma read_spell m : forall cur acc rest, read (spell m ++ "b"%char :: rest) cur acc = read rest [] (acc ++ [string_of_list_ascii (cur ++ list_ascii_of_string m)]).
Proof.
  unfold spell. induction (list_ascii_of_string m) as [|c l IH]; intros cur acc rest; cbn [flat_map List.app read]; [now rewrite app_nil_r|].
  rewrite IH, <- app_assoc. reflexivity.
Qed.
Lemma read_sentence ws : forall acc rest, read (flat_map (fun m => spell m ++ ["b"%char]) ws ++ "c"%char :: rest) [] acc = (acc ++ ws) :: read rest [] [].
Proof.
  induction ws as [|m ws IH]; intros acc rest; cbn [flat_map]; [cbn [List.app read]; now rewrite app_nil_r|].
  rewrite <- !app_assoc. cbn [List.app]. rewrite read_spell. cbn [List.app]. rewrite string_of_list_ascii_of_string, IH, <- app_assoc. reflexivity.
Qed.
Lemma read_one ws rest : read (sentence ws ++ rest) [] [] = ws :: read rest [] [].
Proof. unfold sentence. rewrite <- app_assoc. cbn [List.app]. now rewrite read_sentence. Qed.
Lemma read_all l : read (flat_map (fun x : string * option json => sentence (words_of (fst x) (snd x))) l) [] [] = map (fun x => words_of (fst x) (snd x)) l.
Proof. induction l as [|x l IH]; [reflexivity|]. cbn [flat_map map]. now rewrite read_one, IH. Qed.
Definition xr_device script := direct_send (option (string -> bool) * KlapPeer_Spec.choice * Klap_Model.world) nat _ _ xr_text as_dict script xr_app (KlapPeer_Spec.understood json xr_json).
Lemma xr_single script d m p : xr_device script d (Single m p) = (ticks script d, Ok (xr_reply (words_of m p))).
Proof.
  unfold xr_device, direct_send, xr_app, xr_text, KlapPeer_Spec.understood, xr_json.
  rewrite <- (app_nil_r (sentence (words_of m p))), read_one. reflexivity.
Qed.
Lemma xr_batch script d l : xr_device script d (Batch l) = (ticks script d,
  Ok [("error_code", JInt 0); ("result", JObj [("responses", JArr (map (fun x => JObj (xr_reply (words_of (fst x) (snd x)))) l))])]).
Proof.
  unfold xr_device, direct_send, xr_app, xr_text, KlapPeer_Spec.understood, xr_json. cbn [fst snd]. rewrite read_all, map_map. reflexivity.
Qed.
Lemma xr_kans_fine id m p : match xr_kans id m p with AResult j => Child_Spec.plain j | AError c => c <> 0 end.
Proof. unfold xr_kans. destruct (String.eqb m "get_bad"); [discriminate|]. right. eexists. split; [reflexivity|exact I]. Qed.
Lemma xr_said a o : match a with AResult _ => True | AError c => c <> 0 end -> Smart_Spec.reports a (("method", o) :: say a).
Proof. destruct a; cbn; auto. Qed.
Lemma xr_reports m p : Smart_Spec.reports (xr_ans m p) (xr_reply (words_of m p)).
Proof.
  unfold xr_ans, xr_reply. apply xr_said. unfold words_of. destruct (if String.eqb m "control_child" then errand p else []) as [|id [|m1 ms]]; cbn [xr_answer]; [| |exact I];
  (destruct (String.eqb m "get_bad"); [discriminate|exact I]).
Qed.
Lemma xr_named m p : m <> "" -> named m (xr_reply (words_of m p)).
Proof. intros N. split; [exact N|reflexivity]. Qed.
Lemma xr_fine script : honest (xr_device script) xr_ans /\ live (xr_device script) /\ complete (xr_device script).
Proof.
  split; [|split].
  - intros d req d' reply H. destruct req as [m p|l].
    + rewrite xr_single in H. pose proof (f_equal snd H) as E. cbn [snd] in E. injection E as <-. apply xr_reports.
    + rewrite xr_batch in H. pose proof (f_equal snd H) as E. cbn [snd] in E. injection E as <-. split; [reflexivity|].
      eexists _, _. split; [reflexivity|]. split; [reflexivity|]. apply Forall_forall. intros x Hx. apply in_map_iff in Hx.
      destruct Hx as ([m p] & <- & I). cbn [fst snd]. exists (xr_reply (words_of m p)). split; [reflexivity|].
      destruct (string_dec m "") as [->|N]; [left; right; right; reflexivity|]. right. exists m, p. split; [exact I|]. split; [now apply xr_named|apply xr_reports].
  - intros d [m p|l]; [rewrite xr_single|rewrite xr_batch]; eauto.
  - intros d l d' reply r rs H Hr Hs m p Hi Hn. rewrite xr_batch in H. pose proof (f_equal snd H) as E. cbn [snd] in E. injection E as <-.
    injection Hr as <-. injection Hs as <-. exists (xr_reply (words_of m p)). split; [|now apply xr_named]. apply in_map_iff. exists (m, p). now split.
Qed.
Lemma xr_acts id : forall l (d : nat * nat), acts (inside xr_kid) id d l = (d, map (fun x => (fst x, xr_kans id (fst x) None)) l).
Proof. induction l as [|[m p] l IH]; intros [s n]; [reflexivity|]. cbn [acts map fst]. unfold inside at 1, xr_kid at 1. cbn [fst snd]. now rewrite IH. Qed.
Lemma xr_relays script id req : proper req -> relays (ticks script) (inside xr_kid) (xr_device script) id req.
Proof.
  intros (Hne & Hnd & Hm) d d' r H. rewrite xr_acts in H. injection H as <- <-.
  assert (One : forall m p, content req = [(m, given p)] -> m <> "multipleRequest" -> told id req = message id m p ->
    exists reply rd, xr_device script d (told id req) = (ticks script d, Ok reply) /\ carries rd reply /\ says rd (map (fun x => (fst x, xr_kans id (fst x) None)) (content req))).
  { intros m p Hc Hq ->. rewrite Hc. apply String.eqb_neq in Hq. unfold message. rewrite xr_single. do 2 eexists. split; [reflexivity|].
    unfold words_of, errand. change (String.eqb "control_child" "control_child") with true. cbv iota. rewrite Hq. unfold xr_reply, xr_answer. rewrite Hq. cbn [hd]. split.
    - eexists. split; [apply xr_said; exact I|]. split; reflexivity.
    - cbn [map says fst]. pose proof (xr_kans_fine id m None) as F. split; [apply say_reports; destruct (xr_kans id m None); auto|].
      destruct (xr_kans id m None); [exact F|left; reflexivity]. }
  destruct req as [m|[|[m p] [|x l]]].
  - apply (One m JNull); [reflexivity|cbn in Hm; tauto|reflexivity].
  - now elim Hne.
  - apply (One m p); [reflexivity|cbn in Hm; tauto|reflexivity].
  - clear One. set (q := (m, p) :: x :: l) in *.
    assert (M : map first_word (map (fun kv => JObj (("method", JStr (fst kv)) :: if truthy (snd kv) then [("params", snd kv)] else [])) q) = map fst q).
    { rewrite map_map. apply map_ext. intros [k v]. reflexivity. }
    assert (T : told id (CDict q) = message id "multipleRequest" (JObj [("requests", JArr (map (fun kv =>
      JObj (("method", JStr (fst kv)) :: if truthy (snd kv) then [("params", snd kv)] else [])) q))])) by reflexivity.
    rewrite T. unfold message. rewrite xr_single. do 2 eexists. split; [reflexivity|]. unfold words_of, errand. change (String.eqb "control_child" "control_child") with true.
    change (String.eqb "multipleRequest" "multipleRequest") with true. cbv iota. rewrite M. unfold xr_reply, xr_answer. cbn [hd]. change (String.eqb "multipleRequest" "multipleRequest") with true. cbv iota.
    split; [eexists; split; [apply xr_said; exact I|split; reflexivity]|].
    cbn [content]. rewrite !map_map. cbn [fst].
    assert (F : Forall2 item (map (fun y => JObj (xr_says id (fst y))) q) (map (fun y : string * json => (fst y, xr_kans id (fst y) None)) q)).
    { clear. induction q as [|[k v] q IH]; [constructor|]. cbn [map fst]. constructor; [|exact IH]. eexists. split; [reflexivity|]. split; [reflexivity|].
      cbn [snd]. apply xr_said. pose proof (xr_kans_fine id k None) as G. destruct (xr_kans id k None); auto. }
    revert F. unfold q. destruct x as [x v]. cbn [map fst says]. intros F. do 2 eexists. split; [apply say_reports; exact I|]. split; [reflexivity|exact F].
Qed.
Definition xr_val (m : string) : rval := if String.eqb m "get_bad" then RCode (-1008) else RJson (xr_own m).
Lemma xr_known m : m <> "control_child" -> forall p, known xr_ans m p (xr_val m).
Proof.
  intros N p. apply String.eqb_neq in N.
  assert (S1 : simple xr_ans m (eff_params p) (xr_val m)).
  { unfold xr_val. destruct (String.eqb m "get_bad") eqn:E.
    - change (RCode (-1008)) with (RCode (reported_code (-1008))). apply simple_code. unfold xr_ans, words_of. rewrite N. cbn [xr_answer]. now rewrite E.
    - apply simple_plain; [unfold xr_ans, words_of; rewrite N; cbn [xr_answer]; now rewrite E| |];
      unfold xr_own; destruct (String.eqb m "get_child_device_list"); [|destruct (String.eqb m "get_child_device_component_list")| |destruct (String.eqb m "get_child_device_component_list")];
      try (intros d Hd; now injection Hd as <-); right; eauto. }
  split; [now constructor|auto].
Qed.
Definition child_module : smod := mkMod "ChildDevice" ["get_child_device_list"; "get_child_device_component_list"] 0 [] true None.
Definition xr_init (r : dict reply) : res (list smod) := Ok [dm; child_module; auto_off; meter].
Definition xr_comps (r : dict reply) : res bool := Ok true.
Definition xr_kid_mod : smod := mkMod "Report" ["get_temp"; "get_bad"] 0 ["get_bad"] false None.
Definition xr_make (x : string) (i c : json) : res dev := Ok (Smod_Model.mkDev [(xr_kid_mod, fresh)] [] i false true).
Definition xr_update := update_family ToHub to_child (fun _ => JNull) (fun _ _ => JNull) xr_make true true xr_comps xr_init.
Lemma xr_init_fine resp : xr_comps resp = Ok true /\ exists l, xr_init resp = Ok l.
Proof. split; [reflexivity|]. eexists. reflexivity. Qed.
Lemma xr_first_known k : In k (first_methods ++ list_methods) -> known xr_ans k JNull (xr_val k).
Proof. intros H. apply xr_known. intros ->. cbn in H. intuition discriminate. Qed.

Section ExKlap.
Import Klap_Model KlapPeer_Spec KlapPeer_Props.
Fixpoint xr_feed (h : choice) (w : Klap_Model.world) (d : device nat) (p : list post) : Klap_Model.world * device nat :=
  match p with
  | [] => (w, d)
  | PHandshake1 seed :: p =>
      let (d1, r) := on_handshake1 toy2_sha nat V2 my_auth h seed d in
      xr_feed h (Klap_Model.mkWorld (w_now w) (w_seed w) r (w_cookie w) (w_timeout w) (w_now1 w) (w_h2 w) (w_req w)) d1 p
  | PHandshake2 y ck :: p =>
      let (d1, r) := on_handshake2 toy2_sha nat V2 my_auth h y ck d in
      xr_feed h (Klap_Model.mkWorld (w_now w) (w_seed w) (w_h1 w) (w_cookie w) (w_timeout w) (w_now1 w) r (w_req w)) d1 p
  | PRequest _ q pl ck :: p =>
      let (d1, r) := on_request toy2_sha (fun _ b => b) (fun _ b => b) nat xr_app my_auth h ck q pl d in
      xr_feed h (Klap_Model.mkWorld (w_now w) (w_seed w) (w_h1 w) (w_cookie w) (w_timeout w) (w_now1 w) (w_h2 w) r) d1 p
  end.
Definition xr_send := klap_send toy2_md5 toy2_md5 toy2_sha (fun _ b => b) (fun _ b => b) json xr_json my_config.
Definition xr_arranged (h : choice) (now : Z) (t : transport) (d : device nat) (m : bytes) : Klap_Model.world * transport * device nat :=
  let w := again 3 (fun w => fst (xr_feed h w d (snd (fst (xr_send w t m)))))
    (Klap_Model.mkWorld now (lit "localseed-123456") (Err KKasa) (Some (h_cookie h)) (Timeout (h_life h)) (now + 1) (Err KKasa) (Err KKasa)) in
  (w, fst (fst (xr_send w t m)), snd (xr_feed h w d (snd (fst (xr_send w t m))))).
(** The messages of a first update, and what happens to them *)
Definition xr_messages : list bytes := Eval vm_compute in
  map (xr_text 0) [Batch (map (fun m => (m, None)) first_methods); Batch (map (fun m => (m, None)) list_methods);
    Batch [("get_auto_off_config", None); ("get_power", None); ("get_bad", None)];
    told "k1" (CDict [("get_temp", JNull); ("get_bad", JNull)]); told "k2" (CDict [("get_temp", JNull); ("get_bad", JNull)])].
Fixpoint xr_course (now : Z) (t : transport) (d : device nat) (l : list bytes) : list Klap_Model.world :=
  match l with
  | [] => []
  | m :: l => let '(w, t, d) := xr_arranged (fine now "a") now t d m in w :: xr_course (now + 10) t d l
  end.
Definition xr_worlds : list Klap_Model.world := Eval vm_compute in xr_course 0 init d0 xr_messages.
Definition xr_script (n : nat) : (nat -> nat) * (option (string -> bool) * choice * Klap_Model.world) :=
  (fun s => s, (None, fine (10 * Z.of_nat n) "a", nth n xr_worlds wx_w1)).
Notation xr_together := (together toy2_md5 toy2_md5 toy2_sha (fun _ b => b) (fun _ b => b) json xr_json nat xr_app my_auth my_config).
Notation xr_client := (klap_client toy2_md5 toy2_md5 toy2_sha (fun _ b => b) (fun _ b => b) xr_json my_config).
Definition xr_run := perform (through (stack_send _ _ nat _ _ xr_client xr_text as_dict xr_script) (stack_reset _ _ nat klap_reset))
  (xr_update SEC new_family) (Smart_Model.mkW (mkStack init 0 []) 5 []).
Example hub_first_update_over_klap_ex :
  klap_fresh toy2_md5 toy2_md5 toy2_sha (fun _ b => b) (fun _ b => b) xr_json nat xr_app my_auth my_config (init, d0) /\
  (honest (xr_device xr_script) xr_ans /\ live (xr_device xr_script) /\ complete (xr_device xr_script)) /\
  (forall id req, proper req -> relays (ticks xr_script) (inside xr_kid) (xr_device xr_script) id req) /\ (forall id s m p, snd (xr_kid id s m p) = xr_kans id m p) /\
  (forall k, In k (first_methods ++ list_methods) -> known xr_ans k JNull (xr_val k)) /\
  informs (xr_val "get_device_info") (JObj [("name", JStr "get_device_info")]) /\
  exists w' f' r rs y o, xr_run = (w', (f', r, rs, Ok tt)) /\
  requested r = Some ["get_auto_off_config"; "get_power"; "get_bad"] /\ (forall k, In k ["get_auto_off_config"; "get_power"; "get_bad"] -> known xr_ans k JNull (xr_val k)) /\
  modest rs /\ map fst rs = ["k1"; "k2"] /\
  (exists k, dget "k2" (f_kids f') = Some k /\ info k = JObj [("device_id", JStr "k2"); ("rssi", JInt 2)] /\
    dget "get_temp" (lu k) = Some (RVal (JObj [("id", JStr "k2"); ("name", JStr "get_temp")])) /\ dget "get_bad" (lu k) = Some (RErr (-1008))) /\
  xr_together (init, d0) (klap_happenings (k_trace (wdev w'))) y o /\
  all_healthy toy2_sha nat my_auth (klap_happenings (k_trace (wdev w'))).
Proof.
  split; [exists d0, [], init, []; split; [constructor|now left]|]. split; [apply xr_fine|]. split; [apply xr_relays|]. split; [reflexivity|].
  split; [exact xr_first_known|]. split; [split; [reflexivity|discriminate]|].
  do 6 eexists. split; [vm_compute; reflexivity|]. split; [reflexivity|]. split; [intros k H; apply xr_known; intros ->; cbn in H; intuition discriminate|].
  split; [intros x r req [H|[H|[]]] E N; injection H as <- <-; injection E as <-; cbn in N; intuition discriminate|].
  split; [reflexivity|]. split; [eexists; split; [reflexivity|]; repeat split|].
  cbn [wdev k_trace klap_happenings flat_map List.app]. split.
  - do 5 (apply together_device; show_send). apply together_nil.
  - cbn [all_healthy]. unfold healthy. repeat split; vm_compute; congruence.
Qed.
End ExKlap.
(** A later update, by which one child is gone and another one is new *)
Definition xr_before : family :=
  mkFam (Smod_Model.mkDev [(dm, fresh); (child_module, fresh)] [("get_auto_off_config", RVal (JInt 7))] JNull true false)
    [("k0", Smod_Model.mkDev [(xr_kid_mod, fresh)] [] JNull true true); ("k1", Smod_Model.mkDev [(xr_kid_mod, fresh)] [("get_temp", RVal (JInt 3))] JNull true true)] [].
Example hub_update_shows_ex :
  started (f_dev xr_before) = true /\ dwf (lu (f_dev xr_before)) /\ dwf (f_kids xr_before) /\
  exists w' f' r rs, perform (through (xr_device xr_script) (fun y => y)) (xr_update (9 * SEC) xr_before) (Smart_Model.mkW (5%nat, 0%nat) 5 []) = (w', (f', r, rs, Ok tt)) /\
  requested r = Some ["get_device_info"; "get_child_device_list"; "get_child_device_component_list"] /\
  (forall k, In k ["get_device_info"; "get_child_device_list"; "get_child_device_component_list"] -> known xr_ans k JNull (xr_val k)) /\ modest rs /\
  Family_Spec.reports (lu (f_dev f')) [JObj [("device_id", JStr "k1"); ("rssi", JInt 1)]; JObj [("device_id", JStr "k2"); ("rssi", JInt 2)]]
    [JObj [("device_id", JStr "k1")]; JObj [("device_id", JStr "k2")]] /\
  dkeys (f_kids f') = ["k1"; "k2"] /\
  exists k, dget "k1" (f_kids f') = Some k /\ dget "get_temp" (lu k) = Some (RVal (JObj [("id", JStr "k1"); ("name", JStr "get_temp")])).
Proof.
  split; [reflexivity|]. split; [repeat constructor; cbn; intuition discriminate|]. split; [repeat constructor; cbn; intuition discriminate|].
  do 4 eexists. split; [vm_compute; reflexivity|]. split; [reflexivity|]. split; [intros k H; apply xr_known; intros ->; cbn in H; intuition discriminate|].
  split; [intros x r req [H|[H|[]]] E N; injection H as <- <-; injection E as <-; cbn in N; intuition discriminate|].
  split; [split; eexists; split; reflexivity|]. split; [reflexivity|]. eexists. split; reflexivity.
Qed.
(** Over AES the same hub meets the same conditions; conversations are in [Hub_Props.whole_aes_hub_ex]. *)

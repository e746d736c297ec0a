(** Proofs for [CamHub_Props]. *)
From Verif Require Import Base Base_Lemmas Py Codes_Model Retry_Model Smart_Model Smart_Spec Child_Model Child_Spec CamQuery_Model Hub_Model Hub_Spec Hub_Proofs.
From Verif Require Import Stack_Spec Smod_Model Smod_Spec Whole_Model Whole_Spec Whole_Proofs Family_Model Family_Spec Family_Proofs WholeHub_Model WholeHub_Proofs.
From Verif Require Import WholeCam_Model WholeCam_Spec WholeCam_Proofs CamHub_Model CamHub_Spec.
Open Scope string_scope.
Open Scope list_scope.
Open Scope Z_scope.
Notation visit := CamHub_Model.visit. Notation visit_all := CamHub_Model.visit_all. Notation children_info := CamHub_Model.children_info.
Notation push := CamHub_Model.push. Notation update_kids := CamHub_Model.update_kids. Notation create_delete := CamHub_Model.create_delete.
Notation child_update := CamHub_Model.child_update. Notation log_once := CamHub_Model.log_once. Notation kind_of := CamHub_Model.kind_of.
Notation a_kids := CamHub_Model.a_kids. Notation a_seen := CamHub_Model.a_seen. Notation a_changed := CamHub_Model.a_changed. Notation a_logged := CamHub_Model.a_logged.
Notation mkAcc := CamHub_Model.mkAcc.

(** ** What a hub tells of a camera *)
Lemma kid_fold_names (b : dict json) : forall acc : dict json, dwf acc ->
  let m := fold_left (fun acc (kv : string * json) => dset (match dget (fst kv) child_mappings with Some x => x | None => fst kv end) (snd kv) acc) b acc in
  dwf m /\ (forall n v, dget n m = Some v -> (exists k, In (k, v) b /\ kid_name k = n) \/ dget n acc = Some v) /\
  (forall n, dget n acc <> None \/ (exists k v, In (k, v) b /\ kid_name k = n) -> dget n m <> None).
Proof.
  induction b as [|[k v] b IH]; intros acc Ha m.
  - unfold m. cbn. split; [exact Ha|]. split; [auto|]. intros n [H|(k & v & [] & _)]. exact H.
  - cbn [fold_left fst snd] in m. change (match dget k child_mappings with Some x => x | None => k end) with (kid_name k) in m.
    destruct (IH (dset (kid_name k) v acc) (dwf_dset _ _ _ Ha)) as (W & G1 & G2). fold m in W, G1, G2. split; [exact W|]. split.
    + intros n v0 E. destruct (G1 n v0 E) as [(k0 & I & C)|H]; [left; exists k0; split; [now right|exact C]|].
      rewrite dget_dset in H. destruct (String.eqb_spec n (kid_name k)) as [->|N]; [|now right]. injection H as <-. left. exists k. split; [now left|reflexivity].
    + intros n H. apply G2. rewrite dget_dset. destruct (String.eqb_spec n (kid_name k)) as [->|N]; [left; discriminate|].
      destruct H as [H|(k0 & v0 & [I|I] & C)]; [now left| |right; eauto]. injection I as <- <-. now contradiction N.
Qed.
Lemma map_child_renamed b : dwf b -> renamed_info b (map_child_info b).
Proof.
  intros Hb. destruct (kid_fold_names b [] (dwf_nil (A := json))) as (W & G1 & G2). unfold map_child_info.
  match type of W with dwf ?f => set (m := f) in * end. exists m. split; [reflexivity|]. split; [exact W|].
  assert (G1' : forall n v, dget n m = Some v -> exists k, dget k b = Some v /\ kid_name k = n).
  { intros n v H. destruct (G1 n v H) as [(k & I & C)|H0]; [|discriminate H0]. exists k. split; [now apply In_dget|exact C]. }
  split; [exact G1'|]. intros k v H. destruct (dget (kid_name k) m) as [v'|] eqn:M.
  - exists v'. split; [reflexivity|]. intros U. destruct (G1' _ _ M) as (k' & K & C). assert (X : k' = k) by (apply U; [congruence|exact C]). subst. congruence.
  - exfalso. apply (G2 (kid_name k)); [|exact M]. right. exists k, v. split; [now apply dget_In|reflexivity].
Qed.
Lemma inform_told d k : told_of (JObj d) (inform d k).
Proof. destruct k as [x|c p]; cbn [inform told_of]; [reflexivity|]. split; [reflexivity|]. exists d. split; [reflexivity|]. intros W. now apply map_child_renamed. Qed.
Lemma inform_class d k : same_class k (inform d k).
Proof. now destruct k. Qed.
Lemma same_class_refl k : same_class k k.
Proof. now destruct k. Qed.
Lemma same_class_trans a b c : same_class a b -> same_class b c -> same_class a c.
Proof. now destruct a, b, c. Qed.
Lemma fits_class i k k' : same_class k k' -> fits i k -> fits i k'.
Proof. destruct k, k'; cbn; tauto. Qed.

(** ** The kinds *)
Lemma kind_smart d : kind_of d = SmartKind <-> is_smart (JObj d).
Proof.
  unfold CamHub_Model.kind_of, is_smart, of_category. split.
  - destruct (dget "category" d) as [[| | | |c| |]|] eqn:E; try discriminate. destruct (String.eqb c ""); [discriminate|].
    destruct (smem c smart_categories) eqn:S; [|destruct (smem c camera_categories); discriminate]. intros _. exists d, c. split; [reflexivity|]. split; [exact E|now apply smem_In].
  - intros (d0 & c & E0 & E & I). injection E0 as <-. rewrite E. destruct (String.eqb_spec c "") as [->|N]; [cbn in I; intuition discriminate|].
    apply smem_In in I. unfold smart_categories. now rewrite I.
Qed.
Lemma kind_camera d : kind_of d = CameraKind <-> is_camera (JObj d).
Proof.
  unfold CamHub_Model.kind_of, is_camera, of_category. split.
  - destruct (dget "category" d) as [[| | | |c| |]|] eqn:E; try discriminate. destruct (String.eqb c ""); [discriminate|].
    destruct (smem c smart_categories); [discriminate|]. destruct (smem c camera_categories) eqn:S; [|discriminate]. intros _. exists d, c. split; [reflexivity|]. split; [exact E|now apply smem_In].
  - intros (d0 & c & E0 & E & I). injection E0 as <-. rewrite E. destruct I as [<-|[]]. reflexivity.
Qed.
Lemma comp_dict_val : forall l acc c x v, comp_dict l acc = Ok c -> dget x c = Some v -> dget x acc = Some v \/ (In v l /\ id_of v = Some x).
Proof.
  induction l as [|i l IH]; intros acc c x v H E; cbn [comp_dict] in H.
  - injection H as <-. now left.
  - destruct (jitem "device_id" i) as [y|e] eqn:J; [|discriminate]. cbn [bind] in H.
    destruct (IH _ _ _ _ H E) as [G|(G1 & G2)]; [|right; split; [now right|exact G2]].
    destruct y as [| | | |y| |]; try (now left). rewrite dget_dset in G. destruct (String.eqb_spec x y) as [Ex|N]; [|now left].
    injection G as <-. right. split; [now left|]. destruct i as [| | | | | |d]; try discriminate. cbn [jitem] in J. unfold dindex in J. cbn [id_of].
    destruct (dget "device_id" d); [|discriminate]. injection J as ->. now subst.
Qed.

(** ** What the children say *)
Section Say.
Context {D : Type}.
Variable life : D -> D.
Variable act : string -> D -> string -> option json -> D * answer.
Variable send : D -> Smart_Model.request + dict json -> D * res (dict json).
Variable treset : D -> D.
Variable kans : string -> string -> option json -> answer.
Hypothesis Hact : forall id d m p, snd (act id d m p) = kans id m p.
Notation here := (cam_at_hand life act send treset).
Notation told_by := (told_by kans).
Lemma ckid_asked id kpar req (w : Smart_Model.world D) : exists w1 tr, wbatch w1 = wbatch w /\
  here (CamKid id (with_params kpar req)) RETRIES w =
  (w1, tr, match req with
           | [m] => match kans id m (given (kpar m)) with AError c => Err (error_of c) | AResult j => Ok [(m, RJson j)] end
           | _ => Ok (map (fun m => (m, told_by id kpar m)) req)
           end).
Proof.
  unfold cam_at_hand, call. cbn [content]. unfold with_params. rewrite map_map. cbn [fst snd].
  destruct (acts_say act kans Hact id (map (fun k => (k, given (kpar k))) req) (life (wdev w))) as (d' & E). rewrite E. rewrite map_map. cbn [fst snd].
  exists (mkW d' (wbatch w) (wlog w)), [Exec].
  split; [|destruct req as [|m [|m2 req]]; cbn [map fst snd]; [reflexivity| |]].
  - reflexivity.
  - destruct (kans id m (given (kpar m))); reflexivity.
  - rewrite !map_map. unfold WholeHub_Proofs.told_by. destruct (kans id m (given (kpar m))); reflexivity.
Qed.
Lemma ckid_ask_for {R} id kpar req (k : res (dict reply) -> prog (dict json) R) w : NoDup req ->
  exists w1 resp, wbatch w1 = wbatch w /\ dwf resp /\
    (forall m, dget m resp = if in_dec string_dec m req then Some (shown req (told_by id kpar m)) else None) /\
    perform (fun q => here (CamKid id q)) (ask_for kpar req k) w = perform (fun q => here (CamKid id q)) (k (Ok resp)) w1.
Proof.
  intros W. unfold ask_for. cbn [perform]. destruct (ckid_asked id kpar req w) as (w1 & tr & B & ->).
  assert (CC : (exists m, req = [m]) \/ List.length req <> 1%nat).
  { destruct req as [|m [|m2 req]]; [right; discriminate|left; now exists m|right; discriminate]. }
  destruct CC as [(m & ->)|N].
  - unfold WholeHub_Proofs.told_by. destruct (kans id m (given (kpar m))) as [j|c] eqn:E.
    + exists w1, (keep [(m, RJson j)]). split; [exact B|]. split; [repeat constructor; intros []|]. split; [|reflexivity].
      intros y. cbn [keep map fst snd kept dget]. destruct (in_dec string_dec y [m]) as [[<- |[]]|N].
      * rewrite String.eqb_refl, E. reflexivity.
      * destruct (String.eqb y m) eqn:Q; [apply String.eqb_eq in Q; subst; exfalso; apply N; now left|reflexivity].
    + rewrite error_of_exception. cbn [alone perform]. destruct (ckid_asked id kpar [m] w1) as (w2 & tr2 & B2 & E2). cbn [with_params map] in E2. rewrite E2, E.
      rewrite error_of_exception. cbn [bind].
      exists w2, [(m, RErr INTERNAL)]. split; [congruence|]. split; [repeat constructor; intros []|]. split; [|reflexivity].
      intros y. cbn [dget]. destruct (in_dec string_dec y [m]) as [[<- |[]]|N].
      * rewrite String.eqb_refl, E. reflexivity.
      * destruct (String.eqb y m) eqn:Q; [apply String.eqb_eq in Q; subst; exfalso; apply N; now left|reflexivity].
  - replace (match req with [m] => _ | _ => _ end) with (@Ok (dict rval) (map (fun m => (m, told_by id kpar m)) req))
      by (destruct req as [|m [|m2 req]]; [reflexivity|now contradiction N|reflexivity]).
    exists w1, (keep (map (fun m => (m, told_by id kpar m)) req)). split; [exact B|]. split.
    { unfold dwf, dkeys, keep. rewrite !map_map. cbn [fst]. now rewrite map_id. }
    split; [|reflexivity]. intros y. rewrite dget_keep.
    assert (G : dget y (map (fun m => (m, told_by id kpar m)) req) = if in_dec string_dec y req then Some (told_by id kpar y) else None).
    { clear. induction req as [|m req IH]; [reflexivity|]. cbn [map dget]. destruct (String.eqb_spec y m) as [->|Ne].
      - destruct (in_dec string_dec m (m :: req)) as [_|X]; [reflexivity|]. exfalso. apply X. now left.
      - rewrite IH. destruct (in_dec string_dec y req) as [I|X]; destruct (in_dec string_dec y (m :: req)) as [I'|X']; try reflexivity.
        + exfalso. apply X'. now right.
        + destruct I' as [->|I']; [now contradiction Ne|contradiction]. }
    rewrite G. destruct (in_dec string_dec y req); [|reflexivity]. cbn [option_map]. f_equal. unfold shown, kept.
    destruct (told_by id kpar y); [reflexivity|]. destruct req as [|m [|m2 req]]; [reflexivity|now contradiction N|reflexivity].
Qed.
Definition said (id : string) (k : child) (r : option (dict json)) : Prop :=
  forall req, r = Some req -> forall m, dget m (replies k) =
    match dget m req with Some p => Some (shown (dkeys req) (entry_of (kans id m (given p)))) | None => None end.
Lemma get_with_params kpar req m : dget m (with_params kpar req) = if in_dec string_dec m req then Some (kpar m) else None.
Proof.
  unfold with_params. induction req as [|x req IH]; [reflexivity|]. cbn [map dget]. destruct (String.eqb_spec m x) as [->|N].
  - destruct (in_dec string_dec x (x :: req)) as [_|X]; [reflexivity|]. exfalso. apply X. now left.
  - rewrite IH. destruct (in_dec string_dec m req) as [I|X]; destruct (in_dec string_dec m (x :: req)) as [I'|X']; try reflexivity.
    + exfalso. apply X'. now right.
    + destruct I' as [->|I']; [now contradiction N|contradiction].
Qed.
Lemma ckid_says id kpar parent now d w : exists w1 d' r, wbatch w1 = wbatch w /\
  perform (fun q => here (CamKid id q)) (kid_update kpar parent now d) w = (w1, (d', r, Ok tt)) /\ info d' = info d /\
  said id (Dev d') (option_map (with_params kpar) (requested r)).
Proof.
  unfold kid_update. set (l := planned _ _ _ _). destruct (Smod_Model.request (map (fun x => (fst (fst x), snd x)) l)) as [|x req] eqn:Q.
  - do 3 eexists. split; [|split; [reflexivity|]]; [reflexivity|]. split; [reflexivity|]. intros req X. discriminate X.
  - assert (W : NoDup (x :: req)) by (rewrite <- Q; apply request_nodup).
    match goal with |- context [ask_for kpar (x :: req) ?kk] => destruct (ckid_ask_for id kpar (x :: req) kk w W) as (w1 & resp & B & _ & G & ->) end.
    cbn [perform]. do 3 eexists. split; [exact B|]. split; [reflexivity|]. cbn [requested report_of lu set_started set_lu set_mods info]. split; [reflexivity|].
    intros rq X m. assert (E : rq = with_params kpar (x :: req)) by (cbn [option_map] in X; congruence). subst rq. clear X. cbn [replies lu set_started set_lu set_mods]. rewrite G. rewrite get_with_params, keys_with_params.
    destruct (in_dec string_dec m (x :: req)); reflexivity.
Qed.
Lemma cam_kid_says id hub_child now c w : exists w1 c' r, wbatch w1 = wbatch w /\
  perform (fun q => here (CamKid id q)) (cam_kid_update hub_child now c) w = (w1, (c', r, Ok tt)) /\ k_info c' = k_info c /\
  forall p, said id (Camera c' p) r.
Proof.
  unfold cam_kid_update. set (l := map _ (k_mods c)). pose proof (c_request_wf l) as W. destruct (c_request l) as [|e req] eqn:Q.
  - do 3 eexists. split; [|split; [reflexivity|]]; [reflexivity|]. split; [reflexivity|]. intros p req X. discriminate X.
  - set (rq := e :: req) in *. set (par := fun k => match dget k rq with Some p => p | None => JNull end).
    match goal with |- context [ask_for par (dkeys rq) ?kk] => destruct (ckid_ask_for id par (dkeys rq) kk w W) as (w1 & resp & B & _ & G & ->) end.
    cbn [perform]. do 3 eexists. split; [exact B|]. split; [reflexivity|]. cbn [k_info begun with_mods with_lu]. split; [reflexivity|].
    intros p r0 X m. injection X as <-. cbn [replies k_lu begun with_mods with_lu]. rewrite G. unfold WholeHub_Proofs.told_by, par.
    destruct (in_dec string_dec m (dkeys rq)) as [I|N].
    + apply dmem_keys in I. unfold dmem in I. destruct (dget m rq) as [v|]; [reflexivity|discriminate I].
    + destruct (dget m rq) eqn:E; [|reflexivity]. exfalso. apply N. apply dmem_keys. unfold dmem. now rewrite E.
Qed.
Lemma child_says id kpar is_hub parent now k w : exists w1 k' r, wbatch w1 = wbatch w /\
  perform (fun q => here (CamKid id q)) (child_update kpar is_hub parent now k) w = (w1, (k', r, Ok tt)) /\
  (same_class k k' /\ forall i, told_of i k -> told_of i k') /\ said id k' r.
Proof.
  destruct k as [d|c p]; cbn [CamHub_Model.child_update]; rewrite perform_via.
  - destruct (ckid_says id kpar (Some parent) now d w) as (w1 & d' & r & B & E & I & S). rewrite E. cbn [perform].
    do 3 eexists. split; [exact B|]. split; [reflexivity|]. split; [|exact S]. split; [exact Logic.I|]. cbn [told_of]. intros i H. congruence.
  - destruct (cam_kid_says id is_hub now c w) as (w1 & c' & r & B & E & I & S). rewrite E. cbn [perform].
    do 3 eexists. split; [exact B|]. split; [reflexivity|]. split; [|apply S]. split; [exact Logic.I|]. cbn [told_of]. rewrite I. auto.
Qed.
Lemma ckids_say kpar is_hub parent now : forall kids (w : Smart_Model.world D), exists w1 kids' rs, wbatch w1 = wbatch w /\
  perform here (update_kids CamKid kpar is_hub parent now kids) w = (w1, (kids', rs, Ok tt)) /\
  Forall2 (fun xk xk' => fst xk' = fst xk /\ same_class (snd xk) (snd xk') /\ forall i, told_of i (snd xk) -> told_of i (snd xk')) kids kids' /\
  Forall2 (fun xk xr => fst xk = fst xr /\ said (fst xk) (snd xk) (snd xr)) kids' rs.
Proof.
  induction kids as [|[x k] kids IH]; intros w; cbn [CamHub_Model.update_kids].
  - do 3 eexists. split; [|split; [reflexivity|]]; [reflexivity|]. split; constructor.
  - rewrite perform_via. destruct (child_says x (kpar x) is_hub parent now k w) as (w1 & k1 & r1 & B1 & E1 & I1 & S1). rewrite E1.
    rewrite perform_via. destruct (IH w1) as (w2 & kids2 & rs2 & B2 & E2 & F2 & G2).
    change (fun q : cam_asks => here q) with here. rewrite E2. cbn [perform].
    do 3 eexists. split; [|split; [reflexivity|]]; [congruence|]. split; [constructor; [now split|exact F2]|]. constructor; [|exact G2].
    now split.
Qed.

(** ** The list of children *)
Variable str : json -> string.
Variable int : json -> res Z.
Variable kid_init : list string -> json -> res (list cmod).
Variable make : string -> dict json -> json -> dict reply -> res dev.
Definition known_kind (i : json) : Prop := is_smart i \/ is_camera i.
(** An entry that is new can be made an object of. *)
Definition makeable (comps : dict json) (existing : list string) (i : json) : Prop :=
  forall x, id_of i = Some x -> ~ In x existing ->
    (is_smart i -> exists j, kans x "get_connect_cloud_state" None = AResult j) /\
    (is_camera i -> forall c, dget x comps = Some c -> exists o cl names, c = JObj o /\ dget "component_list" o = Some (JArr cl) /\
       parse str int cl = Ok names /\ forall i, exists mods, kid_init names i = Ok mods).
Lemma visit_run comps existing i a w : exists w1 a' o, wbatch w1 = wbatch w /\
  (forall R (k : cacc * res unit -> prog cam_asks R), perform here (visit CamKid str int kid_init make comps existing i a k) w = perform here (k (a', o)) w1) /\
  (dwf (a_kids a) -> dwf (a_kids a')) /\
  ((exists d, i = JObj d) -> (forall x i c r, exists d, make x i c r = Ok d) -> makeable comps existing i -> o = Ok tt) /\
  (o = Ok tt ->
    (forall x, In x (a_seen a') <-> In x (a_seen a) \/ usable comps i x) /\
    (forall x, In x existing -> dget x (a_kids a') = dget x (a_kids a)) /\
    (forall x, ~ In x existing -> (In x (dkeys (a_kids a')) <-> In x (dkeys (a_kids a)) \/ usable comps i x /\ known_kind i)) /\
    (forall x k, ~ In x existing -> dget x (a_kids a') = Some k -> dget x (a_kids a) = Some k \/ id_of i = Some x /\ fits i k) /\
    (a_changed a' = true <-> a_changed a = true \/ exists x, usable comps i x /\ known_kind i /\ ~ In x existing)).
Proof.
  assert (Same : forall (a' : cacc), (forall x, ~ (usable comps i x /\ known_kind i /\ ~ In x existing)) -> a_kids a' = a_kids a -> a_changed a' = a_changed a ->
    (forall x, In x (a_seen a') <-> In x (a_seen a) \/ usable comps i x) ->
    (forall x, In x (a_seen a') <-> In x (a_seen a) \/ usable comps i x) /\
    (forall x, In x existing -> dget x (a_kids a') = dget x (a_kids a)) /\
    (forall x, ~ In x existing -> (In x (dkeys (a_kids a')) <-> In x (dkeys (a_kids a)) \/ usable comps i x /\ known_kind i)) /\
    (forall x k, ~ In x existing -> dget x (a_kids a') = Some k -> dget x (a_kids a) = Some k \/ id_of i = Some x /\ fits i k) /\
    (a_changed a' = true <-> a_changed a = true \/ exists x, usable comps i x /\ known_kind i /\ ~ In x existing)).
  { intros a' N Ek Ec S. rewrite Ek, Ec. split; [exact S|]. split; [reflexivity|]. split; [|split].
    - intros x Nx. split; [auto|]. intros [H|(U & K)]; [exact H|]. exfalso. apply (N x). auto.
    - auto.
    - split; [auto|]. intros [H|(x & H)]; [exact H|]. exfalso. now apply (N x). }
  assert (Skip : forall y, (forall x, ~ usable comps i x) ->
    (forall R (k : cacc * res unit -> prog cam_asks R), perform here (visit CamKid str int kid_init make comps existing i a k) w = perform here (k (log_once y a, Ok tt)) w) ->
    exists w1 a' o, wbatch w1 = wbatch w /\
    (forall R (k : cacc * res unit -> prog cam_asks R), perform here (visit CamKid str int kid_init make comps existing i a k) w = perform here (k (a', o)) w1) /\
    (dwf (a_kids a) -> dwf (a_kids a')) /\
    ((exists d, i = JObj d) -> (forall x i c r, exists d, make x i c r = Ok d) -> makeable comps existing i -> o = Ok tt) /\
    (o = Ok tt ->
      (forall x, In x (a_seen a') <-> In x (a_seen a) \/ usable comps i x) /\
      (forall x, In x existing -> dget x (a_kids a') = dget x (a_kids a)) /\
      (forall x, ~ In x existing -> (In x (dkeys (a_kids a')) <-> In x (dkeys (a_kids a)) \/ usable comps i x /\ known_kind i)) /\
      (forall x k, ~ In x existing -> dget x (a_kids a') = Some k -> dget x (a_kids a) = Some k \/ id_of i = Some x /\ fits i k) /\
      (a_changed a' = true <-> a_changed a = true \/ exists x, usable comps i x /\ known_kind i /\ ~ In x existing))).
  { intros y N E. exists w, (log_once y a), (Ok tt). split; [reflexivity|]. split; [exact E|]. split; [auto|]. split; [auto|]. intros _.
    apply Same; try reflexivity; [intros x (U & _); exact (N x U)|]. intros x. cbn [CamHub_Model.log_once CamHub_Model.a_seen]. split; [auto|]. intros [H|H]; [exact H|destruct (N x H)]. }
  destruct i as [| | | | | |d]; try (exists w, a, (Err PyAttributeError); split; [reflexivity|]; split; [reflexivity|]; split; [auto|]; split; [intros (d & X); discriminate X|discriminate]).
  destruct (dget "device_id" d) as [v|] eqn:Ed.
  2:{ apply (Skip ""); [|intros R k; unfold CamHub_Model.visit; now rewrite Ed]. intros x (U & _). cbn [id_of] in U. rewrite Ed in U. discriminate U. }
  destruct v as [| | | |y| |];
    try (apply (Skip ""); [|intros R k; unfold CamHub_Model.visit; now rewrite Ed]; intros x (U & _); cbn [id_of] in U; rewrite Ed in U; discriminate U).
  assert (U1 : forall x, usable comps (JObj d) x <-> x = y /\ y <> "" /\ In y (dkeys comps)).
  { intro x. unfold usable. cbn [id_of]. rewrite Ed. split; [intros (X & A & B); injection X as ->; auto|intros (-> & A & B); auto]. }
  destruct (String.eqb_spec y "") as [Ey|Ny].
  { apply (Skip ""); [|intros R k; unfold CamHub_Model.visit; rewrite Ed, Ey; reflexivity]. intros x U. apply U1 in U as (_ & U & _). contradiction. }
  destruct (dget y comps) as [c|] eqn:Ec.
  2:{ apply (Skip y). - intros x U. apply U1 in U as (_ & _ & U). apply dget_None in Ec. contradiction.
      - intros R k. unfold CamHub_Model.visit. rewrite Ed. destruct (String.eqb_spec y ""); [contradiction|]. now rewrite Ec. }
  pose proof (dget_Some_key _ _ _ Ec) as Ky.
  assert (U2 : forall x, usable comps (JObj d) x <-> x = y) by (intro x; rewrite U1; tauto).
  set (a1 := mkAcc (a_kids a) (a_logged a) (a_seen a ++ [y]) (a_changed a)).
  assert (S1 : forall x, In x (a_seen a1) <-> In x (a_seen a) \/ usable comps (JObj d) x).
  { intro x. unfold a1. cbn [CamHub_Model.a_seen]. rewrite in_app_iff, U2. cbn [In]. split; [intros [G|[G|[]]]; auto|intros [G|G]; auto]. }
  assert (Run : forall R (k : cacc * res unit -> prog cam_asks R), visit CamKid str int kid_init make comps existing (JObj d) a k =
     if smem y existing then k (a1, Ok tt) else try_create CamKid str int kid_init make y d c (fun r =>
       k match r with Err e => (a1, Err e) | Ok None => (log_once y a1, Ok tt) | Ok (Some c) => (mkAcc (dset y c (a_kids a1)) (a_logged a1) (a_seen a1) true, Ok tt) end)).
  { intros R k. unfold CamHub_Model.visit. rewrite Ed. destruct (String.eqb_spec y ""); [contradiction|]. rewrite Ec. reflexivity. }
  destruct (smem y existing) eqn:Es.
  - apply smem_In in Es. exists w, a1, (Ok tt). split; [reflexivity|]. split; [intros R k; now rewrite Run|]. split; [auto|]. split; [auto|]. intros _.
    apply Same; try reflexivity; [|exact S1]. intros x (U & _ & N). apply U2 in U. subst. contradiction.
  - apply smem_false in Es.
    assert (Made : forall ch, fits (JObj d) ch -> let a' := mkAcc (dset y ch (a_kids a1)) (a_logged a1) (a_seen a1) true in
      (dwf (a_kids a) -> dwf (a_kids a')) /\
      (forall x, In x (a_seen a') <-> In x (a_seen a) \/ usable comps (JObj d) x) /\
      (forall x, In x existing -> dget x (a_kids a') = dget x (a_kids a)) /\
      (forall x, ~ In x existing -> (In x (dkeys (a_kids a')) <-> In x (dkeys (a_kids a)) \/ usable comps (JObj d) x /\ known_kind (JObj d))) /\
      (forall x k, ~ In x existing -> dget x (a_kids a') = Some k -> dget x (a_kids a) = Some k \/ id_of (JObj d) = Some x /\ fits (JObj d) k) /\
      (a_changed a' = true <-> a_changed a = true \/ exists x, usable comps (JObj d) x /\ known_kind (JObj d) /\ ~ In x existing)).
    { intros ch F a'. assert (K : known_kind (JObj d)) by (destruct ch; [left|right]; exact F). split; [|split; [exact S1|split; [|split; [|split]]]]; cbn [a' CamHub_Model.a_kids CamHub_Model.a_changed a1].
      - apply dwf_dset.
      - intros x Ix. apply dget_dset_other. intros ->. contradiction.
      - intros x Nx. rewrite In_dkeys_dset, U2. tauto.
      - intros x k Nx. rewrite dget_dset. destruct (String.eqb_spec x y) as [Ex|]; [|auto]. intros X. injection X as <-. right. split; [|exact F]. cbn [id_of]. rewrite Ed. congruence.
      - split; [intros _; right; exists y; split; [now apply U2|]; split; [exact K|exact Es]|reflexivity]. }
    destruct (kind_of d) eqn:Ek.
    + (* asks the child *)
      assert (Sm : is_smart (JObj d)) by now apply kind_smart.
      destruct (ckid_asked y (fun _ => JNull) ["get_connect_cloud_state"] w) as (w1 & tr & B & E). cbn [with_params map] in E. cbn [given truthy] in E.
      destruct (kans y "get_connect_cloud_state" None) as [j|code] eqn:An.
      * destruct (make y d c (keep [("get_connect_cloud_state", RJson j)])) as [dv|e] eqn:Mk.
        -- set (ch := Dev (set_lu dv (keep [("get_connect_cloud_state", RJson j)]))).
           destruct (Made ch Sm) as (M0 & Mrest).
           exists w1, (mkAcc (dset y ch (a_kids a1)) (a_logged a1) (a_seen a1) true), (Ok tt). split; [exact B|]. split; [|split; [exact M0|split; [auto|intros _; exact Mrest]]].
           intros R k. rewrite Run. unfold try_create. rewrite Ek. cbn [perform]. rewrite E, Mk. reflexivity.
        -- exists w1, a1, (Err e). split; [exact B|]. split; [|split; [auto|split; [|discriminate]]].
           ++ intros R k. rewrite Run. unfold try_create. rewrite Ek. cbn [perform]. rewrite E, Mk. reflexivity.
           ++ intros _ Ok0 _. destruct (Ok0 y d c (keep [("get_connect_cloud_state", RJson j)])) as (x & X). congruence.
      * exists w1, a1, (Err PyUnboundLocal). split; [exact B|]. split; [|split; [auto|split; [|discriminate]]].
        -- intros R k. rewrite Run. unfold try_create. rewrite Ek. cbn [perform]. rewrite E, error_of_exception. reflexivity.
        -- intros _ _ Mk. destruct (Mk y) as (X & _); [cbn [id_of]; now rewrite Ed|exact Es|]. destruct (X Sm) as (j & Y). congruence.
    + assert (Ca : is_camera (JObj d)) by now apply kind_camera.
      destruct (new_camera str int kid_init d c) as [ch|e] eqn:Nc.
      * assert (F : fits (JObj d) ch).
        { unfold new_camera in Nc. destruct (jitem "component_list" c) as [l|]; [|discriminate]. cbn [bind] in Nc. destruct (jiter l) as [l0|]; [|discriminate]. cbn [bind] in Nc.
          destruct (parse str int l0) as [names|]; [|discriminate]. cbn [bind] in Nc. destruct (kid_init names (map_child_info d)); [|discriminate]. cbn [bind] in Nc. injection Nc as <-. exact Ca. }
        destruct (Made ch F) as (M0 & Mrest).
        exists w, (mkAcc (dset y ch (a_kids a1)) (a_logged a1) (a_seen a1) true), (Ok tt). split; [reflexivity|]. split; [|split; [exact M0|split; [auto|intros _; exact Mrest]]].
        intros R k. rewrite Run. unfold try_create. rewrite Ek, Nc. reflexivity.
      * exists w, a1, (Err e). split; [reflexivity|]. split; [|split; [auto|split; [|discriminate]]].
        -- intros R k. rewrite Run. unfold try_create. rewrite Ek, Nc. reflexivity.
        -- intros _ _ Mk. exfalso. destruct (Mk y) as (_ & X); [cbn [id_of]; now rewrite Ed|exact Es|]. destruct (X Ca c Ec) as (o & cl & names & -> & E1 & E2 & E3).
           unfold new_camera in Nc. cbn [jitem] in Nc. unfold dindex in Nc. rewrite E1 in Nc. cbn [bind jiter] in Nc. rewrite E2 in Nc. cbn [bind] in Nc.
           destruct (E3 (map_child_info d)) as (ms & E4). rewrite E4 in Nc. discriminate Nc.
    + exists w, (log_once y a1), (Ok tt). split; [reflexivity|]. split; [|split; [auto|split; [auto|]]].
      * intros R k. rewrite Run. unfold try_create. rewrite Ek. reflexivity.
      * intros _. apply Same; try reflexivity; [|exact S1]. intros x (_ & [K|K] & _); [apply kind_smart in K|apply kind_camera in K]; congruence.
Qed.

Definition news (comps : dict json) (l : list json) (x : string) : Prop := exists i, In i l /\ usable comps i x /\ known_kind i.
Lemma news_cons comps i l x : news comps (i :: l) x <-> usable comps i x /\ known_kind i \/ news comps l x.
Proof. split; [intros (j & [<-|J] & U); [auto|right; exists j; auto]|intros [U|(j & J & U)]; [exists i; cbn; auto|exists j; cbn; auto]]. Qed.
Lemma visit_all_run comps existing : forall l a w, exists w1 a' o, wbatch w1 = wbatch w /\
  (forall R (k : cacc * res unit -> prog cam_asks R), perform here (visit_all CamKid str int kid_init make comps existing l a k) w = perform here (k (a', o)) w1) /\
  (dwf (a_kids a) -> dwf (a_kids a')) /\
  (objects l -> (forall x i c r, exists d, make x i c r = Ok d) -> (forall i, In i l -> makeable comps existing i) -> o = Ok tt) /\
  (o = Ok tt ->
    (forall x, In x (a_seen a') <-> In x (a_seen a) \/ uses comps l x) /\
    (forall x, In x existing -> dget x (a_kids a') = dget x (a_kids a)) /\
    (forall x, ~ In x existing -> (In x (dkeys (a_kids a')) <-> In x (dkeys (a_kids a)) \/ news comps l x)) /\
    (forall x k, ~ In x existing -> dget x (a_kids a') = Some k -> dget x (a_kids a) = Some k \/ exists i, In i l /\ id_of i = Some x /\ fits i k) /\
    (a_changed a' = true <-> a_changed a = true \/ exists x, news comps l x /\ ~ In x existing)).
Proof.
  induction l as [|i l IH]; intros a w.
  - exists w, a, (Ok tt). split; [reflexivity|]. split; [reflexivity|]. split; [auto|]. split; [auto|]. intros _.
    assert (N : forall x, ~ uses comps [] x) by (intros x (i & [] & _)). assert (N2 : forall x, ~ news comps [] x) by (intros x (i & [] & _)).
    split; [|split; [reflexivity|split; [|split; [auto|]]]].
    + intro x. split; [auto|intros [G|G]; [exact G|destruct (N _ G)]].
    + intros x _. split; [auto|intros [G|G]; [exact G|destruct (N2 _ G)]].
    + split; [auto|intros [G|(x & G & _)]; [exact G|destruct (N2 _ G)]].
  - destruct (visit_run comps existing i a w) as (w1 & a1 & o1 & B1 & R1 & D1 & K1 & S1).
    destruct o1 as [[]|e].
    + destruct (IH a1 w1) as (w2 & a2 & o2 & B2 & R2 & D2 & K2 & S2). exists w2, a2, o2. split; [congruence|]. split; [|split; [auto|split]].
      * intros R k. cbn [CamHub_Model.visit_all]. rewrite R1. apply R2.
      * intros O Mk Ms. apply K2; [intros j J; apply O; now right|exact Mk|intros j J; apply Ms; now right].
      * intros Eo. destruct (S1 eq_refl) as (V1 & V2 & V3 & V4 & V5). destruct (S2 Eo) as (I1 & I2 & I3 & I4 & I5). split; [|split; [|split; [|split]]].
        -- intro x. rewrite I1, V1, uses_cons. tauto.
        -- intros x Ix. rewrite I2, V2 by exact Ix. reflexivity.
        -- intros x Nx. rewrite I3, V3, news_cons by exact Nx. tauto.
        -- intros x k Nx Ek. destruct (I4 x k Nx Ek) as [E|(j & J & X)]; [|right; exists j; split; [now right|exact X]].
           destruct (V4 x k Nx E) as [E0|X]; [now left|]. right. exists i. split; [now left|exact X].
        -- rewrite I5, V5. split.
           ++ intros [[G|(x & U & K & N)]|(x & U & N)]; [auto|right; exists x; rewrite news_cons; auto|right; exists x; rewrite news_cons; auto].
           ++ intros [G|(x & U & N)]; [auto|]. apply news_cons in U as [(U & K)|U]; [left; right|right]; exists x; auto.
    + exists w1, a1, (Err e). split; [exact B1|]. split; [|split; [exact D1|split; [|discriminate]]].
      * intros R k. cbn [CamHub_Model.visit_all]. now rewrite R1.
      * intros O Mk Ms. assert (X : @Err unit e = Ok tt) by (apply K1; [apply O; now left|exact Mk|apply Ms; now left]). discriminate X.
Qed.

(** What the hub says of them *)
Lemma cpush_get : forall kids i x, dget x (push kids i) =
  match dget x kids with Some k => Some (match i with JObj d => match id_of i with Some y => if String.eqb x y then inform d k else k | None => k end | _ => k end) | None => None end.
Proof.
  intros kids i x. unfold CamHub_Model.push. destruct i as [ | | | | | |d]; cbn [id_of]; try (destruct (dget x kids); reflexivity).
  destruct (dget "device_id" d) as [v|]; [|destruct (dget x kids); reflexivity].
  destruct v as [ | | | |y| | ]; try (destruct (dget x kids); reflexivity).
  destruct (dget y kids) as [k|] eqn:E.
  - rewrite dget_dset. destruct (String.eqb_spec x y) as [->|N]; [now rewrite E|]. destruct (dget x kids); reflexivity.
  - destruct (String.eqb_spec x y) as [->|N]; [now rewrite E|]. destruct (dget x kids); reflexivity.
Qed.
Lemma cpush_wf kids i : dwf kids -> dwf (push kids i).
Proof.
  intros W. unfold CamHub_Model.push. destruct i as [| | | | | |d]; try exact W. destruct (dget "device_id" d) as [[]|]; try exact W. destruct (dget s kids); [now apply dwf_dset|exact W].
Qed.
Lemma cpush_all_wf l : forall kids, dwf kids -> dwf (fold_left push l kids).
Proof. induction l as [|i l IH]; intros kids W; [exact W|]. cbn [fold_left]. apply IH. now apply cpush_wf. Qed.
Lemma cpush_all_get : forall l kids x, (dget x (fold_left push l kids) = None <-> dget x kids = None) /\
  forall k, dget x kids = Some k -> exists k', dget x (fold_left push l kids) = Some k' /\ same_class k k' /\
    (~ has l x /\ k' = k \/ exists i, last_entry l x i /\ told_of i k').
Proof.
  induction l as [|i l IH]; intros kids x; cbn [fold_left].
  - split; [tauto|]. intros k H. exists k. split; [exact H|]. split; [apply same_class_refl|]. left. split; [intros (i & [] & _)|reflexivity].
  - destruct (IH (push kids i) x) as (I1 & I2). rewrite cpush_get in I1, I2. split.
    + rewrite I1. destruct (dget x kids); split; congruence.
    + intros k H. rewrite H in I2. destruct (I2 _ eq_refl) as (k' & E & C & T). exists k'. split; [exact E|].
      destruct (id_of i) as [y|] eqn:Ei.
      * destruct (id_of_obj _ _ Ei) as (d & -> & Ed). destruct (String.eqb_spec x y) as [->|Nx].
        -- split; [apply (same_class_trans _ (inform d k)); [apply inform_class|exact C]|]. right. destruct T as [(N & ->)|(j & L & Tj)].
           ++ exists (JObj d). split; [exists [], l; auto|]. apply inform_told.
           ++ exists j. split; [|exact Tj]. destruct L as (b & a & -> & Lj & La). exists (JObj d :: b), a. auto.
        -- split; [exact C|]. destruct T as [(N & ->)|(j & L & Tj)].
           ++ left. split; [|reflexivity]. intros (j & [<-|J] & Ij); [congruence|]. apply N. exists j. auto.
           ++ right. exists j. split; [|exact Tj]. destruct L as (b & a & -> & Lj & La). exists (JObj d :: b), a. auto.
      * assert (EX : (match i with JObj _ => k | _ => k end) = k) by now destruct i. rewrite EX in C, T.
        split; [exact C|]. destruct T as [(N & ->)|(j & L & Tj)].
        -- left. split; [|reflexivity]. intros (j & [<-|J] & Ij); [congruence|]. apply N. exists j. auto.
        -- right. exists j. split; [|exact Tj]. destruct L as (b & a & -> & Lj & La). exists (i :: b), a. auto.
Qed.

Definition listing (old : dict child) (l cs : list json) (kids : dict child) (b : bool) : Prop :=
  (forall x, In x (dkeys kids) <-> due (dkeys old) l cs x) /\
  (forall x k, dget x kids = Some k -> exists i, last_entry l x i /\ told_of i k) /\
  (forall x k, dget x kids = Some k -> match dget x old with Some k0 => same_class k0 k | None => exists i, In i l /\ id_of i = Some x /\ fits i k end) /\
  ((exists x, ~ (In x (dkeys kids) <-> In x (dkeys old))) -> b = true).
Lemma children_info_run h w : exists w1 h' o, wbatch w1 = wbatch w /\
  (forall R (k : chub * res bool -> prog cam_asks R), perform here (children_info CamKid str int kid_init make h k) w = perform here (k (h', o)) w1) /\
  h_cam h' = h_cam h /\ (dwf (h_kids h) -> dwf (h_kids h')) /\
  forall l cs, hub_reports (k_lu (h_cam h)) l cs ->
    (objects l -> with_ids cs -> (forall x i c r, exists d, make x i c r = Ok d) -> can_be_made kans str int kid_init (dkeys (h_kids h)) l cs -> exists b, o = Ok b) /\
    (forall b, o = Ok b -> listing (h_kids h) l cs (h_kids h') b).
Proof.
  unfold CamHub_Model.children_info.
  destruct (dget "getChildDeviceList" (k_lu (h_cam h))) as [rl|] eqn:EL.
  2:{ exists w, h, (Ok false). do 4 (split; [auto|]). intros l cs ((o & X & _) & _). congruence. }
  destruct rl as [v|c].
  2:{ exists w, h, (Ok false). do 4 (split; [auto|]). intros l cs ((o & X & _) & _). congruence. }
  destruct (truthy v) eqn:T.
  2:{ exists w, h, (Ok false). do 4 (split; [auto|]). intros l cs ((o & X & X2) & _). assert (v = JObj o) by congruence. subst v. destruct o; [discriminate X2|discriminate T]. }
  destruct (dget "getChildDeviceComponentList" (k_lu (h_cam h))) as [c|] eqn:EC.
  2:{ exists w, h, (Err PyKeyError). do 4 (split; [auto|]). intros l cs (_ & (o & X & _)). congruence. }
  unfold CamHub_Model.create_delete.
  destruct (match c with RErr _ => _ | RVal _ => _ end) as [comps|e] eqn:Ecm.
  2:{ exists w, h, (Err e). do 4 (split; [auto|]). intros l cs (_ & (o & X & X2)). assert (c = RVal (JObj o)) by congruence. subst c.
      cbn [jitem] in Ecm. unfold dindex in Ecm. rewrite X2 in Ecm. cbn [bind jiter] in Ecm. split; [|discriminate]. intros _ Wc. destruct (comp_dict_ok cs [] Wc) as (cd & Y). congruence. }
  destruct (let! l := jitem "child_device_list" v in jiter l) as [l0|e] eqn:Eli.
  2:{ exists w, h, (Err e). do 4 (split; [auto|]). intros l cs ((o & X & X2) & _). exfalso. assert (v = JObj o) by congruence. subst v.
      cbn [jitem] in Eli. unfold dindex in Eli. rewrite X2 in Eli. discriminate Eli. }
  set (existing := dkeys (h_kids h)).
  destruct (visit_all_run comps existing l0 (mkAcc (h_kids h) (h_logged h) [] false) w) as (w1 & a & o & B & Run & Wf & Good & Spec).
  cbn [CamHub_Model.a_kids CamHub_Model.a_seen CamHub_Model.a_changed] in Wf, Spec.
  assert (Same : forall l cs, hub_reports (k_lu (h_cam h)) l cs -> l = l0 /\ exists oc, comp_dict cs [] = Ok comps /\ c = RVal (JObj oc)).
  { intros l cs ((ol & X1 & X2) & (oc & X3 & X4)). assert (v = JObj ol) by congruence. assert (c = RVal (JObj oc)) by congruence. subst v c.
    cbn [jitem] in Eli, Ecm. unfold dindex in Eli, Ecm. rewrite X2 in Eli. rewrite X4 in Ecm. cbn [bind jiter] in Eli, Ecm. split; [congruence|]. now exists oc. }
  destruct o as [[]|e].
  2:{ exists w1, (mkHub (h_cam h) (a_kids a) (a_logged a)), (Err e). split; [exact B|]. split; [intros R k; now rewrite Run|]. split; [reflexivity|]. split; [exact Wf|].
      intros l cs HR. split; [|discriminate]. destruct (Same l cs HR) as (-> & oc & Ecd & _). intros O Wc Mk Cm. exfalso.
      assert (X : @Err unit e = Ok tt); [|discriminate X]. apply Good; [exact O|exact Mk|]. intros i I x Ix Nx.
      destruct (Cm i x I Ix Nx) as (C1 & C2). split; [exact C1|]. intros Hc cc Ecc.
      destruct (comp_dict_val _ _ _ _ _ Ecd Ecc) as [X|(Ic & Idc)]; [discriminate X|]. destruct (C2 Hc cc Ic Idc) as (o1 & cl & names & -> & Y1 & Y2 & Y3).
      exists o1, cl, names. split; [reflexivity|]. split; [exact Y1|]. split; [now apply parse_lists|exact Y3]. }
  set (removed := filter (fun x => negb (smem x (a_seen a))) existing).
  set (kids := fold_left (fun d x => ddel x d) removed (a_kids a)).
  exists w1, (mkHub (h_cam h) (fold_left push l0 kids) (a_logged a)), (Ok (a_changed a || match removed with [] => false | _ => true end)).
  split; [exact B|]. split; [intros R k; now rewrite Run|]. split; [reflexivity|]. cbn [h_kids]. split.
  { intros W. apply cpush_all_wf. unfold kids. specialize (Wf W). clear - Wf. revert Wf. generalize (a_kids a). clearbody removed. induction removed as [|y r IH]; intros d Wd; [exact Wd|].
    cbn [fold_left]. apply IH. now apply ddel_wf. }
  intros l cs HR. split; [eauto|]. destruct (Same l cs HR) as (-> & oc & Ecd & _). intros b Eb. assert (Hb : b = a_changed a || match removed with [] => false | _ => true end) by congruence. subst b. clear Eb.
  destruct (Spec eq_refl) as (V1 & V2 & V3 & V4 & V5).
  assert (Hc : forall x, In x (dkeys comps) <-> has cs x).
  { intro x. pose proof (comp_dict_spec _ _ _ Ecd x) as K. cbn [dkeys map In] in K. tauto. }
  assert (U : forall x, uses comps l0 x <-> x <> "" /\ has l0 x /\ has cs x).
  { intro x. unfold uses, usable, has. split.
    - intros (i & I & Ai & Bi & Ci). apply Hc in Ci. split; [exact Bi|]. split; [exists i; auto|exact Ci].
    - intros (Bi & (i & I & Ai) & Ci). exists i. split; [exact I|]. split; [exact Ai|]. split; [exact Bi|]. now apply Hc. }
  assert (Nw : forall x, news comps l0 x <-> x <> "" /\ has cs x /\ exists i, In i l0 /\ id_of i = Some x /\ (is_smart i \/ is_camera i)).
  { intro x. unfold news, usable. split.
    - intros (i & I & (Ai & Bi & Ci) & K). apply Hc in Ci. split; [exact Bi|]. split; [exact Ci|]. exists i. auto.
    - intros (Bi & Ci & i & I & Ai & K). exists i. split; [exact I|]. split; [|exact K]. split; [exact Ai|]. split; [exact Bi|]. now apply Hc. }
  assert (R : forall x, In x removed <-> In x existing /\ ~ uses comps l0 x).
  { intro x. unfold removed. rewrite filter_In, negb_true_iff, smem_false, V1. cbn [In]. tauto. }
  assert (G : forall x, dget x kids = if smem x removed then None else dget x (a_kids a)) by (intro; apply ddel_list_get).
  assert (Keys : forall x, In x (dkeys kids) <-> due existing l0 cs x).
  { intro x. rewrite <- dmem_In. unfold dmem. rewrite G. unfold due. destruct (smem x removed) eqn:Er.
    - apply smem_In, R in Er. split; [discriminate|]. intros (C1 & C2 & C3). exfalso. destruct Er as (E1 & E2). apply E2, U. split; [exact C1|]. split; [|exact C2].
      destruct C3 as [(_ & C3)|(i & I & Ii & _)]; [exact C3|]. now exists i.
    - apply smem_false in Er. rewrite R in Er. fold (dmem x (a_kids a)). rewrite dmem_In.
      destruct (in_dec string_dec x existing) as [Ix|Nx].
      + assert (Lx : uses comps l0 x).
        { destruct (in_dec string_dec x (a_seen a)) as [S|S]; [apply V1 in S as [[]|S]; exact S|].
          exfalso. apply Er. split; [exact Ix|]. intro C. apply S, V1. auto. }
        apply U in Lx. destruct Lx as (L1 & L2 & L3). split; [intros _; auto|]. intros _. destruct (dget_key_Some _ _ Ix) as (k & Ek). apply (dget_Some_key _ k). now rewrite V2.
      + rewrite (V3 x Nx), Nw. split; [intros [C|(C1 & C2 & C3)]; [contradiction|auto]|]. intros (C1 & C2 & [(C3 & _)|C3]); [contradiction|auto]. }
  assert (KeysP : forall x, In x (dkeys (fold_left push l0 kids)) <-> In x (dkeys kids)).
  { intro x. destruct (cpush_all_get l0 kids x) as (P1 & _).
    rewrite <- !dmem_In. unfold dmem. destruct (dget x (fold_left push l0 kids)) eqn:E1, (dget x kids) eqn:E2; try tauto;
      [destruct P1 as [_ P1]; discriminate (P1 eq_refl)|destruct P1 as [P1 _]; discriminate (P1 eq_refl)]. }
  assert (Due_has : forall x, due existing l0 cs x -> has l0 x).
  { intros x (_ & _ & [(_ & H)|(i & I & Ii & _)]); [exact H|now exists i]. }
  assert (From : forall x k, dget x (fold_left push l0 kids) = Some k -> exists k0, dget x kids = Some k0 /\ same_class k0 k /\ exists i, last_entry l0 x i /\ told_of i k).
  { intros x k E. destruct (cpush_all_get l0 kids x) as (P1 & P2). destruct (dget x kids) as [k0|] eqn:E2; [|destruct P1 as [_ P1]; rewrite P1 in E by reflexivity; discriminate].
    destruct (P2 k0 eq_refl) as (k' & Ek & C & T2). assert (k' = k) by congruence. subst k'. exists k0. split; [reflexivity|]. split; [exact C|].
    destruct T2 as [(N & _)|T2]; [|exact T2]. exfalso. apply N, Due_has, Keys. now apply dget_Some_key in E2. }
  split; [|split; [|split]].
  - intro x. rewrite KeysP. apply Keys.
  - intros x k E. destruct (From x k E) as (_ & _ & _ & X). exact X.
  - intros x k E. destruct (From x k E) as (k0 & E0 & C & _). rewrite G in E0. destruct (smem x removed); [discriminate|].
    destruct (dget x (h_kids h)) as [ko|] eqn:Eo.
    + assert (Ix : In x existing) by now apply dget_Some_key in Eo. rewrite (V2 x Ix), Eo in E0. injection E0 as ->. exact C.
    + assert (Nx : ~ In x existing) by now apply dget_None. destruct (V4 x k0 Nx E0) as [X|(i & I & Ii & F)]; [congruence|]. exists i. split; [exact I|]. split; [exact Ii|]. exact (fits_class _ _ _ C F).
  - intros (x & Hx). rewrite KeysP, Keys in Hx. rewrite orb_true_iff. destruct (in_dec string_dec x existing) as [Ix|Nx].
    + right. assert (Rx : In x removed). { apply R. split; [exact Ix|]. intro Ux. apply Hx. apply U in Ux. destruct Ux as (U1 & U2 & U3). unfold due. tauto. }
      destruct removed; [destruct Rx|reflexivity].
    + left. apply V5. right. exists x. split; [|exact Nx]. apply Nw. destruct (in_dec string_dec x (dkeys (a_kids a))) as [Ia|Na].
      * apply (V3 x Nx) in Ia. destruct Ia as [Ia|Ia]; [contradiction|]. now apply Nw.
      * exfalso. apply Hx. split; [|contradiction]. intros (D1 & D2 & [(D3 & _)|D3]); [contradiction|]. exfalso. apply Na, (V3 x Nx). right. apply Nw. auto.
Qed.
End Say.

(** ** The queries that are made *)
Definition fit (q : dict json * Z) : Prop := proper (CDict (fst q)) /\ 0 <= snd q.
Lemma map_same {A : Type} (l : list (A * Z)) : map (fun y => (fst y, snd y)) l = l.
Proof. rewrite (map_ext _ (fun y => y)), map_id by (now intros []). reflexivity. Qed.
Lemma leads_child kpar is_hub parent now k qs rs k' r o : leads (child_update kpar is_hub parent now k) qs rs (k', r, o) ->
  (forall req, r = Some req -> ~ In "multipleRequest" (dkeys req)) -> Forall fit qs.
Proof.
  destruct k as [d|c p]; cbn [CamHub_Model.child_update]; intros H M; destruct (leads_via _ _ _ _ _ _ H) as (qs1 & rs1 & [[x1 r1] o1] & qs2 & rs2 & H1 & H2 & ->);
    destruct (leads_ret_inv _ _ _ _ H2) as (-> & E); rewrite app_nil_r, map_same.
  - assert (r = option_map (with_params kpar) (requested r1)) by congruence. pose proof (leads_kid _ _ _ _ _ _ _ _ _ H1) as F. revert F. apply Forall_impl.
    intros q (req & Rq & P). apply (proper_plain _ _ _ P). rewrite <- (keys_with_params kpar req). apply M. rewrite H0, Rq. reflexivity.
  - assert (r = r1) by congruence. subst r1. clear E. unfold cam_kid_update in H1. revert H1. set (l := map _ (k_mods c)). pose proof (c_request_wf l) as W. destruct (c_request l) as [|e req] eqn:Q; intros H1.
    + destruct (leads_ret_inv _ _ _ _ H1) as (-> & _). constructor.
    + assert (Ne : dkeys (e :: req) <> []) by (unfold dkeys; cbn [map]; discriminate). destruct (leads_ask_for _ _ _ _ _ _ Ne W H1) as (qs3 & a & qs4 & rs4 & -> & F & L).
      destruct (leads_ret_inv _ _ _ _ L) as (-> & E). rewrite app_nil_r. assert (H0 : r = Some (e :: req)) by (destruct a; exact (f_equal (fun x => snd (fst x)) E)).
      revert F. apply Forall_impl. intros q P. apply (proper_plain _ _ _ P). apply M. exact H0.
Qed.
Section Made.
Context {A : Type}.
Variable hub : cam_request -> A.
Variable kid : string -> dict json -> A.
Variable kpar : string -> string -> json.
Variable str : json -> string.
Variable int : json -> res Z.
Variable init : list string -> dict reply -> json -> res (list cmod).
Variable kid_init : list string -> json -> res (list cmod).
Variable make : string -> dict json -> json -> dict reply -> res dev.
Definition ckid (x : A * Z) : Prop := exists id l, fst x = kid id l /\ proper (CDict l) /\ 0 <= snd x.
Lemma leads_visit {R} comps existing i a (k : cacc * res unit -> prog A R) qs rs r : leads (visit kid str int kid_init make comps existing i a k) qs rs r ->
  exists qs1 o qs2 rs2, qs = qs1 ++ qs2 /\ Forall ckid qs1 /\ leads (k o) qs2 rs2 r.
Proof.
  intros H. unfold CamHub_Model.visit in H.
  assert (Now : forall o, leads (k o) qs rs r -> exists qs1 o qs2 rs2, qs = qs1 ++ qs2 /\ Forall ckid qs1 /\ leads (k o) qs2 rs2 r).
  { intros o L. exists [], o, qs, rs. split; [reflexivity|]. split; [constructor|exact L]. }
  destruct i as [| | | | | |d]; try (exact (Now _ H)). destruct (dget "device_id" d) as [[| | | |x| |]|]; try (exact (Now _ H)).
  destruct (String.eqb x ""); [exact (Now _ H)|]. destruct (dget x comps) as [c|]; [|exact (Now _ H)]. cbv zeta in H.
  destruct (smem x existing); [exact (Now _ H)|]. unfold try_create in H. destruct (kind_of d); try (exact (Now _ H)).
  inversion H as [|? ? ? qs0 rs0 tr a0 ? H0]; subst.
  eexists [(kid x [("get_connect_cloud_state", JNull)], RETRIES)], _, qs0, rs0. split; [reflexivity|]. split; [|exact H0].
  constructor; [|constructor]. exists x, [("get_connect_cloud_state", JNull)]. split; [reflexivity|]. split; [|cbn; unfold RETRIES; lia].
  split; [discriminate|]. split; [repeat constructor; intros []|]. cbn. intros [X|[]]. discriminate X.
Qed.
Lemma leads_visit_all {R} comps existing : forall l a (k : cacc * res unit -> prog A R) qs rs r, leads (visit_all kid str int kid_init make comps existing l a k) qs rs r ->
  exists qs1 o qs2 rs2, qs = qs1 ++ qs2 /\ Forall ckid qs1 /\ leads (k o) qs2 rs2 r.
Proof.
  induction l as [|i l IH]; intros a k qs rs r H; cbn [CamHub_Model.visit_all] in H.
  - exists [], (a, Ok tt), qs, rs. split; [reflexivity|]. split; [constructor|exact H].
  - destruct (leads_visit _ _ _ _ _ _ _ _ H) as (qs1 & [a1 [[]|e]] & qs2 & rs2 & -> & F & L).
    + destruct (IH _ _ _ _ _ L) as (qs3 & o & qs4 & rs4 & -> & F2 & L2). exists (qs1 ++ qs3), o, qs4, rs4. split; [now rewrite app_assoc|]. split; [now apply Forall_app|exact L2].
    + exists qs1, (a1, Err e), qs2, rs2. auto.
Qed.
Lemma leads_children_info {R} h (k : chub * res bool -> prog A R) qs rs r : leads (children_info kid str int kid_init make h k) qs rs r ->
  exists qs1 o qs2 rs2, qs = qs1 ++ qs2 /\ Forall ckid qs1 /\ leads (k o) qs2 rs2 r.
Proof.
  intros H. unfold CamHub_Model.children_info, CamHub_Model.create_delete in H.
  assert (Now : forall o, leads (k o) qs rs r -> exists qs1 o qs2 rs2, qs = qs1 ++ qs2 /\ Forall ckid qs1 /\ leads (k o) qs2 rs2 r).
  { intros o L. exists [], o, qs, rs. split; [reflexivity|]. split; [constructor|exact L]. }
  destruct (dget "getChildDeviceList" (k_lu (h_cam h))) as [[v|c]|]; try (exact (Now _ H)). destruct (truthy v); [|exact (Now _ H)].
  destruct (dget "getChildDeviceComponentList" (k_lu (h_cam h))) as [c|]; [|exact (Now _ H)].
  destruct (match c with RErr _ => _ | RVal _ => _ end) as [comps|e]; [|exact (Now _ H)].
  destruct (let! l := jitem "child_device_list" v in jiter l) as [l0|e]; [|exact (Now _ H)].
  cbv zeta in H. destruct (leads_visit_all _ _ _ _ _ _ _ _ H) as (qs1 & o & qs2 & rs2 & -> & F & L). eexists qs1, _, qs2, rs2. split; [reflexivity|]. split; [exact F|exact L].
Qed.
Lemma leads_ckids is_hub parent now : forall kids qs rs kids' reps o, leads (update_kids kid kpar is_hub parent now kids) qs rs (kids', reps, o) ->
  modest reps -> Forall ckid qs.
Proof.
  induction kids as [|[x k] kids IH]; intros qs rs kids' reps o H M; cbn [CamHub_Model.update_kids] in H.
  - destruct (leads_ret_inv _ _ _ _ H) as (-> & _). constructor.
  - destruct (leads_via _ _ _ _ _ _ H) as (qs1 & rs1 & [[k1 r1] o1] & qs2 & rs2 & H1 & H2 & ->).
    assert (G : In (x, r1) reps -> Forall ckid (map (fun y : dict json * Z => (kid x (fst y), snd y)) qs1)).
    { intros I. assert (X : Forall fit qs1). { apply (leads_child _ _ _ _ _ _ _ _ _ _ H1). intros req ->. exact (M x req I). }
      apply Forall_forall. intros q Hq. apply in_map_iff in Hq. destruct Hq as (y & <- & Hy). rewrite Forall_forall in X. destruct (X y Hy) as (P1 & P2).
      exists x, (fst y). split; [reflexivity|]. now split. }
    destruct o1 as [[]|e].
    + destruct (leads_via _ _ _ _ _ _ H2) as (qs3 & rs3 & [[kids3 reps3] o3] & qs4 & rs4 & H3 & H4 & ->).
      destruct (leads_ret_inv _ _ _ _ H4) as (-> & E). assert (reps = (x, r1) :: reps3) by congruence. subst reps.
      rewrite app_nil_r, map_same. apply Forall_app. split; [apply G; now left|].
      apply (IH _ _ _ _ _ H3). intros y req I. exact (M y req (or_intror I)).
    + destruct (leads_ret_inv _ _ _ _ H2) as (-> & E). assert (reps = [(x, r1)]) by congruence. subst reps. rewrite app_nil_r. apply G. now left.
Qed.
Lemma leads_hub is_hub uc now h qs rs h' r reps o : leads (update_hub hub kid kpar str int init kid_init make is_hub uc now h) qs rs (h', r, reps, o) ->
  modest reps -> Forall (fun x => (exists q, fst x = hub q) \/ ckid x) qs.
Proof.
  unfold update_hub. intros H M.
  destruct (leads_via _ _ _ _ _ _ H) as (qs1 & rs1 & [[d1 r1] o1] & qs2 & rs2 & _ & H2 & ->).
  apply Forall_app. split.
  - apply Forall_forall. intros q Hq. apply in_map_iff in Hq. destruct Hq as (y & <- & _). left. now exists (fst y).
  - destruct o1 as [[]|e]; [|destruct (leads_ret_inv _ _ _ _ H2) as (-> & _); constructor].
    destruct (leads_children_info _ _ _ _ _ H2) as (qs3 & [h1 [b|e]] & qs4 & rs4 & -> & F & L).
    2:{ destruct (leads_ret_inv _ _ _ _ L) as (-> & _). rewrite app_nil_r. revert F. apply Forall_impl. now right. }
    apply Forall_app. split; [revert F; apply Forall_impl; now right|].
    destruct (b || uc || negb is_hub); [|destruct (leads_ret_inv _ _ _ _ L) as (-> & _); constructor].
    destruct (leads_via _ _ _ _ _ _ L) as (qs5 & rs5 & [[kids3 reps3] o3] & qs6 & rs6 & H3 & H4 & ->).
    destruct (leads_ret_inv _ _ _ _ H4) as (-> & E). assert (reps = reps3) by congruence. subst reps3. rewrite app_nil_r, map_same.
    pose proof (leads_ckids _ _ _ _ _ _ _ _ _ H3 M) as F5. revert F5. apply Forall_impl. now right.
Qed.
End Made.

(** C157: a camera hub and its children, cameras and others, over protocol, transport and device, show what
    the hub and the children say. *)
From Verif Require Import Base Base_Lemmas Py Codes_Model Retry_Model Smart_Model Smart_Spec Child_Model Child_Spec CamQuery_Model CamQuery_Spec Hub_Model Hub_Spec Hub_Proofs Hub_Props.
From Verif Require Import Stack_Spec Stack_Props Stack2_Props Smod_Model Smod_Spec Whole_Model Whole_Spec Whole_Proofs Whole_Props Family_Model Family_Spec Family_Proofs.
From Verif Require Import WholeHub_Model WholeHub_Proofs WholeHub_Props WholeCam_Model WholeCam_Spec WholeCam_Proofs WholeCam_Props CamHub_Model CamHub_Spec CamHub_Proofs.
Open Scope string_scope.
Open Scope list_scope.
Open Scope Z_scope.
Notation world := Smart_Model.world.
Notation kids_shown := CamHub_Spec.kids_shown. Notation modest := CamHub_Spec.modest.

(** ** What follows from the hub's own part of the update *)
Lemma ckids_dict kans (kids : dict child) rs :
  Forall2 (fun (xk : string * child) (xr : string * option (dict json)) => fst xk = fst xr /\ said kans (fst xk) (snd xk) (snd xr)) kids rs ->
  dwf kids -> kids_shown kans rs kids /\ map fst rs = dkeys kids.
Proof.
  intros F W. assert (K : map fst rs = dkeys kids) by (clear - F; unfold dkeys; induction F as [|? ? ? ? (X & _) _ IH]; [reflexivity|]; cbn [map]; congruence).
  split; [|exact K]. intros x req k I E. induction F as [|[y ky] [z rz] kids rs (Ez & Hz) F IH]; [destruct I|]. cbn [fst snd] in *. subst z.
  inversion W as [|? ? N W']; subst. cbn [dget] in E. assert (K' : map fst rs = dkeys kids) by (unfold dkeys in *; cbn [map fst] in K; injection K; auto).
  destruct (String.eqb_spec x y) as [->|Ne].
  - injection E as <-. destruct I as [I|I].
    + injection I as ->. exact (Hz req eq_refl).
    + exfalso. apply N. change (In y (dkeys kids)). rewrite <- K'. apply in_map_iff. now exists (y, Some req).
  - destruct I as [I|I]; [now injection I as -> _|]. exact (IH W' K' I E).
Qed.
Lemma ckids_same kids kids' : Forall2 (fun (xk xk' : string * child) => fst xk' = fst xk /\ same_class (snd xk) (snd xk') /\ forall i, told_of i (snd xk) -> told_of i (snd xk')) kids kids' ->
  dkeys kids' = dkeys kids /\ forall x k', dget x kids' = Some k' -> exists k, dget x kids = Some k /\ same_class k k' /\ forall i, told_of i k -> told_of i k'.
Proof.
  induction 1 as [|[x k] [x' k'] l l' (E1 & E2 & E3) _ (IH1 & IH2)]; [split; [reflexivity|discriminate]|]. cbn [fst snd] in *. subst x'. unfold dkeys in *. cbn [map fst]. split; [congruence|].
  intros y ky. cbn [dget]. destruct (String.eqb y x); [|apply IH2]. intros X. injection X as <-. exists k. auto.
Qed.
Lemma camhub_rest D life act (send : D -> Smart_Model.request + dict json -> D * res (dict json)) treset kans kpar str int init kid_init make is_hub uc now h (w w' : world D) h' r rs out :
  (forall id d m p, snd (act id d m p) = kans id m p) -> dwf (h_kids h) ->
  perform (cam_at_hand life act send treset) (update_hub CamHub CamKid kpar str int init kid_init make is_hub uc now h) w = (w', (h', r, rs, out)) ->
  exists w1 o1, perform (cam_ask send treset) (c_update str int init now (h_cam h) Ret) w = (w1, (h_cam h', r, o1)) /\ (out = Ok tt -> o1 = Ok tt) /\
    camhub_shown kans str int kid_init make is_hub uc (h_kids h) h' rs out (o1 = Ok tt).
Proof.
  intros Ha Hk H. unfold update_hub in H. rewrite perform_via in H.
  destruct (perform _ (c_update str int init now (h_cam h) Ret) w) as [w1 [[d1 r1] o1]] eqn:E1.
  change (fun q : cam_request => cam_at_hand life act send treset (CamHub q)) with (cam_ask send treset) in E1.
  exists w1, o1. destruct o1 as [[]|e].
  2: { cbn [perform] in H. pose proof (f_equal snd H) as X. cbn [snd] in X. injection X as <- <- <- <-. split; [reflexivity|]. split; [discriminate|].
       split; [intros x req k []|]. intros l cs _. split; [intros X; discriminate X|discriminate]. }
  destruct (children_info_run life act send treset kans Ha str int kid_init make (mkHub d1 (h_kids h) (h_logged h)) w1) as (w2 & h2 & o2 & _ & Run & Hc & Wf & Spec).
  rewrite Run in H. clear Run. cbn [h_kids h_cam] in *. specialize (Wf Hk).
  destruct o2 as [b|e].
  2: { cbn [perform] in H. pose proof (f_equal snd H) as X. cbn [snd] in X. injection X as <- <- <- <-. rewrite Hc. split; [reflexivity|]. split; [discriminate|].
       split; [intros x req k []|]. rewrite Hc. intros l cs HR. destruct (Spec l cs HR) as (S1 & _). split; [|discriminate]. intros _ O Wc Mk Cm. destruct (S1 O Wc Mk Cm) as (b & X). discriminate X. }
  destruct (b || uc || negb is_hub) eqn:B.
  - rewrite perform_via in H. destruct (ckids_say life act send treset kans Ha kpar is_hub (k_lu (h_cam h2)) now (h_kids h2) w2) as (w3 & kids3 & rs3 & _ & E3 & F1 & F2).
    change (fun q : cam_asks => cam_at_hand life act send treset q) with (cam_at_hand life act send treset) in H. rewrite E3 in H. cbn [perform] in H.
    pose proof (f_equal snd H) as X. cbn [snd] in X. injection X as <- <- <- <-. cbn [h_cam]. rewrite Hc. split; [reflexivity|]. split; [reflexivity|].
    destruct (ckids_same _ _ F1) as (K1 & K2). assert (W3 : dwf kids3) by (unfold dwf; now rewrite K1). destruct (ckids_dict _ _ _ F2 W3) as (G1 & G2).
    split; [exact G1|]. cbn [h_cam h_kids]. intros l cs HR. split; [reflexivity|]. intros _. destruct (Spec l cs HR) as (_ & S2). destruct (S2 b eq_refl) as (L1 & L2 & L3 & L4).
    rewrite K1. split; [exact L1|]. split; [|split; [|split; [intros _; congruence|intros _; congruence]]].
    + intros x k E. destruct (K2 x k E) as (k0 & E0 & _ & T). destruct (L2 x k0 E0) as (i & Li & Ti). eauto.
    + intros x k E. destruct (K2 x k E) as (k0 & E0 & C & _). specialize (L3 x k0 E0). destruct (dget x (h_kids h)) as [ko|].
      * exact (same_class_trans _ _ _ L3 C).
      * destruct L3 as (i & I & Ii & Fi). exists i. split; [exact I|]. split; [exact Ii|]. exact (fits_class _ _ _ C Fi).
  - cbn [perform] in H. pose proof (f_equal snd H) as X. cbn [snd] in X. injection X as <- <- <- <-. rewrite Hc. split; [reflexivity|]. split; [reflexivity|].
    split; [intros x req k []|]. rewrite Hc. intros l cs HR. split; [reflexivity|]. intros _. destruct (Spec l cs HR) as (_ & S2). destruct (S2 b eq_refl) as (L1 & L2 & L3 & L4).
    split; [exact L1|]. split; [exact L2|]. split; [exact L3|]. split.
    + intros U. exfalso. destruct is_hub; [rewrite (U eq_refl) in B|]; destruct b; try destruct uc; discriminate B.
    + intros Ch. rewrite (L4 Ch) in B. discriminate B.
Qed.
(** Children at hand or behind the hub: for an update it makes no difference. *)
Lemma camhub_at_hand D life act (send : D -> Smart_Model.request + dict json -> D * res (dict json)) treset kpar str int init kid_init make is_hub uc now h (w w' : world D) h' r rs out :
  (forall id l, proper (CDict l) -> cam_relays life act send id l) -> modest rs ->
  perform (cam_through send treset) (update_hub CamHub CamKid kpar str int init kid_init make is_hub uc now h) w = (w', (h', r, rs, out)) ->
  perform (cam_at_hand life act send treset) (update_hub CamHub CamKid kpar str int init kid_init make is_hub uc now h) w = (w', (h', r, rs, out)).
Proof.
  intros Hr Hm H. destruct (perform_all _ (cam_at_hand life act send treset) w w' w (fun v => v = w') _ _ H) as (v & E & ->); [|exact E].
  intros qs rs0 L Q. exists w'. split; [|reflexivity]. rewrite <- cam_all_through; [exact Q|].
  pose proof (leads_hub CamHub CamKid kpar str int init kid_init make is_hub uc now h qs rs0 h' r rs out L Hm) as F. revert F. apply Forall_impl.
  intros [q n] [(q0 & E)|(id & l & E & P & N)]; cbn [fst snd] in *; subst q; [exact I|]. split; [exact N|]. split; [exact P|]. now apply Hr.
Qed.
Lemma camhub_shown_fine kans str int kid_init make is_hub uc old h' rs out (P Q : Prop) : (Q -> P) ->
  camhub_shown kans str int kid_init make is_hub uc old h' rs out P -> camhub_shown kans str int kid_init make is_hub uc old h' rs out Q.
Proof. intros PQ (H1 & H2). split; [exact H1|]. intros l cs HR. destruct (H2 l cs HR) as (A & B). split; [auto|exact B]. Qed.

(** ** A truthful camera hub with truthful children, which relays all requests for these *)
Lemma camhub_update_lemma D life act (send : D -> Smart_Model.request + dict json -> D * res (dict json)) treset ans kans kpar str int init kid_init make val is_hub uc now h
    (w w' : world D) h' r rs out :
  (let smart := fun d r => send d (inl r) in honest smart ans /\ live smart /\ complete smart /\ explicit smart) -> 2 <= wbatch w ->
  (forall id d m p, snd (act id d m p) = kans id m p) ->
  k_started (h_cam h) = true -> dwf (k_lu (h_cam h)) -> dwf (h_kids h) ->
  perform (cam_at_hand life act send treset) (update_hub CamHub CamKid kpar str int init kid_init make is_hub uc now h) w = (w', (h', r, rs, out)) ->
  (forall req k p, r = Some req -> dget k req = Some p -> cam_known ans k p (val k p)) ->
  exists req, r = Some req /\
    (forall k, dget k (k_lu (h_cam h')) = has_after req val (fun k => dget k (k_lu (h_cam h))) k) /\
    (out = Ok tt -> exists p b, dget gdi req = Some p /\ tells (val gdi p) b /\ (dwf b -> same_info b (k_info (h_cam h')))) /\
    camhub_shown kans str int kid_init make is_hub uc (h_kids h) h' rs out (exists p b, dget gdi req = Some p /\ tells (val gdi p) b).
Proof.
  intros Hs Hb Ha Hst Hd Hk H Hv.
  destruct (camhub_rest _ _ _ _ _ _ _ _ _ _ _ _ _ _ _ _ _ _ _ _ _ _ Ha Hk H) as (w1 & o1 & E1 & Ho & Sh).
  destruct (cam_update_shows_camera _ _ ans _ str int init val now (h_cam h) w w1 (h_cam h') r o1 Hs Hb Hst Hd E1 Hv) as (req & Q & _ & W & _ & G & O & I).
  exists req. split; [exact Q|]. split; [exact G|]. split; [|apply (camhub_shown_fine _ _ _ _ _ _ _ _ _ _ _ _ _ (proj2 O) Sh)].
  intros X. apply Ho in X. destruct (proj1 O X) as (p & b & Ep & Tb). exists p, b. split; [exact Ep|]. split; [exact Tb|]. exact (I X p b Ep Tb).
Qed.
Lemma camhub_first_update_lemma D life act (send : D -> Smart_Model.request + dict json -> D * res (dict json)) treset ans kans kpar str int init kid_init make val is_hub uc now h
    (w w' : world D) h' r rs out b comps :
  (let smart := fun d r => send d (inl r) in honest smart ans /\ live smart /\ complete smart /\ explicit smart) -> 2 <= wbatch w ->
  (forall id d m p, snd (act id d m p) = kans id m p) ->
  k_started (h_cam h) = false -> dwf (k_lu (h_cam h)) -> dwf (h_kids h) ->
  (forall k p, dget k (c_initial ++ c_children) = Some p -> cam_known ans k p (val k p)) ->
  (forall p, dget gdi c_initial = Some p -> tells (val gdi p) b) -> dwf b ->
  (forall p, dget "getAppComponentList" c_initial = Some p -> lists str int (val "getAppComponentList" p) comps) ->
  (forall lu i, exists l, init comps lu i = Ok l) ->
  perform (cam_at_hand life act send treset) (update_hub CamHub CamKid kpar str int init kid_init make is_hub uc now h) w = (w', (h', r, rs, out)) ->
  (forall req k p, r = Some req -> dget k req = Some p -> cam_known ans k p (val k p)) ->
  exists req, r = Some req /\ k_comps (h_cam h') = comps /\
    (let held := has_after c_initial val (fun k => dget k (k_lu (h_cam h))) in
     forall k, dget k (k_lu (h_cam h')) = has_after req val (if smem "childControl" comps then has_after c_children val held else held) k) /\
    (dget gdi req = None -> same_info b (k_info (h_cam h'))) /\
    camhub_shown kans str int kid_init make is_hub uc (h_kids h) h' rs out (dget gdi req = None).
Proof.
  intros Hs Hb Ha Hst Hd Hk H0 Ht Wb Hl Hi H Hv.
  destruct (camhub_rest _ _ _ _ _ _ _ _ _ _ _ _ _ _ _ _ _ _ _ _ _ _ Ha Hk H) as (w1 & o1 & E1 & Ho & Sh).
  destruct (cam_first_update_shows_camera _ _ ans _ str int init val now (h_cam h) w w1 (h_cam h') r o1 b comps Hs Hb Hst Hd H0 Ht Wb Hl Hi E1 Hv) as (req & Q & _ & W & _ & C & G & I).
  exists req. split; [exact Q|]. split; [exact C|]. split; [exact G|]. split; [intros X; exact (proj2 (I X))|].
  refine (camhub_shown_fine _ _ _ _ _ _ _ _ _ _ _ _ _ _ Sh). intros X. exact (proj1 (I X)).
Qed.

Theorem camhub_update_shows : forall D life act (send : D -> Smart_Model.request + dict json -> D * res (dict json)) treset ans kans kpar str int init kid_init make val is_hub uc now h
    (w w' : world D) h' r rs out,
  (let smart := fun d r => send d (inl r) in honest smart ans /\ live smart /\ complete smart /\ explicit smart) -> 2 <= wbatch w ->
  (forall id l, proper (CDict l) -> cam_relays life act send id l) -> (forall id d m p, snd (act id d m p) = kans id m p) ->
  k_started (h_cam h) = true -> dwf (k_lu (h_cam h)) -> dwf (h_kids h) ->
  perform (cam_through send treset) (update_hub CamHub CamKid kpar str int init kid_init make is_hub uc now h) w = (w', (h', r, rs, out)) ->
  (forall req k p, r = Some req -> dget k req = Some p -> cam_known ans k p (val k p)) -> modest rs ->
  exists req, r = Some req /\
    (forall k, dget k (k_lu (h_cam h')) = has_after req val (fun k => dget k (k_lu (h_cam h))) k) /\
    (out = Ok tt -> exists p b, dget gdi req = Some p /\ tells (val gdi p) b /\ (dwf b -> same_info b (k_info (h_cam h')))) /\
    camhub_shown kans str int kid_init make is_hub uc (h_kids h) h' rs out (exists p b, dget gdi req = Some p /\ tells (val gdi p) b).
Proof.
  intros D life act send treset ans kans kpar str int init kid_init make val is_hub uc now h w w' h' r rs out Hs Hb Hr Ha Hst Hd Hk H Hv Hm.
  pose proof (camhub_at_hand _ _ _ _ _ _ _ _ _ _ _ _ _ _ _ _ _ _ _ _ _ Hr Hm H) as H'.
  exact (camhub_update_lemma _ _ _ _ _ _ _ _ _ _ _ _ _ _ _ _ _ _ _ _ _ _ _ _ Hs Hb Ha Hst Hd Hk H' Hv).
Qed.
Print Assumptions camhub_update_shows.
Theorem camhub_first_update_shows : forall D life act (send : D -> Smart_Model.request + dict json -> D * res (dict json)) treset ans kans kpar str int init kid_init make val is_hub uc now h
    (w w' : world D) h' r rs out b comps,
  (let smart := fun d r => send d (inl r) in honest smart ans /\ live smart /\ complete smart /\ explicit smart) -> 2 <= wbatch w ->
  (forall id l, proper (CDict l) -> cam_relays life act send id l) -> (forall id d m p, snd (act id d m p) = kans id m p) ->
  k_started (h_cam h) = false -> dwf (k_lu (h_cam h)) -> dwf (h_kids h) ->
  (forall k p, dget k (c_initial ++ c_children) = Some p -> cam_known ans k p (val k p)) ->
  (forall p, dget gdi c_initial = Some p -> tells (val gdi p) b) -> dwf b ->
  (forall p, dget "getAppComponentList" c_initial = Some p -> lists str int (val "getAppComponentList" p) comps) ->
  (forall lu i, exists l, init comps lu i = Ok l) ->
  perform (cam_through send treset) (update_hub CamHub CamKid kpar str int init kid_init make is_hub uc now h) w = (w', (h', r, rs, out)) ->
  (forall req k p, r = Some req -> dget k req = Some p -> cam_known ans k p (val k p)) -> modest rs ->
  exists req, r = Some req /\ k_comps (h_cam h') = comps /\
    (let held := has_after c_initial val (fun k => dget k (k_lu (h_cam h))) in
     forall k, dget k (k_lu (h_cam h')) = has_after req val (if smem "childControl" comps then has_after c_children val held else held) k) /\
    (dget gdi req = None -> same_info b (k_info (h_cam h'))) /\
    camhub_shown kans str int kid_init make is_hub uc (h_kids h) h' rs out (dget gdi req = None).
Proof.
  intros D life act send treset ans kans kpar str int init kid_init make val is_hub uc now h w w' h' r rs out b comps Hs Hb Hr Ha Hst Hd Hk H0 Ht Wb Hl Hi H Hv Hm.
  pose proof (camhub_at_hand _ _ _ _ _ _ _ _ _ _ _ _ _ _ _ _ _ _ _ _ _ Hr Hm H) as H'.
  exact (camhub_first_update_lemma _ _ _ _ _ _ _ _ _ _ _ _ _ _ _ _ _ _ _ _ _ _ _ _ _ _ Hs Hb Ha Hst Hd Hk H0 Ht Wb Hl Hi H' Hv).
Qed.
Print Assumptions camhub_first_update_shows.

(** ** The same over the network: the encrypted transport of cameras, as long as every request is answered. *)
Lemma camhub_network enc_block dec_block json_loads md5_hex sha256_hex sha256 str_int str_json wrap cfg user pass S app encode script kid x b
    kpar str int init kid_init make is_hub uc now h w' h' r rs out y o :
  let device := direct_send _ S _ _ encode as_dict script app (CamPeer_Spec.understood json_loads) in
  Aes_Props.cipher_ok enc_block dec_block ->
  (forall b, length (sha256 b) = 32%nat) ->
  (forall s, str_json (JStr s) = s) ->
  CamPeer_Spec.speaks json_loads S app ->
  CamPeer_Spec.knows md5_hex sha256_hex cfg user pass ->
  cam_fresh enc_block dec_block json_loads md5_hex sha256_hex sha256 str_int str_json wrap cfg user pass S app x ->
  perform (cam_through (stack_send _ _ S _ _ (cam_client enc_block dec_block json_loads md5_hex sha256_hex sha256 str_int str_json wrap cfg) encode as_dict script)
             (stack_reset _ _ S Cam_Model.reset))
    (update_hub CamHub CamKid kpar str int init kid_init make is_hub uc now h) (Smart_Model.mkW (mkStack (fst x) 0 []) b []) = (w', (h', r, rs, out)) ->
  CamPeer_Spec.together enc_block dec_block json_loads md5_hex sha256_hex sha256 str_int str_json wrap cfg user pass S app
    x (cam_happenings (k_trace (wdev w'))) y o ->
  CamPeer_Spec.all_healthy md5_hex sha256_hex cfg S (cam_happenings (k_trace (wdev w'))) ->
  (forall id l, proper (CDict l) -> cam_relays (ticks script) (inside kid) device id l) -> modest rs ->
  exists v', perform (cam_at_hand (ticks script) (inside kid) device (fun y => y)) (update_hub CamHub CamKid kpar str int init kid_init make is_hub uc now h)
    (Smart_Model.mkW (CamPeer_Spec.dv_state (snd x), 0%nat) b []) = (v', (h', r, rs, out)).
Proof.
  intros device H1 H2 H3 H4 H5 H6 H H7 H8 Hr Hm.
  destruct (perform_all _ (cam_at_hand (ticks script) (inside kid) device (fun y => y)) _ w' (Smart_Model.mkW (CamPeer_Spec.dv_state (snd x), 0%nat) b []) (fun _ => True) _ _ H) as (v' & E & _); [|now exists v'].
  intros qs rs0 L Q.
  destruct (whole_cam_hub enc_block dec_block json_loads md5_hex sha256_hex sha256 str_int str_json wrap cfg user pass S app encode script kid x b qs w' rs0 y o H1 H2 H3 H4 H5 H6) as (v' & Ev & _); try assumption; [|now exists v'].
  pose proof (leads_hub CamHub CamKid kpar str int init kid_init make is_hub uc now h qs rs0 h' r rs out L Hm) as F. revert F. apply Forall_impl.
  intros [q n] [(q0 & E)|(id & l & E & P & N)]; cbn [fst snd] in *; subst q; [exact I|]. split; [exact N|]. split; [exact P|]. now apply Hr.
Qed.
Theorem camhub_update_over_network : forall enc_block dec_block json_loads md5_hex sha256_hex sha256 str_int str_json wrap cfg user pass S app encode script kid x b
    ans kans kpar str int init kid_init make val is_hub uc now h w' h' r rs out y o,
  let device := direct_send _ S _ _ encode as_dict script app (CamPeer_Spec.understood json_loads) in
  Aes_Props.cipher_ok enc_block dec_block ->
  (forall b, length (sha256 b) = 32%nat) ->
  (forall s, str_json (JStr s) = s) ->
  CamPeer_Spec.speaks json_loads S app ->
  CamPeer_Spec.knows md5_hex sha256_hex cfg user pass ->
  cam_fresh enc_block dec_block json_loads md5_hex sha256_hex sha256 str_int str_json wrap cfg user pass S app x ->
  perform (cam_through (stack_send _ _ S _ _ (cam_client enc_block dec_block json_loads md5_hex sha256_hex sha256 str_int str_json wrap cfg) encode as_dict script)
             (stack_reset _ _ S Cam_Model.reset))
    (update_hub CamHub CamKid kpar str int init kid_init make is_hub uc now h) (Smart_Model.mkW (mkStack (fst x) 0 []) b []) = (w', (h', r, rs, out)) ->
  CamPeer_Spec.together enc_block dec_block json_loads md5_hex sha256_hex sha256 str_int str_json wrap cfg user pass S app
    x (cam_happenings (k_trace (wdev w'))) y o ->
  CamPeer_Spec.all_healthy md5_hex sha256_hex cfg S (cam_happenings (k_trace (wdev w'))) ->
  (let smart := fun d r => device d (inl r) in honest smart ans /\ live smart /\ complete smart /\ explicit smart) -> 2 <= b ->
  (forall id l, proper (CDict l) -> cam_relays (ticks script) (inside kid) device id l) -> (forall id s m p, snd (kid id s m p) = kans id m p) ->
  k_started (h_cam h) = true -> dwf (k_lu (h_cam h)) -> dwf (h_kids h) ->
  (forall req k p, r = Some req -> dget k req = Some p -> cam_known ans k p (val k p)) -> modest rs ->
  exists req, r = Some req /\
    (forall k, dget k (k_lu (h_cam h')) = has_after req val (fun k => dget k (k_lu (h_cam h))) k) /\
    (out = Ok tt -> exists p b, dget gdi req = Some p /\ tells (val gdi p) b /\ (dwf b -> same_info b (k_info (h_cam h')))) /\
    camhub_shown kans str int kid_init make is_hub uc (h_kids h) h' rs out (exists p b, dget gdi req = Some p /\ tells (val gdi p) b).
Proof.
  intros enc_block dec_block json_loads md5_hex sha256_hex sha256 str_int str_json wrap cfg user pass S app encode script kid x b
    ans kans kpar str int init kid_init make val is_hub uc now h w' h' r rs out y o device H1 H2 H3 H4 H5 H6 H H7 H8 Hs Hb Hr Ha Hst Hd Hk Hv Hm.
  destruct (camhub_network _ _ _ _ _ _ _ _ _ _ _ _ _ _ _ _ _ _ _ _ _ _ _ _ _ _ _ _ _ _ _ _ _ _ _ _ H1 H2 H3 H4 H5 H6 H H7 H8 Hr Hm) as (v' & E).
  refine (camhub_update_lemma _ _ _ _ _ ans kans _ _ _ _ _ _ val _ _ _ _ _ _ _ _ _ _ Hs _ _ Hst Hd Hk E Hv); [exact Hb|].
  intros id d m p. unfold inside. rewrite <- (Ha id (fst d) m p). now destruct (kid id (fst d) m p).
Qed.
Print Assumptions camhub_update_over_network.
Theorem camhub_first_update_over_network : forall enc_block dec_block json_loads md5_hex sha256_hex sha256 str_int str_json wrap cfg user pass S app encode script kid x b
    ans kans kpar str int init kid_init make val is_hub uc now h w' h' r rs out y o info comps,
  let device := direct_send _ S _ _ encode as_dict script app (CamPeer_Spec.understood json_loads) in
  Aes_Props.cipher_ok enc_block dec_block ->
  (forall b, length (sha256 b) = 32%nat) ->
  (forall s, str_json (JStr s) = s) ->
  CamPeer_Spec.speaks json_loads S app ->
  CamPeer_Spec.knows md5_hex sha256_hex cfg user pass ->
  cam_fresh enc_block dec_block json_loads md5_hex sha256_hex sha256 str_int str_json wrap cfg user pass S app x ->
  perform (cam_through (stack_send _ _ S _ _ (cam_client enc_block dec_block json_loads md5_hex sha256_hex sha256 str_int str_json wrap cfg) encode as_dict script)
             (stack_reset _ _ S Cam_Model.reset))
    (update_hub CamHub CamKid kpar str int init kid_init make is_hub uc now h) (Smart_Model.mkW (mkStack (fst x) 0 []) b []) = (w', (h', r, rs, out)) ->
  CamPeer_Spec.together enc_block dec_block json_loads md5_hex sha256_hex sha256 str_int str_json wrap cfg user pass S app
    x (cam_happenings (k_trace (wdev w'))) y o ->
  CamPeer_Spec.all_healthy md5_hex sha256_hex cfg S (cam_happenings (k_trace (wdev w'))) ->
  (let smart := fun d r => device d (inl r) in honest smart ans /\ live smart /\ complete smart /\ explicit smart) -> 2 <= b ->
  (forall id l, proper (CDict l) -> cam_relays (ticks script) (inside kid) device id l) -> (forall id s m p, snd (kid id s m p) = kans id m p) ->
  k_started (h_cam h) = false -> dwf (k_lu (h_cam h)) -> dwf (h_kids h) ->
  (forall k p, dget k (c_initial ++ c_children) = Some p -> cam_known ans k p (val k p)) ->
  (forall p, dget gdi c_initial = Some p -> tells (val gdi p) info) -> dwf info ->
  (forall p, dget "getAppComponentList" c_initial = Some p -> lists str int (val "getAppComponentList" p) comps) ->
  (forall lu i, exists l, init comps lu i = Ok l) ->
  (forall req k p, r = Some req -> dget k req = Some p -> cam_known ans k p (val k p)) -> modest rs ->
  exists req, r = Some req /\ k_comps (h_cam h') = comps /\
    (let held := has_after c_initial val (fun k => dget k (k_lu (h_cam h))) in
     forall k, dget k (k_lu (h_cam h')) = has_after req val (if smem "childControl" comps then has_after c_children val held else held) k) /\
    (dget gdi req = None -> same_info info (k_info (h_cam h'))) /\
    camhub_shown kans str int kid_init make is_hub uc (h_kids h) h' rs out (dget gdi req = None).
Proof.
  intros enc_block dec_block json_loads md5_hex sha256_hex sha256 str_int str_json wrap cfg user pass S app encode script kid x b
    ans kans kpar str int init kid_init make val is_hub uc now h w' h' r rs out y o info comps device H1 H2 H3 H4 H5 H6 H H7 H8 Hs Hb Hr Ha Hst Hd Hk H0 Ht Wi Hl Hi Hv Hm.
  destruct (camhub_network _ _ _ _ _ _ _ _ _ _ _ _ _ _ _ _ _ _ _ _ _ _ _ _ _ _ _ _ _ _ _ _ _ _ _ _ H1 H2 H3 H4 H5 H6 H H7 H8 Hr Hm) as (v' & E).
  refine (camhub_first_update_lemma _ _ _ _ _ ans kans _ _ _ _ _ _ val _ _ _ _ _ _ _ _ _ _ _ _ Hs _ _ Hst Hd Hk H0 Ht Wi Hl Hi E Hv); [exact Hb|].
  intros id d m p. unfold inside. rewrite <- (Ha id (fst d) m p). now destruct (kid id (fst d) m p).
Qed.
Print Assumptions camhub_first_update_over_network.

(** ** Examples, and what is not so.  A camera hub with a valve and a camera: of every method each of these
    says its name and the method's.  [down]: a child that answers everything with an error. *)
From Verif Require Import Crypto_Model.
Definition xc_kans (down id m : string) (p : option json) : answer :=
  if String.eqb id down || String.eqb m "get_bad" then AError (-1008) else AResult (JObj [("id", JStr id); ("name", JStr m)]).
Definition xc_kid (down id : string) (s : nat) (m : string) (p : option json) : nat * answer := (s, xc_kans down id m p).
Definition xc_i1 : json := JObj [("device_id", JStr "k1"); ("category", JStr "subg.trv"); ("rssi", JInt 1)].
Definition xc_i2 : json := JObj [("device_id", JStr "k2"); ("category", JStr "camera"); ("device_model", JStr "C420"); ("rssi", JInt 2)].
Definition xc_i3 : json := JObj [("device_id", JStr "k3"); ("category", JStr "robot")].
Definition xc_c1 : json := JObj [("device_id", JStr "k1"); ("component_list", JArr [])].
Definition xc_c2 : json := JObj [("device_id", JStr "k2"); ("component_list", JArr [JObj [("name", JStr "led"); ("version", JInt 1)]])].
Definition xc_c3 : json := JObj [("device_id", JStr "k3"); ("component_list", JArr [])].
Definition xc_own (m : string) : answer :=
  if String.eqb m gdi then AResult xw_info
  else if String.eqb m "getAppComponentList" then
    AResult (JObj [("app_component", JObj [("app_component_list", JArr [JObj [("name", JStr "childControl"); ("version", JInt 1)]; JObj [("name", JStr "led"); ("version", JInt 1)]])])])
  else if String.eqb m "getChildDeviceList" then AResult (JObj [("child_device_list", JArr [xc_i1; xc_i2; xc_i3])])
  else if String.eqb m "getChildDeviceComponentList" then AResult (JObj [("child_component_list", JArr [xc_c1; xc_c2; xc_c3])])
  else if String.eqb m "getBad" then AError (-1008)
  else AResult (JObj [("led", JObj [("name", JStr m)])]).
Definition xc_ans (m : string) (p : option json) : answer := xc_own m.
Definition xc_reply (m : string) : dict json := ("method", JStr m) :: say (xc_own m).
Definition xc_say (r : Smart_Model.request) : dict json :=
  match r with
  | Single m _ => xc_reply m
  | Batch l => [("error_code", JInt 0); ("result", JObj [("responses", JArr (map (fun m => JObj (xc_reply m)) (map fst l)))])]
  end.
(** Its messages are written with two letters for one. *)
Definition xc_errand (x : json) : string * string :=
  match x with JObj [_; (_, JObj [(_, JObj [(_, JStr id); (_, JObj [(_, JStr m); _])])])] => (id, m) | _ => ("", "") end.
Definition xc_text (n : nat) (r : Smart_Model.request + dict json) : bytes :=
  match r with
  | inl (Single m _) => "S"%char :: sentence [m]
  | inl (Batch l) => "B"%char :: sentence (map fst l)
  | inr [_; (_, JObj [(_, JArr xs)])] => "K"%char :: flat_map (fun x => sentence [fst (xc_errand x); snd (xc_errand x)]) xs
  | inr _ => []
  end.
Definition xc_item (down : string) (ws : list string) : json :=
  JObj [("result", JObj [("response_data", JObj (say (xc_kans down (nth 0 ws "") (nth 1 ws "") None)))])].
Definition xc_json (down : string) (b : bytes) : option json :=
  Some (JObj (match b with
    | "S"%char :: b => xc_reply (nth 0 (nth 0 (read b [] []) []) "")
    | "B"%char :: b => [("error_code", JInt 0); ("result", JObj [("responses", JArr (map (fun m => JObj (xc_reply m)) (nth 0 (read b [] []) [])))])]
    | _ :: b => [("error_code", JInt 0); ("result", JObj [("responses", JArr (map (xc_item down) (read b [] [])))])]
    | [] => []
    end)).
Notation xc_direct down script := (direct_send (option (string -> bool) * CamPeer_Spec.choice * Cam_Model.world) nat _ _ xc_text as_dict script xr_app (CamPeer_Spec.understood (xc_json down))).
Lemma xc_says down script d r : xc_direct down script d (inl r) = (ticks script d, Ok (xc_say r)).
Proof.
  unfold direct_send, xr_app, CamPeer_Spec.understood, xc_json, xc_text. destruct r as [m p|l].
  - rewrite <- (app_nil_r (sentence [m])), read_one. reflexivity.
  - rewrite <- (app_nil_r (sentence (map fst l))), read_one. reflexivity.
Qed.
Lemma xc_own_fine m : match xc_own m with AResult j => exists o, j = JObj o /\ dget "start_index" o = None | AError c => c <> 0 end.
Proof. unfold xc_own. repeat (match goal with |- context[String.eqb m ?x] => destruct (String.eqb m x) end); try (eexists; split; reflexivity). discriminate. Qed.
Lemma xc_reports m p : Smart_Spec.reports (xc_ans m p) (xc_reply m).
Proof. apply (xr_said (xc_own m)). pose proof (xc_own_fine m) as F. destruct (xc_own m); auto. Qed.
Lemma xc_fine down script : let smart := fun d r => xc_direct down script d (inl r) in honest smart xc_ans /\ live smart /\ complete smart /\ explicit smart.
Proof.
  intros smart. assert (Ns : forall m, m <> "" -> named m (xc_reply m)) by (intros m N; split; [exact N|reflexivity]).
  assert (Eq : forall d r d' reply, smart d r = (d', Ok reply) -> reply = xc_say r) by (intros d r d' reply H; unfold smart in H; rewrite xc_says in H; congruence).
  split; [|split; [|split]].
  - intros d req d' reply H. apply Eq in H. subst reply. destruct req as [m p|l]; [apply xc_reports|]. split; [reflexivity|].
    eexists _, _. split; [reflexivity|]. split; [reflexivity|]. apply Forall_forall. intros x Hx. rewrite map_map in Hx. apply in_map_iff in Hx.
    destruct Hx as ([m p] & <- & I). cbn [fst]. exists (xc_reply m). split; [reflexivity|]. destruct (string_dec m "") as [->|N]; [left; right; right; reflexivity|].
    right. exists m, p. split; [exact I|]. split; [now apply Ns|apply xc_reports].
  - intros d r. unfold smart. rewrite xc_says. eauto.
  - intros d l d' reply r rs H Hr Hs2 m p Hi Hn. apply Eq in H. subst reply. injection Hr as <-. injection Hs2 as <-.
    exists (xc_reply m). split; [|now apply Ns]. rewrite map_map. apply in_map_iff. exists (m, p). now split.
  - intros d m p d' reply H E. apply Eq in H. subst reply. cbn [xc_say] in *. unfold xc_reply in *. pose proof (xc_own_fine m) as F.
    destruct (xc_own m) as [j|c]; [discriminate|]. cbn in E. injection E as ->. now elim F.
Qed.
Lemma xc_acts down id : forall l (d : nat * nat), acts (inside (xc_kid down)) id d l = (d, map (fun x => (fst x, xc_kans down id (fst x) None)) l).
Proof. induction l as [|[m p] l IH]; intros [s n]; [reflexivity|]. cbn [acts map fst]. unfold inside at 1, xc_kid at 1. cbn [fst snd]. now rewrite IH. Qed.
Lemma xc_relays down script id l : cam_relays (ticks script) (inside (xc_kid down)) (xc_direct down script) id l.
Proof.
  intros d d' r H. rewrite xc_acts in H. injection H as <- <-.
  assert (R : forall l, read (flat_map (fun x => sentence [fst (xc_errand x); snd (xc_errand x)]) (map (fun kv : string * json =>
     JObj [("method", JStr "controlChild"); ("params", JObj [("childControl", JObj [("device_id", JStr id);
       ("request_data", JObj [("method", JStr (fst kv)); ("params", snd kv)])])])]) l)) [] [] = map (fun kv => [id; fst kv]) l).
  { clear. induction l as [|[m p] l' IH]; [reflexivity|]. cbn [map flat_map xc_errand fst snd]. rewrite read_one. f_equal. exact IH. }
  eexists _, _, _. split; [|split; [|split; [|split]]].
  - unfold direct_send, xr_app, CamPeer_Spec.understood, xc_json, cam_told, xc_text. rewrite R. reflexivity.
  - right. reflexivity.
  - reflexivity.
  - reflexivity.
  - cbn [content]. rewrite !map_map. cbn [fst]. induction l as [|[m p] l IH]; [constructor|]. cbn [map fst]. constructor; [|apply IH].
    do 3 eexists. split; [reflexivity|]. split; [reflexivity|]. split; [reflexivity|]. cbn [nth snd]. apply say_reports. unfold xc_kans. now destruct (_ || _).
Qed.
Definition xc_val (m : string) (p : json) : rval := match xc_own m with AResult j => RJson j | AError c => RCode (reported_code c) end.
Lemma xc_known m p : ~ In m ["getConnectStatus"; "scanApList"; ""] -> ~ In m own_format -> cam_known xc_ans m p (xc_val m p).
Proof.
  intros N O. split; [exact N|]. split; [exact O|]. apply cam_simple. unfold xc_val. pose proof (xc_own_fine m) as F. destruct (xc_own m) as [j|c] eqn:E; [|now apply simple_code].
  destruct F as (o & -> & F). apply simple_plain; [exact E| |].
  - intros d X. now injection X as <-.
  - right. eauto.
Qed.
Definition xc_child_module : cmod := mkCmod "ChildDevice" [("getChildDeviceList", JObj [("childControl", JObj [("start_index", JInt 0)])]);
  ("getChildDeviceComponentList", JObj [("childControl", JObj [("start_index", JInt 0)])])] "getChildDeviceList" "child_device_list" 0 true None.
Definition xc_init (comps : list string) (lu : dict reply) (i : json) : res (list cmod) :=
  Ok (xw_devmod :: (if smem "childControl" comps then [xc_child_module] else []) ++ if smem "led" comps then [xw_led] else []).
Definition xc_kid_init (comps : list string) (i : json) : res (list cmod) := Ok (if smem "led" comps then [xw_led] else []).
Definition xc_make (x : string) (i : dict json) (c : json) (r : dict reply) : res dev := Ok (Smod_Model.mkDev [(xr_kid_mod, fresh)] [] (JObj i) false true).
Definition xc_update := update_hub CamHub CamKid (fun _ _ => JNull) xw_str xw_int xc_init xc_kid_init xc_make.
Definition xc_new : chub := mkHub xw_new [] [].

(** A hub that answers everything, with a child that was paired and is off: the child's error makes the whole
    update fail, with an error that is none of the library, so that nothing of the other children is shown. *)
Theorem camhub_offline_child_refuted : exists (script : nat -> (nat -> nat) * (option (string -> bool) * CamPeer_Spec.choice * Cam_Model.world)) kans w w' h' r e,
  (let smart := fun d r => xc_direct "k1" script d (inl r) in honest smart xc_ans /\ live smart /\ complete smart /\ explicit smart) /\
  (forall id l, proper (CDict l) -> cam_relays (ticks script) (inside (xc_kid "k1")) (xc_direct "k1" script) id l) /\
  (forall id s m p, snd (xc_kid "k1" id s m p) = kans id m p) /\
  kans "k1" "get_connect_cloud_state" None = AError (-1008) /\
  perform (cam_through (xc_direct "k1" script) (fun y => y)) (xc_update true true SEC xc_new) w = (w', (h', r, [], Err e)) /\
  hub_reports (k_lu (h_cam h')) [xc_i1; xc_i2; xc_i3] [xc_c1; xc_c2; xc_c3] /\ is_kasa e = false /\ h_kids h' = [].
Proof.
  exists (fun _ => (fun s => s, (None, CamPeer_Props.fine "a", Cam_Model.mkW "" "" (Err KKasa) (Err KKasa) (Err KKasa) (Err KKasa) (Err KKasa) (Err KKasa)))).
  exists (xc_kans "k1"), (Smart_Model.mkW (0%nat, 0%nat) 5 []). do 4 eexists. split; [apply xc_fine|]. split; [intros; apply xc_relays|]. split; [reflexivity|]. split; [reflexivity|].
  split; [vm_compute; reflexivity|]. split; [split; eexists; split; reflexivity|]. split; reflexivity.
Qed.
Print Assumptions camhub_offline_child_refuted.

Lemma xc_lists : forall p, dget "getAppComponentList" c_initial = Some p -> lists xw_str xw_int (xc_val "getAppComponentList" p) ["childControl"; "led"].
Proof. intros p _. do 3 eexists. split; [reflexivity|]. split; [reflexivity|]. split; [reflexivity|]. repeat constructor; do 4 eexists; repeat split; reflexivity. Qed.
Lemma xc_tells : forall p, dget gdi c_initial = Some p -> tells (xc_val gdi p) [("device_model", JStr "C100"); ("device_alias", JStr "Door"); ("mac", JStr "AA")].
Proof. intros p _. eexists _, _. split; [reflexivity|]. split; reflexivity. Qed.
Lemma xc_first_known : forall k p, dget k (c_initial ++ c_children) = Some p -> cam_known xc_ans k p (xc_val k p).
Proof. intros k p E. apply dget_In in E. cbn in E. apply xc_known; cbn; intuition (try discriminate); subst; intuition discriminate. Qed.
Lemma xc_makeable down : ~ In down ["k1"; "k2"; "k3"] -> can_be_made (xc_kans down) xw_str xw_int xc_kid_init [] [xc_i1; xc_i2; xc_i3] [xc_c1; xc_c2; xc_c3].
Proof.
  intros Nd i x Hi Hx _. assert (Xs : x = "k1" \/ x = "k2" \/ x = "k3") by (destruct Hi as [<-|[<-|[<-|[]]]]; cbn in Hx; injection Hx as <-; auto).
  split.
  - intros _. unfold xc_kans. rewrite orb_false_r. destruct (String.eqb_spec x down) as [->|]; [exfalso; apply Nd; cbn; intuition|]. eauto.
  - intros _ c Hc Hx'. destruct Hc as [<-|[<-|[<-|[]]]]; do 3 eexists; (split; [reflexivity|]); (split; [reflexivity|]); (split; [|intros; eexists; reflexivity]).
    + constructor.
    + constructor; [|constructor]. do 4 eexists. repeat split; reflexivity.
    + constructor.
Qed.

Section ExCam.
Import Cam_Model Cam_Spec CamPeer_Spec CamPeer_Props.
Fixpoint xc_feed (h : choice) (w : Cam_Model.world) (d : device nat) (p : list post) : Cam_Model.world * device nat :=
  match p with
  | [] => (w, d)
  | PHello def u n :: p =>
      let (d1, r) := on_hello toy_hex "admin" toy_pass nat (if def then h_hello2 h else h_hello h) u n d in
      xc_feed h (if def then mkW (w_n1 w) (w_n2 w) (w_hello w) (w_plain w) r (w_plain2 w) (w_proof w) (w_req w)
              else mkW (w_n1 w) (w_n2 w) r (w_plain w) (w_hello2 w) (w_plain2 w) (w_proof w) (w_req w)) d1 p
  | PProof u n dg :: p =>
      let (d1, r) := on_proof toy_hex toy_sha "admin" toy_pass nat (h_proof h) u n dg d in
      xc_feed h (mkW (w_n1 w) (w_n2 w) (w_hello w) (w_plain w) (w_hello2 w) (w_plain2 w) r (w_req w)) d1 p
  | PSecure k pl q tag :: p =>
      let (d1, r) := on_secure (fun _ b => b) (fun _ b => b) toy_hex toy_int (fun b => b) toy_pass nat xr_app (h_request h) k pl q tag d in
      xc_feed h (mkW (w_n1 w) (w_n2 w) (w_hello w) (w_plain w) (w_hello2 w) (w_plain2 w) (w_proof w) r) d1 p
  | _ :: p => xc_feed h w d p
  end.
Notation xc_csend := (send (fun _ b => b) (fun _ b => b) (xc_json "") toy_md5 toy_hex toy_sha toy_int toy_str (fun b => b) toy_cfg).
Fixpoint xc_course (t : Cam_Model.cam) (d : device nat) (l : list bytes) : list Cam_Model.world :=
  match l with
  | [] => []
  | m :: l =>
      let bad := Err KKasa in
      let w := CamPeer_Props.again 6 (fun w => fst (xc_feed (fine "a") w d (log (fst (xc_csend w m (cleared t)))))) (Cam_Model.mkW "n1" "n2" bad bad bad bad bad bad) in
      w :: xc_course (fst (xc_csend w m t)) (snd (xc_feed (fine "a") w d (log (fst (xc_csend w m (cleared t)))))) l
  end.
(** The messages of a first update *)
Definition xc_messages : list bytes := Eval vm_compute in
  map (xc_text 0) [inl (Batch (map (fun kv => (fst kv, None)) c_initial)); inl (Batch (map (fun kv => (fst kv, None)) c_children));
    inl (Batch [("getLedStatus", None)]);
    inr (cam_told "k1" [("get_connect_cloud_state", JNull)]); inr (cam_told "k1" [("get_temp", JNull); ("get_bad", JNull)]);
    inr (cam_told "k2" [("getLedStatus", JObj [("led", JObj [("name", JStr "config")])])])].
Definition xc_worlds : list Cam_Model.world := Eval vm_compute in xc_course (init toy_cfg) d0 xc_messages.
Definition xc_script (n : nat) : (nat -> nat) * (option (string -> bool) * choice * Cam_Model.world) :=
  (fun s => s, (None, fine "a", nth n xc_worlds xw_w1)).
Notation xc_together := (together (fun _ b => b) (fun _ b => b) (xc_json "") toy_md5 toy_hex toy_sha toy_int toy_str (fun b => b) toy_cfg "admin" toy_pass nat xr_app).
Notation xc_client := (cam_client (fun _ b => b) (fun _ b => b) (xc_json "") toy_md5 toy_hex toy_sha toy_int toy_str (fun b => b) toy_cfg).
Example camhub_first_update_over_network_ex :
  cam_fresh (fun _ b => b) (fun _ b => b) (xc_json "") toy_md5 toy_hex toy_sha toy_int toy_str (fun b => b) toy_cfg "admin" toy_pass nat xr_app (init toy_cfg, d0) /\
  speaks (xc_json "") nat xr_app /\
  (let smart := fun d r => xc_direct "" xc_script d (inl r) in honest smart xc_ans /\ live smart /\ complete smart /\ explicit smart) /\
  (forall id l, proper (CDict l) -> cam_relays (ticks xc_script) (inside (xc_kid "")) (xc_direct "" xc_script) id l) /\
  (forall k p, dget k (c_initial ++ c_children) = Some p -> cam_known xc_ans k p (xc_val k p)) /\
  can_be_made (xc_kans "") xw_str xw_int xc_kid_init [] [xc_i1; xc_i2; xc_i3] [xc_c1; xc_c2; xc_c3] /\
  exists w' h' req rs y o,
  perform (cam_through (stack_send _ _ nat _ _ xc_client xc_text as_dict xc_script) (stack_reset _ _ nat reset))
    (xc_update true true SEC xc_new) (Smart_Model.mkW (mkStack (init toy_cfg) 0 []) 5 []) = (w', (h', Some req, rs, Ok tt)) /\
  dkeys req = ["getLedStatus"] /\ (forall k p, dget k req = Some p -> cam_known xc_ans k p (xc_val k p)) /\ modest rs /\ map fst rs = ["k1"; "k2"] /\
  (exists c p, dget "k2" (h_kids h') = Some (Camera c p) /\ dget "getLedStatus" (k_lu c) = Some (RVal (JObj [("id", JStr "k2"); ("name", JStr "getLedStatus")])) /\
     k_info c = JObj [("device_id", JStr "k2"); ("category", JStr "camera"); ("model", JStr "C420"); ("rssi", JInt 2)]) /\
  (exists k, dget "k1" (h_kids h') = Some (Dev k) /\ dget "get_temp" (lu k) = Some (RVal (JObj [("id", JStr "k1"); ("name", JStr "get_temp")]))) /\
  xc_together (init toy_cfg, d0) (cam_happenings (k_trace (wdev w'))) y o /\
  all_healthy toy_md5 toy_hex toy_cfg nat (cam_happenings (k_trace (wdev w'))).
Proof.
  split; [exists d0, [], (init toy_cfg), []; split; [constructor|now left]|]. split; [intros s m; eexists; reflexivity|]. split; [apply xc_fine|]. split; [intros; apply xc_relays|].
  split; [exact xc_first_known|]. split; [apply xc_makeable; cbn; intuition discriminate|].
  do 6 eexists. split; [vm_compute; reflexivity|]. split; [reflexivity|]. split.
  { intros k p E. apply dget_In in E. cbn in E. apply xc_known; cbn; intuition (try discriminate); subst; intuition congruence. }
  split; [intros x req [H|[H|[]]] N; injection H as <- <-; cbn in N; intuition discriminate|].
  split; [reflexivity|]. split; [do 2 eexists; repeat split; reflexivity|]. split; [eexists; repeat split; reflexivity|].
  cbn [wdev k_trace cam_happenings flat_map List.app]. split.
  - do 6 (apply together_device; show_send). apply together_nil.
  - show_healthy.
Qed.
End ExCam.
(** A later update, by which one child is gone and another one is new; without [update_children] the
    children are asked all the same. *)
Definition xc_before : chub :=
  mkHub (mkCam [(xw_devmod, fresh); (xc_child_module, fresh)] [("getLedStatus", RVal (JInt 7))] JNull ["childControl"] true)
    [("k0", Dev (Smod_Model.mkDev [(xr_kid_mod, fresh)] [] JNull true true)); ("k2", Camera (mkCam [(xw_led, fresh)] [("getLedStatus", RVal (JInt 3))] JNull ["led"] true) JNull)] [].
Example camhub_update_shows_ex : let script := xc_script in
  k_started (h_cam xc_before) = true /\ dwf (k_lu (h_cam xc_before)) /\ dwf (h_kids xc_before) /\
  exists w' h' req rs, perform (cam_through (xc_direct "" script) (fun y => y)) (xc_update true false (99 * SEC) xc_before) (Smart_Model.mkW (5%nat, 0%nat) 5 []) = (w', (h', Some req, rs, Ok tt)) /\
  dkeys req = ["getDeviceInfo"; "getConnectionType"; "getChildDeviceList"; "getChildDeviceComponentList"] /\
  (forall k p, dget k req = Some p -> cam_known xc_ans k p (xc_val k p)) /\ modest rs /\
  hub_reports (k_lu (h_cam h')) [xc_i1; xc_i2; xc_i3] [xc_c1; xc_c2; xc_c3] /\
  dkeys (h_kids h') = ["k2"; "k1"] /\ map fst rs = ["k2"; "k1"] /\
  exists c, dget "k2" (h_kids h') = Some (Camera c xc_i2) /\ dget "getLedStatus" (k_lu c) = Some (RVal (JObj [("id", JStr "k2"); ("name", JStr "getLedStatus")])).
Proof.
  cbv zeta. split; [reflexivity|]. split; [repeat constructor; cbn; intuition discriminate|]. split; [repeat constructor; cbn; intuition discriminate|].
  do 4 eexists. split; [vm_compute; reflexivity|]. split; [reflexivity|]. split.
  { intros k p E. apply dget_In in E. cbn in E. apply xc_known; cbn; intuition (try discriminate); subst; intuition congruence. }
  split; [intros x req [H|[H|[]]] N; injection H as <- <-; cbn in N; intuition discriminate|].
  split; [split; eexists; split; reflexivity|]. split; [reflexivity|]. split; [reflexivity|]. eexists. split; reflexivity.
Qed.

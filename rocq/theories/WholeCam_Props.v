(** C154: camera objects over a protocol, a transport and a camera. *)
From Verif Require Import Base Base_Lemmas Py Crypto_Model Codes_Model Retry_Model Smart_Model Smart_Spec CamQuery_Model CamQuery_Spec CamQuery_Props.
From Verif Require Import Stack_Spec Stack_Proofs Stack_Props Smod_Model Smod_Props Whole_Model Whole_Spec Whole_Proofs Whole_Props.
From Verif Require Import WholeCam_Model WholeCam_Spec WholeCam_Proofs.
From Verif Require Cam_Model Cam_Spec CamPeer_Spec CamPeer_Props Aes_Props.
Open Scope string_scope.
Open Scope list_scope.
Open Scope Z_scope.
Notation gdi := "getDeviceInfo".

(** ** A camera whose answers do not change meanwhile: after an update the object has for every method
    that was asked for what the camera says, and what it had for every other; the update fails only if
    the camera does not tell its basic information. *)
Theorem cam_update_shows_camera : forall D (dev_send : D -> Smart_Model.request + dict json -> D * res (dict json)) ans treset str int init val now d w w' d' r out,
  (let smart := fun d r => dev_send d (inl r) in honest smart ans /\ live smart /\ complete smart /\ explicit smart) ->
  2 <= wbatch w -> k_started d = true -> dwf (k_lu d) ->
  perform (cam_ask dev_send treset) (c_update str int init now d Ret) w = (w', (d', r, out)) ->
  (forall req k p, r = Some req -> dget k req = Some p -> cam_known ans k p (val k p)) ->
  exists req, r = Some req /\ wbatch w' = wbatch w /\ dwf (k_lu d') /\ k_started d' = true /\
    (forall k, dget k (k_lu d') = has_after req val (fun k => dget k (k_lu d)) k) /\
    (out = Ok tt <-> exists p b, dget gdi req = Some p /\ tells (val gdi p) b) /\
    (out = Ok tt -> forall p b, dget gdi req = Some p -> tells (val gdi p) b -> dwf b -> same_info b (k_info d')).
Proof.
  intros D dev_send ans treset str int init val now d w w' d' r out (Hh & Hl & Hc & Hx) Hb Hs Hd H Hv.
  unfold c_update in H. rewrite Hs in H.
  destruct (c_modules_honest dev_send ans treset Hh Hl Hc Hx val false now d w w' (d', r, out) Hb Hd H Hv) as (req & Q & _ & B & W & S & _ & G & I).
  cbn [fst snd] in *. cbv zeta in I. destruct I as (I1 & I2). exists req. split; [exact Q|]. split; [exact B|]. split; [exact W|]. split; [congruence|]. split; [exact G|].
  unfold has_after in I1, I2. destruct (dget gdi req) as [p|] eqn:E.
  - split.
    + rewrite I1. split; [intros (b & X); exists p, b; split; [reflexivity|now apply gives_tells in X]|]. intros (p' & b & X & Y). injection X as <-. exists b. now apply gives_tells.
    + intros O p' b X Y Wb. injection X as <-. apply (I2 O); [now apply gives_tells|exact Wb].
  - split; [|intros _ p b X; discriminate X]. rewrite I1. split; [intros (b & x & y & X & _); discriminate X|]. intros (p & b & X & _). discriminate X.
Qed.
Print Assumptions cam_update_shows_camera.

(** The same of a first update.  The camera lists its components and, if it controls children, these. *)
Theorem cam_first_update_shows_camera : forall D (dev_send : D -> Smart_Model.request + dict json -> D * res (dict json)) ans treset str int init val now d w w' d' r out b comps,
  (let smart := fun d r => dev_send d (inl r) in honest smart ans /\ live smart /\ complete smart /\ explicit smart) ->
  2 <= wbatch w -> k_started d = false -> dwf (k_lu d) ->
  (forall k p, dget k (c_initial ++ c_children) = Some p -> cam_known ans k p (val k p)) ->
  (forall p, dget gdi c_initial = Some p -> tells (val gdi p) b) -> dwf b ->
  (forall p, dget "getAppComponentList" c_initial = Some p -> lists str int (val "getAppComponentList" p) comps) ->
  (forall lu i, exists l, init comps lu i = Ok l) ->
  perform (cam_ask dev_send treset) (c_update str int init now d Ret) w = (w', (d', r, out)) ->
  (forall req k p, r = Some req -> dget k req = Some p -> cam_known ans k p (val k p)) ->
  exists req, r = Some req /\ wbatch w' = wbatch w /\ dwf (k_lu d') /\ k_started d' = true /\ k_comps d' = comps /\
    (let held := has_after c_initial val (fun k => dget k (k_lu d)) in
     forall k, dget k (k_lu d') = has_after req val (if smem "childControl" comps then has_after c_children val held else held) k) /\
    (dget gdi req = None -> out = Ok tt /\ same_info b (k_info d')).
Proof.
  intros D dev_send ans treset str int init val now d w w' d' r out b comps (Hh & Hl & Hc & Hx) Hb Hs Hd H0 Ht Wb Hlist Hin H Hv.
  unfold c_update in H. rewrite Hs in H. cbn [perform] in H.
  assert (W0 : dwf c_initial) by (repeat constructor; cbn; intuition discriminate).
  assert (W1 : dwf c_children) by (repeat constructor; cbn; intuition discriminate).
  assert (K0 : forall k p, dget k c_initial = Some p -> cam_known ans k p (val k p)).
  { intros k p E. apply H0. apply dget_In in E. apply In_dget; [repeat constructor; cbn; intuition discriminate|]. apply in_or_app. now left. }
  assert (K1 : forall k p, dget k c_children = Some p -> cam_known ans k p (val k p)).
  { intros k p E. apply H0. apply dget_In in E. apply In_dget; [repeat constructor; cbn; intuition discriminate|]. apply in_or_app. now right. }
  destruct (cam_many dev_send ans Hh Hl Hc Hx treset c_initial val w W0 ltac:(cbn; lia) Hb K0) as (w1 & tr & r1 & E & B & Wr & G).
  rewrite E in H. clear E.
  assert (GK : forall k, dget k (keep r1) = has_after c_initial val (fun _ => None) k).
  { intros k. rewrite dget_keep, G. unfold has_after. destruct (dget k c_initial); [|reflexivity]. cbn [option_map]. now destruct (val k j). }
  assert (GI : exists i, internal_info (keep r1) = Ok i /\ (dwf b -> same_info b i)).
  { apply internal_gives. rewrite GK. unfold has_after. destruct (dget gdi c_initial) as [p|] eqn:E; [|discriminate E]. apply gives_tells. now apply Ht. }
  destruct GI as (i & GI & Si). rewrite GI in H.
  assert (GC : components str int (keep r1) = Ok comps).
  { destruct (dget "getAppComponentList" c_initial) as [p|] eqn:E; [|discriminate E].
    apply (components_lists str int (keep r1) (dkeys c_initial) (val "getAppComponentList" p)); [|now apply Hlist]. rewrite GK. unfold has_after. now rewrite E. }
  rewrite GC in H. rewrite <- B in Hb.
  set (d1 := with_comps (with_info (with_lu (begun d) (dupdate (k_lu (begun d)) (keep r1))) i) comps) in H.
  assert (L1 : forall k, dget k (k_lu d1) = has_after c_initial val (fun k => dget k (k_lu d)) k).
  { intros k. unfold d1. cbn [k_lu with_comps with_info with_lu begun]. rewrite dget_dupdate_wf by (unfold dwf; rewrite keys_keep; exact Wr). unfold has_after. rewrite GK. unfold has_after.
    now destruct (dget k c_initial). }
  assert (D1 : dwf (k_lu d1)) by (unfold d1; cbn [k_lu with_comps with_info with_lu begun]; now apply dwf_dupdate).
  (* from here on the modules *)
  assert (Fin : forall d2 w2 held, perform (cam_ask dev_send treset) (c_first_modules init now d2 Ret) w2 = (w', (d', r, out)) -> wbatch w2 = wbatch w1 ->
    dwf (k_lu d2) -> k_comps d2 = comps -> k_started d2 = true -> k_info d2 = i -> (forall k, dget k (k_lu d2) = held k) -> gives (held gdi) b ->
    exists req, r = Some req /\ wbatch w' = wbatch w /\ dwf (k_lu d') /\ k_started d' = true /\ k_comps d' = comps /\
      (forall k, dget k (k_lu d') = has_after req val held k) /\ (dget gdi req = None -> out = Ok tt /\ same_info b (k_info d'))).
  { intros d2 w2 held H2 B2 D2 C2 S2 I2 L2 G2. unfold c_first_modules in H2. destruct (Hin (k_lu d2) (k_info d2)) as (l & Il). rewrite C2, Il in H2.
    destruct (c_modules_honest dev_send ans treset Hh Hl Hc Hx val true now (with_mods d2 (map (fun m => (m, fresh)) l)) w2 w' (d', r, out) ltac:(lia) D2 H2 Hv) as (req & Q & _ & B' & W & S & C & L & J).
    cbn [fst snd k_lu with_mods k_started k_comps] in *. cbv zeta in J. destruct J as (J1 & J2). exists req. split; [exact Q|]. split; [congruence|]. split; [exact W|].
    split; [congruence|]. split; [congruence|].
    assert (L' : forall k, dget k (k_lu d') = has_after req val held k) by (intros k; rewrite L; unfold has_after; destruct (dget k req); [reflexivity|apply L2]).
    split; [exact L'|]. intros N. assert (X : dget gdi (k_lu d') = held gdi) by (rewrite L'; unfold has_after; now rewrite N). rewrite X in J1, J2.
    assert (O : out = Ok tt) by (apply J1; eauto). split; [exact O|]. apply (J2 O b G2 Wb). }
  assert (G1 : gives (has_after c_initial val (fun k => dget k (k_lu d)) gdi) b).
  { unfold has_after. destruct (dget gdi c_initial) as [p|] eqn:E; [|discriminate E]. apply gives_tells. now apply Ht. }
  cbv zeta. destruct (smem "childControl" comps) eqn:Ch.
  - destruct (cam_many dev_send ans Hh Hl Hc Hx treset c_children val w1 W1 ltac:(cbn; lia) Hb K1) as (w2 & tr2 & r2 & E & B2 & Wr2 & G2).
    cbn [perform] in H. rewrite E in H. clear E. cbv zeta in H.
    refine (Fin _ w2 _ H B2 _ eq_refl eq_refl eq_refl _ _).
    + cbn [k_lu with_lu]. now apply dwf_dupdate.
    + intros k. cbn [k_lu with_lu]. rewrite dget_dupdate_wf by (unfold dwf; rewrite keys_keep; exact Wr2). rewrite dget_keep, G2. unfold has_after at 1.
      destruct (dget k c_children) as [p|]; [|apply L1]. cbn [option_map]. now destruct (val k p).
    + unfold has_after at 1. change (dget gdi c_children) with (@None json). exact G1.
  - exact (Fin d1 w1 _ H eq_refl D1 eq_refl eq_refl eq_refl L1 G1).
Qed.
Print Assumptions cam_first_update_shows_camera.

(** What the modules then give. *)
Theorem cam_module_presents : forall m d (has : string -> option reply), dwf (k_lu d) ->
  (forall k, dkeys (c_query m) = [k] -> c_getter m = k) ->
  (forall k, In k (dkeys (c_query m)) -> dget k (k_lu d) = has k) ->
  cam_presents (dkeys (c_query m)) (c_section m) has (c_data m (k_lu d) (k_info d)).
Proof.
  intros m d has W Hg Hk. unfold c_data. set (q := dkeys (c_query m)) in *.
  pose proof (camera_module_data q (c_getter m) (c_section m) (k_lu d) (k_info d) W ltac:(intros g E; symmetry; auto)) as X.
  destruct q as [|k [|k2 q]]; [exact I| |].
  - cbn [cam_presents]. rewrite <- (Hk k (or_introl eq_refl)). rewrite (Hg k eq_refl) in *. destruct (dget k (k_lu d)) as [[j|c]|] eqn:E; [|exact X|eauto].
    destruct j as [| | | | | |[|e l]]; try exact X; try (eexists; exact X); cbn [cam_data]; rewrite E; cbn [truthy];
      try (match goal with |- exists _, (if ?b then _ else _) = _ => destruct b end); eauto.
  - unfold cam_presents. set (qq := k :: k2 :: q) in *. destruct (cam_data qq (c_getter m) (c_section m) (k_lu d) (k_info d)) as [[j|l]|e].
    + exact X.
    + destruct X as (Wl & A & B). split; [exact Wl|]. split; [|intros x I; rewrite <- (Hk x I); auto]. intros x. destruct (in_dec string_dec x qq) as [I|N].
      * rewrite <- (Hk x I). destruct (A x I) as (j & E). rewrite E. apply B. auto.
      * destruct (dget x l) as [j|] eqn:E; [|reflexivity]. apply B in E. destruct E. contradiction.
    + destruct e as [| | | |[c|]|c|c| | | | | | | | | | | | | | |]; try (now exfalso).
      * left. split; [reflexivity|]. destruct X as (x & I & E). exists x. split; [exact I|]. rewrite <- (Hk x I). exact E.
      * right. destruct X as (x & I & E). exists x, c. rewrite <- (Hk x I). auto.
Qed.
Print Assumptions cam_module_presents.

(** ** The same over the network: the encrypted transport of cameras, as long as every request is answered. *)
Theorem cam_update_over_network : forall enc_block dec_block json_loads md5_hex sha256_hex sha256 str_int str_json wrap cfg user pass S app encode script x b
    ans str int init val now d w' d' r out y o,
  Aes_Props.cipher_ok enc_block dec_block ->
  (forall b, length (sha256 b) = 32%nat) ->
  (forall s, str_json (JStr s) = s) ->
  CamPeer_Spec.speaks json_loads S app ->
  CamPeer_Spec.knows md5_hex sha256_hex cfg user pass ->
  cam_fresh enc_block dec_block json_loads md5_hex sha256_hex sha256 str_int str_json wrap cfg user pass S app x ->
  perform (cam_ask (stack_send _ _ S _ _ (cam_client enc_block dec_block json_loads md5_hex sha256_hex sha256 str_int str_json wrap cfg) encode as_dict script)
             (stack_reset _ _ S Cam_Model.reset)) (c_update str int init now d Ret)
    (Smart_Model.mkW (mkStack (fst x) 0 []) b []) = (w', (d', r, out)) ->
  CamPeer_Spec.together enc_block dec_block json_loads md5_hex sha256_hex sha256 str_int str_json wrap cfg user pass S app
    x (cam_happenings (k_trace (wdev w'))) y o ->
  CamPeer_Spec.all_healthy md5_hex sha256_hex cfg S (cam_happenings (k_trace (wdev w'))) ->
  (let smart := fun d r => direct_send _ S _ _ encode as_dict script app (CamPeer_Spec.understood json_loads) d (inl r) in
   honest smart ans /\ live smart /\ complete smart /\ explicit smart) ->
  2 <= b -> k_started d = true -> dwf (k_lu d) ->
  (forall req k p, r = Some req -> dget k req = Some p -> cam_known ans k p (val k p)) ->
  exists req, r = Some req /\
    (forall k, dget k (k_lu d') = has_after req val (fun k => dget k (k_lu d)) k) /\
    (out = Ok tt <-> exists p b, dget gdi req = Some p /\ tells (val gdi p) b) /\
    (out = Ok tt -> forall p b, dget gdi req = Some p -> tells (val gdi p) b -> dwf b -> same_info b (k_info d')) /\
    (forall m, (forall k, dkeys (c_query m) = [k] -> c_getter m = k) -> (forall k, In k (dkeys (c_query m)) -> In k (dkeys req)) ->
       cam_presents (dkeys (c_query m)) (c_section m) (has_after req val (fun _ => None)) (c_data m (k_lu d') (k_info d'))).
Proof.
  intros enc_block dec_block json_loads md5_hex sha256_hex sha256 str_int str_json wrap cfg user pass S app encode script x b
    ans str int init val now d w' d' r out y o H1 H2 H3 H4 H5 H6 H H7 H8 Hd Hb Hs Hw Hv.
  destruct (program_over_camera _ _ _ _ _ _ _ _ _ _ _ _ _ _ _ _ _ _ _ _ _ _ _ _ H1 H2 H3 H4 H5 H6 H H7 H8) as (v' & E & _ & _).
  destruct (cam_update_shows_camera _ _ ans _ str int init val now d (Smart_Model.mkW (CamPeer_Spec.dv_state (snd x), 0%nat) b []) v' d' r out Hd Hb Hs Hw E Hv) as (req & Q & _ & W & _ & G & O & I).
  exists req. split; [exact Q|]. split; [exact G|]. split; [exact O|]. split; [exact I|]. intros m Hg Hk. apply cam_module_presents; [exact W|exact Hg|].
  intros k K. rewrite G. unfold has_after. destruct (dget k req) eqn:X; [reflexivity|]. exfalso. specialize (Hk k K). apply dmem_keys in Hk. unfold dmem in Hk. now rewrite X in Hk.
Qed.
Print Assumptions cam_update_over_network.
Theorem cam_first_update_over_network : forall enc_block dec_block json_loads md5_hex sha256_hex sha256 str_int str_json wrap cfg user pass S app encode script x b
    ans str int init val now d w' d' r out y o info comps,
  Aes_Props.cipher_ok enc_block dec_block ->
  (forall b, length (sha256 b) = 32%nat) ->
  (forall s, str_json (JStr s) = s) ->
  CamPeer_Spec.speaks json_loads S app ->
  CamPeer_Spec.knows md5_hex sha256_hex cfg user pass ->
  cam_fresh enc_block dec_block json_loads md5_hex sha256_hex sha256 str_int str_json wrap cfg user pass S app x ->
  perform (cam_ask (stack_send _ _ S _ _ (cam_client enc_block dec_block json_loads md5_hex sha256_hex sha256 str_int str_json wrap cfg) encode as_dict script)
             (stack_reset _ _ S Cam_Model.reset)) (c_update str int init now d Ret)
    (Smart_Model.mkW (mkStack (fst x) 0 []) b []) = (w', (d', r, out)) ->
  CamPeer_Spec.together enc_block dec_block json_loads md5_hex sha256_hex sha256 str_int str_json wrap cfg user pass S app
    x (cam_happenings (k_trace (wdev w'))) y o ->
  CamPeer_Spec.all_healthy md5_hex sha256_hex cfg S (cam_happenings (k_trace (wdev w'))) ->
  (let smart := fun d r => direct_send _ S _ _ encode as_dict script app (CamPeer_Spec.understood json_loads) d (inl r) in
   honest smart ans /\ live smart /\ complete smart /\ explicit smart) ->
  2 <= b -> k_started d = false -> dwf (k_lu d) ->
  (forall k p, dget k (c_initial ++ c_children) = Some p -> cam_known ans k p (val k p)) ->
  (forall p, dget gdi c_initial = Some p -> tells (val gdi p) info) -> dwf info ->
  (forall p, dget "getAppComponentList" c_initial = Some p -> lists str int (val "getAppComponentList" p) comps) ->
  (forall lu i, exists l, init comps lu i = Ok l) ->
  (forall req k p, r = Some req -> dget k req = Some p -> cam_known ans k p (val k p)) ->
  exists req, r = Some req /\ k_comps d' = comps /\
    (let held := has_after c_initial val (fun k => dget k (k_lu d)) in
     let held := if smem "childControl" comps then has_after c_children val held else held in
     (forall k, dget k (k_lu d') = has_after req val held k) /\
     (forall m, (forall k, dkeys (c_query m) = [k] -> c_getter m = k) ->
        cam_presents (dkeys (c_query m)) (c_section m) (has_after req val held) (c_data m (k_lu d') (k_info d')))) /\
    (dget gdi req = None -> out = Ok tt /\ same_info info (k_info d')).
Proof.
  intros enc_block dec_block json_loads md5_hex sha256_hex sha256 str_int str_json wrap cfg user pass S app encode script x b
    ans str int init val now d w' d' r out y o info comps H1 H2 H3 H4 H5 H6 H H7 H8 Hd Hb Hs Hw Ha Ht Hi Hc Hin Hv.
  destruct (program_over_camera _ _ _ _ _ _ _ _ _ _ _ _ _ _ _ _ _ _ _ _ _ _ _ _ H1 H2 H3 H4 H5 H6 H H7 H8) as (v' & E & _ & _).
  destruct (cam_first_update_shows_camera _ _ ans _ str int init val now d (Smart_Model.mkW (CamPeer_Spec.dv_state (snd x), 0%nat) b []) v' d' r out info comps Hd Hb Hs Hw Ha Ht Hi Hc Hin E Hv) as (req & Q & _ & W & _ & C & G & I).
  exists req. split; [exact Q|]. split; [exact C|]. split; [|exact I]. cbv zeta in *. split; [exact G|]. intros m Hg. apply cam_module_presents; [exact W|exact Hg|]. intros k _. apply G.
Qed.
Print Assumptions cam_first_update_over_network.

(** ** What is not so: a camera that answers everything, its component list with an error code, makes
    the first update fail with an error that is none of the library. *)
Definition xw_info : json := JObj [("device_info", JObj [("basic_info", JObj [("device_model", JStr "C100"); ("device_alias", JStr "Door"); ("mac", JStr "AA")])])].
Definition xw_comps : json := JObj [("app_component", JObj [("app_component_list", JArr [JObj [("name", JStr "led"); ("version", JInt 1)]])])].
Definition xw_ans (bad : string) (m : string) (p : option json) : answer :=
  if String.eqb m bad then AError (-1008) else
  if String.eqb m gdi then AResult xw_info else if String.eqb m "getAppComponentList" then AResult xw_comps else
  AResult (JObj [("led", JObj [("name", JStr m)])]).
Definition xw_reply (bad m : string) : dict json :=
  ("method", JStr m) :: match xw_ans bad m None with AResult j => [("error_code", JInt 0); ("result", j)] | AError c => [("error_code", JInt c)] end.
Definition xw_say (bad : string) (r : Smart_Model.request) : dict json :=
  match r with
  | Single m _ => xw_reply bad m
  | Batch l => [("error_code", JInt 0); ("result", JObj [("responses", JArr (map (fun m => JObj (xw_reply bad m)) (map fst l)))])]
  end.
Definition says {D} (bad : string) (send : D -> Smart_Model.request -> D * res (dict json)) : Prop := forall d r, exists d', send d r = (d', Ok (xw_say bad r)).
Lemma xw_reports bad m p : reports (xw_ans bad m p) (xw_reply bad m).
Proof.
  assert (E : xw_ans bad m p = xw_ans bad m None) by reflexivity. rewrite E. unfold xw_reply. unfold xw_ans.
  destruct (String.eqb m bad); [cbn; split; [discriminate|reflexivity]|]. destruct (String.eqb m gdi); [cbn; auto|]. destruct (String.eqb m "getAppComponentList"); cbn; auto.
Qed.
Lemma xw_fine {D} bad (send : D -> Smart_Model.request -> D * res (dict json)) : says bad send ->
  honest send (xw_ans bad) /\ live send /\ complete send /\ explicit send.
Proof.
  intros Hs. assert (Ns : forall m, m <> "" -> named m (xw_reply bad m)) by (intros m N; split; [exact N|reflexivity]).
  assert (Eq : forall d r d' reply, send d r = (d', Ok reply) -> reply = xw_say bad r).
  { intros d r d' reply H. destruct (Hs d r) as (d2 & E). rewrite E in H. now injection H as _ <-. }
  split; [|split; [|split]].
  - intros d req d' reply H. apply Eq in H. subst reply. destruct req as [m p|l]; [apply xw_reports|]. split; [reflexivity|].
    eexists _, _. split; [reflexivity|]. split; [reflexivity|]. apply Forall_forall. intros x Hx. rewrite map_map in Hx. apply in_map_iff in Hx.
    destruct Hx as ([m p] & <- & I). cbn [fst]. exists (xw_reply bad m). split; [reflexivity|]. destruct (string_dec m "") as [->|N]; [left; right; right; reflexivity|].
    right. exists m, p. split; [exact I|]. split; [now apply Ns|apply xw_reports].
  - intros d r. destruct (Hs d r). eauto.
  - intros d l d' reply r rs H Hr Hs2 m p Hi Hn. apply Eq in H. subst reply. injection Hr as <-. injection Hs2 as <-.
    exists (xw_reply bad m). split; [|now apply Ns]. rewrite map_map. apply in_map_iff. exists (m, p). now split.
  - intros d m p d' reply H E. apply Eq in H. subst reply. cbn [xw_say] in *. unfold xw_reply, xw_ans in *. destruct (String.eqb m bad); [discriminate E|].
    destruct (String.eqb m gdi); [discriminate|]. destruct (String.eqb m "getAppComponentList"); discriminate.
Qed.
Definition xw_new : cam := mkCam [] [] JNull [] false.
Definition xw_led : cmod := mkCmod "Led" [("getLedStatus", JObj [("led", JObj [("name", JStr "config")])])] "getLedStatus" "led" 0 false None.
Definition xw_devmod : cmod := mkCmod "devicemodule" [("getDeviceInfo", JObj [("device_info", JObj [("name", JArr [JStr "basic_info"; JStr "info"])])]);
  ("getConnectionType", JObj [("network", JObj [("get_connection_type", JArr [])])])] "getDeviceInfo" "device_info" 0 true (Some (fun _ => true)).
Definition xw_init (comps : list string) (lu : dict reply) (i : json) : res (list cmod) := Ok (xw_devmod :: if smem "led" comps then [xw_led] else []).
Definition xw_str (j : json) : string := match j with JStr s => s | _ => "" end.
Definition xw_int (j : json) : res Z := match j with JInt z => Ok z | _ => Err PyValueError end.
Definition xw_send (bad : string) (d : unit) (r : Smart_Model.request + dict json) : unit * res (dict json) :=
  match r with inl r => (tt, Ok (xw_say bad r)) | inr _ => (tt, Err KTimeout) end.
Theorem cam_update_library_error_refuted :
  exists (send : unit -> Smart_Model.request + dict json -> unit * res (dict json)) ans w w' d' r e,
    (let smart := fun d r => send d (inl r) in honest smart ans /\ live smart /\ complete smart /\ explicit smart) /\
    ans "getAppComponentList" (Some (JObj [("app_component", JObj [("name", JStr "app_component_list")])])) = AError (-1008) /\
    perform (cam_ask send (fun d => d)) (c_update xw_str xw_int xw_init SEC xw_new Ret) w = (w', (d', r, Err e)) /\ is_kasa e = false.
Proof.
  exists (xw_send "getAppComponentList"), (xw_ans "getAppComponentList"), (Smart_Model.mkW tt 5 []). do 4 eexists.
  split; [apply xw_fine; intros [] q; exists tt; reflexivity|]. split; [reflexivity|]. split; [vm_compute; reflexivity|]. reflexivity.
Qed.
Print Assumptions cam_update_library_error_refuted.

(** ** Examples *)
Definition xw_val (bad m : string) (p : json) : rval := match xw_ans bad m None with AResult j => RJson j | AError c => RCode (reported_code c) end.
Lemma xw_known bad m p : ~ In m ["getConnectStatus"; "scanApList"; ""] -> ~ In m own_format -> cam_known (xw_ans bad) m p (xw_val bad m p).
Proof.
  intros N O. split; [exact N|]. split; [exact O|]. apply cam_simple. unfold xw_val. change (xw_ans bad m None) with (xw_ans bad m (eff_params p)).
  destruct (xw_ans bad m (eff_params p)) as [j|c] eqn:E; [|now apply simple_code]. apply simple_plain; [exact E| |].
  - intros d ->. unfold xw_ans in E. destruct (String.eqb m bad); [discriminate E|]. destruct (String.eqb m gdi); [injection E as <-; reflexivity|].
    destruct (String.eqb m "getAppComponentList"); injection E as <-; reflexivity.
  - right. unfold xw_ans in E. destruct (String.eqb m bad); [discriminate E|]. destruct (String.eqb m gdi); [injection E as <-; unfold xw_info; eauto|].
    destruct (String.eqb m "getAppComponentList"); injection E as <-; unfold xw_comps; eauto.
Qed.
(** A first update and one a minute later, of a camera with a LED whose state it does not tell: what the
    object then has. *)
Example cam_update_ex : let bad := "getLedStatus" in
  (let smart := fun d r => xw_send bad d (inl r) in honest smart (xw_ans bad) /\ live smart /\ complete smart /\ explicit smart) /\
  (forall k p, dget k (c_initial ++ c_children) = Some p -> cam_known (xw_ans bad) k p (xw_val bad k p)) /\
  (forall p, dget gdi c_initial = Some p -> tells (xw_val bad gdi p) [("device_model", JStr "C100"); ("device_alias", JStr "Door"); ("mac", JStr "AA")]) /\
  (forall p, dget "getAppComponentList" c_initial = Some p -> lists xw_str xw_int (xw_val bad "getAppComponentList" p) ["led"]) /\
  exists w1 d1 req1 w2 d2 req2,
  perform (cam_ask (xw_send bad) (fun d => d)) (c_update xw_str xw_int xw_init SEC xw_new Ret) (Smart_Model.mkW tt 5 []) = (w1, (d1, Some req1, Ok tt)) /\
  dkeys req1 = ["getLedStatus"] /\ k_info d1 = JObj [("model", JStr "C100"); ("alias", JStr "Door"); ("mac", JStr "AA")] /\ k_started d1 = true /\
  c_data xw_led (k_lu d1) (k_info d1) = Err (KDevice (Some (-100001))) /\
  perform (cam_ask (xw_send bad) (fun d => d)) (c_update xw_str xw_int xw_init (61 * SEC) d1 Ret) w1 = (w2, (d2, Some req2, Ok tt)) /\
  dkeys req2 = ["getDeviceInfo"; "getConnectionType"; "getLedStatus"] /\ c_data xw_led (k_lu d2) (k_info d2) = Err (KDevice (Some (-1008))).
Proof.
  cbv zeta. split; [apply xw_fine; intros [] q; exists tt; reflexivity|]. split.
  { intros k p E. apply dget_In in E. cbn in E. apply xw_known; cbn; intuition (try discriminate); subst; intuition discriminate. }
  split; [intros p _; eexists _, _; split; [reflexivity|]; split; reflexivity|].
  split. { intros p _. do 3 eexists. split; [reflexivity|]. split; [reflexivity|]. split; [reflexivity|]. constructor; [|constructor]. do 4 eexists. repeat split; reflexivity. }
  do 6 eexists. split; [vm_compute; reflexivity|]. repeat split; vm_compute; reflexivity.
Qed.

(** Over the network: the messages are the names of the methods, with two letters for one. *)
Section ExCam.
Import Cam_Model Cam_Spec CamPeer_Spec CamPeer_Props.
Definition xw_text (n : nat) (r : Smart_Model.request + dict json) : bytes := match r with inl r => wx_text n r | inr _ => [] end.
Definition xw_json (b : bytes) : option json :=
  Some (JObj (match b with
    | "S"%char :: b => match names b [] with m :: _ => xw_reply "" m | [] => [] end
    | _ :: b => [("error_code", JInt 0); ("result", JObj [("responses", JArr (map (fun m => JObj (xw_reply "" m)) (names b [])))])]
    | [] => []
    end)).
Fixpoint xw_feed (h : choice) (w : Cam_Model.world) (d : device nat) (p : list post) : Cam_Model.world :=
  match p with
  | [] => w
  | PHello def u n :: p =>
      let (d1, r) := on_hello toy_hex "admin" toy_pass nat (if def then h_hello2 h else h_hello h) u n d in
      xw_feed h (if def then mkW (w_n1 w) (w_n2 w) (w_hello w) (w_plain w) r (w_plain2 w) (w_proof w) (w_req w)
              else mkW (w_n1 w) (w_n2 w) r (w_plain w) (w_hello2 w) (w_plain2 w) (w_proof w) (w_req w)) d1 p
  | PProof u n dg :: p =>
      let (d1, r) := on_proof toy_hex toy_sha "admin" toy_pass nat (h_proof h) u n dg d in
      xw_feed h (mkW (w_n1 w) (w_n2 w) (w_hello w) (w_plain w) (w_hello2 w) (w_plain2 w) r (w_req w)) d1 p
  | PSecure k pl q tag :: p =>
      let (d1, r) := on_secure (fun _ b => b) (fun _ b => b) toy_hex toy_int (fun b => b) toy_pass nat wx_app (h_request h) k pl q tag d in
      xw_feed h (mkW (w_n1 w) (w_n2 w) (w_hello w) (w_plain w) (w_hello2 w) (w_plain2 w) (w_proof w) r) d1 p
  | _ :: p => xw_feed h w d p
  end.
Notation xw_csend := (send (fun _ b => b) (fun _ b => b) xw_json toy_md5 toy_hex toy_sha toy_int toy_str (fun b => b) toy_cfg).
Definition xw_arranged (h : choice) (t : Cam_Model.cam) (d : device nat) (m : bytes) : Cam_Model.world :=
  let bad := Err KKasa in
  CamPeer_Props.again 6 (fun w => xw_feed h w d (log (fst (xw_csend w m (cleared t))))) (Cam_Model.mkW "n1" "n2" bad bad bad bad bad bad).
Definition xw_m1 : bytes := Eval vm_compute in xw_text 0 (inl (Batch [("getDeviceInfo", None); ("getAppComponentList", None); ("getConnectionType", None)])).
Definition xw_m2 : bytes := Eval vm_compute in xw_text 1 (inl (Batch [("getLedStatus", None)])).
Definition xw_w1 := Eval vm_compute in xw_arranged (fine "a") (init toy_cfg) d0 xw_m1.
Definition xw_t1 := Eval vm_compute in fst (xw_csend xw_w1 xw_m1 (init toy_cfg)).
Definition xw_w2 := Eval vm_compute in xw_arranged (fine "b") xw_t1 (mkDev None (dv_sessions d1) 6%nat) xw_m2.
Definition xw_script (n : nat) : (nat -> nat) * (option (string -> bool) * choice * Cam_Model.world) :=
  match n with O => (fun s => s, (None, fine "a", xw_w1)) | _ => (fun s => s, (None, fine "b", xw_w2)) end.
Notation xw_together := (together (fun _ b => b) (fun _ b => b) xw_json toy_md5 toy_hex toy_sha toy_int toy_str (fun b => b) toy_cfg "admin" toy_pass nat wx_app).
Notation xw_client := (cam_client (fun _ b => b) (fun _ b => b) xw_json toy_md5 toy_hex toy_sha toy_int toy_str (fun b => b) toy_cfg).
Notation xw_direct := (direct_send (option (string -> bool) * choice * Cam_Model.world) nat _ _ xw_text as_dict xw_script wx_app (understood xw_json)).
Lemma xw_direct_says : says "" (fun d r => xw_direct d (inl r)).
Proof.
  intros d r. unfold direct_send, wx_app, understood, xw_json, xw_text. destruct r as [m p|l]; cbn [wx_text].
  - rewrite names_spell. cbn [List.app]. rewrite string_of_list_ascii_of_string. eexists. reflexivity.
  - rewrite names_text. eexists. reflexivity.
Qed.
Example cam_first_update_over_network_ex :
  cam_fresh (fun _ b => b) (fun _ b => b) xw_json toy_md5 toy_hex toy_sha toy_int toy_str (fun b => b) toy_cfg "admin" toy_pass nat wx_app (init toy_cfg, d0) /\
  (let smart := fun d r => xw_direct d (inl r) in honest smart (xw_ans "") /\ live smart /\ complete smart /\ explicit smart) /\
  exists w' d' req y o,
  perform (cam_ask (stack_send _ _ nat _ _ xw_client xw_text as_dict xw_script) (stack_reset _ _ nat reset))
    (c_update xw_str xw_int xw_init SEC xw_new Ret) (Smart_Model.mkW (mkStack (init toy_cfg) 0 []) 5 []) = (w', (d', Some req, Ok tt)) /\
  dkeys req = ["getLedStatus"] /\ k_info d' = JObj [("model", JStr "C100"); ("alias", JStr "Door"); ("mac", JStr "AA")] /\
  c_data xw_led (k_lu d') (k_info d') = Ok (One (JObj [("name", JStr "getLedStatus")])) /\
  xw_together (init toy_cfg, d0) (cam_happenings (k_trace (wdev w'))) y o /\
  all_healthy toy_md5 toy_hex toy_cfg nat (cam_happenings (k_trace (wdev w'))) /\ dv_state (snd y) = 7%nat.
Proof.
  split; [exists d0, [], (init toy_cfg), []; split; [constructor|now left]|]. split; [apply xw_fine, xw_direct_says|].
  do 5 eexists. split; [vm_compute; reflexivity|]. split; [reflexivity|]. split; [reflexivity|]. split; [vm_compute; reflexivity|].
  cbn [wdev k_trace cam_happenings flat_map List.app]. split; [|split].
  - apply together_device. show_send. apply together_device. show_send. apply together_nil.
  - show_healthy.
  - reflexivity.
Qed.
End ExCam.

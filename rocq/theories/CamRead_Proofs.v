(** Proofs about the readings of cameras. *)
From Verif Require Import Base Py Base_Lemmas Smod_Model Gadget_Model CamMod_Model WholeCam_Spec Read_Model Read_Spec Read_Proofs CamRead_Model CamRead_Spec.
Open Scope string_scope.
Open Scope list_scope.
Open Scope Z_scope.

(** ** The basic information *)
Lemma common_other k : ~ In k ["device_model"; "device_alias"; "sw_version"; "hw_version"; "hw_id"; "dev_id"] -> common_name k = k.
Proof.
  intros N. unfold common_name. destruct (dget k _) as [n|] eqn:E; [|reflexivity].
  exfalso. apply N. apply dget_Some_key in E. exact E.
Qed.
Lemma common_cases k : common_name k = k \/ In (common_name k) ["model"; "alias"; "fw_ver"; "hw_ver"; "hwId"; "device_id"].
Proof.
  unfold common_name. destruct (dget k _) as [n|] eqn:E; [|left; reflexivity].
  right. apply dget_In in E. apply (in_map snd) in E. exact E.
Qed.
Lemma info_get b info k : same_info b (JObj info) ->
  ~ In k ["device_model"; "device_alias"; "sw_version"; "hw_version"; "hw_id"; "dev_id"] ->
  ~ In k ["model"; "alias"; "fw_ver"; "hw_ver"; "hwId"; "device_id"] -> dget k info = dget k b.
Proof.
  intros (m & E & _ & A & B) N1 N2. injection E as <-.
  assert (U : forall k', common_name k' = k -> k' = k).
  { intros k' C. destruct (common_cases k') as [X|X]; [congruence|]. rewrite C in X. contradiction. }
  destruct (dget k b) as [v|] eqn:Eb.
  - destruct (B k v Eb) as (v' & G & Q). rewrite (common_other k N1) in *. rewrite G. f_equal. apply Q.
    intros k' _ C. auto.
  - destruct (dget k info) as [v|] eqn:Ei; [|reflexivity]. destruct (A k v Ei) as (k' & G & C).
    apply U in C. congruence.
Qed.
Lemma info_id b info : same_info b (JObj info) -> dget "dev_id" b = None \/ dget "device_id" b = None ->
  dget "device_id" info = match dget "dev_id" b with Some v => Some v | None => dget "device_id" b end.
Proof.
  intros (m & E & _ & A & B) O. injection E as <-.
  assert (C : forall k, common_name k = "device_id" -> k = "dev_id" \/ k = "device_id").
  { intros k X. destruct (in_dec string_dec k ["device_model"; "device_alias"; "sw_version"; "hw_version"; "hw_id"; "dev_id"]) as [I|N].
    - cbn in I. repeat (destruct I as [<-|I]; [try (exfalso; vm_compute in X; discriminate X); auto|]). destruct I.
    - rewrite common_other in X by exact N. auto. }
  destruct (dget "dev_id" b) as [v|] eqn:E1.
  - destruct (B _ v E1) as (v' & G & Q). change (common_name "dev_id") with "device_id" in *. rewrite G. f_equal. apply Q.
    intros k' H X. destruct (C k' X) as [->| ->]; [reflexivity|]. destruct O as [O|O]; congruence.
  - destruct (dget "device_id" b) as [v|] eqn:E2.
    + destruct (B _ v E2) as (v' & G & Q). change (common_name "device_id") with "device_id" in *. rewrite G. f_equal. apply Q.
      intros k' H X. destruct (C k' X) as [->| ->]; [congruence|reflexivity].
    + destruct (dget "device_id" info) as [v|] eqn:Ei; [|reflexivity]. destruct (A _ v Ei) as (k' & G & X).
      destruct (C k' X) as [->| ->]; congruence.
Qed.

(** ** Renaming *)
Lemma starts_spec p : forall s, starts p s = true -> exists b, s = (p ++ b)%string.
Proof.
  induction p as [|a p IH]; intros s; cbn [starts]; [exists s; reflexivity|].
  destruct s as [|c s]; [discriminate|]. intros H. apply andb_prop in H. destruct H as (H1 & H2).
  apply Ascii.eqb_eq in H1. subst c. destruct (IH s H2) as (b & ->). exists b. reflexivity.
Qed.
Lemma renamed_other s : ~ occurs "ipcamera" s -> renamed s = s.
Proof.
  unfold renamed. induction s as [|c s IH]; intros N; [reflexivity|].
  unfold replace_from; fold replace_from.
  destruct (starts "ipcamera" (String c s)) eqn:E.
  - exfalso. apply N. apply starts_spec in E. destruct E as (b & ->). exists "", b. reflexivity.
  - rewrite IH; [reflexivity|]. intros (a & b & ->). apply N. exists (String c a), b. reflexivity.
Qed.
Lemma categories_agree l :
  (forall c s, In c l -> follow ["category"] c = Some (JStr s) -> s = "ipcamera" \/ ~ occurs "ipcamera" s) ->
  match categories l with Ok r => every category l = Some r | Err _ => every category l = None end.
Proof.
  induction l as [|c l IH]; intros H; [reflexivity|]. cbn [categories every].
  assert (X : match (let! n := jitem "category" c in match n with JStr s => Ok (renamed s) | _ => Err PyAttributeError end) with
              | Ok s => category c = Some (JStr s) | Err _ => category c = None end).
  { specialize (H c). unfold category. cbn [follow] in *. unfold jitem. destruct c as [| | | | | |d]; try reflexivity.
    unfold dindex. destruct (dget "category" d) as [n|]; [|reflexivity]. cbn [bind]. destruct n as [| | | |s| |]; try reflexivity.
    destruct (H s (or_introl eq_refl) eq_refl) as [->|N]; [reflexivity|].
    rewrite renamed_other by exact N. destruct (String.eqb_spec s "ipcamera") as [->|]; [|reflexivity].
    exfalso. apply N. exists "", "". reflexivity. }
  specialize (IH ltac:(intros c' s I; apply H; right; exact I)).
  destruct (jitem "category" c) as [n|e]; cbn [bind] in *; [|rewrite X; reflexivity].
  destruct n as [| | | |s| |]; cbn [bind] in *; rewrite X; try reflexivity.
  destruct (categories l) as [r|e]; cbn [bind]; rewrite IH; reflexivity.
Qed.

(** ** The data of a module *)
Section Data.
Variables (hub : bool) (w : answers) (own : dict reply) (info : dict json).
Lemma cam_check_ok q (found : dict reply) :
  (forall k, In k q -> exists v, dget k found = Some (RVal v)) -> cam_check q found = Ok tt.
Proof.
  induction q as [|k q IH]; intros H; [reflexivity|]. cbn [cam_check].
  destruct (H k (or_introl eq_refl)) as (v & ->). apply IH. intros k' I. apply H. right. exact I.
Qed.
Lemma cdt_one m d : cquery hub m = [getter m] -> dget (getter m) own = Some (w (getter m)) -> w (getter m) = RVal (JObj d) ->
  cdt hub own info m = match d with [] => Err KKasa | _ => Ok (match dget (section_of m) d with Some x => x | None => JObj d end) end.
Proof.
  intros Q G V. unfold cdt. rewrite Q. cbn [cam_data]. rewrite G, V. destruct d as [|e d]; cbn [truthy]; [reflexivity|].
  cbn [bind Read_Model.whole]. reflexivity.
Qed.
Lemma cdt_many m k1 k2 q : cquery hub m = k1 :: k2 :: q -> dwf own ->
  (forall k, In k (cquery hub m) -> dget k own = Some (w k)) ->
  (forall k, In k (cquery hub m) -> exists v, w k = RVal v) ->
  exists d, cdt hub own info m = Ok (JObj d)
    /\ forall k v, In k (cquery hub m) -> w k = RVal v -> dget k d = Some v.
Proof.
  intros Q W G A. unfold cdt, cam_data. rewrite Q in *.
  set (F := filter (fun kv : string * reply => smem (fst kv) (k1 :: k2 :: q)) own).
  assert (GF : forall k, In k (k1 :: k2 :: q) -> dget k F = Some (w k)).
  { intros k I. unfold F. rewrite dget_filter. apply smem_In in I as I'. rewrite I'. auto. }
  rewrite cam_check_ok.
  2:{ intros k I. rewrite (GF k I). destruct (A k I) as (v & ->). eauto. }
  cbn [bind Read_Model.whole]. exists (values F). split; [reflexivity|].
  intros k v I V. rewrite values_get by (apply dwf_filter; exact W). rewrite (GF k I), V. reflexivity.
Qed.
Lemma cam_check_refused q (found : dict reply) k c :
  (forall k, In k q -> dget k found = Some (w k)) -> In k q -> w k = RErr c ->
  exists k' c', In k' q /\ w k' = RErr c' /\ cam_check q found = Err (KDevice (Some c')).
Proof.
  intros H. revert k. induction q as [|k0 q IH]; intros k I V; [destruct I|]. cbn [cam_check].
  rewrite (H k0 (or_introl eq_refl)). destruct (w k0) as [v|c0] eqn:E0.
  - destruct I as [->|I]; [congruence|].
    destruct (IH ltac:(intros k' I'; apply H; right; exact I') k I V) as (k' & c' & I' & V' & ->).
    exists k', c'. split; [right; exact I'|]. split; [exact V'|reflexivity].
  - exists k0, c0. split; [left; reflexivity|]. split; [exact E0|reflexivity].
Qed.
Lemma cdt_refused m k c : (forall g, cquery hub m = [g] -> g = getter m) ->
  (forall k, In k (cquery hub m) -> dget k own = Some (w k)) -> In k (cquery hub m) -> w k = RErr c ->
  exists k' c', In k' (cquery hub m) /\ w k' = RErr c' /\ cdt hub own info m = Err (KDevice (Some c')).
Proof.
  intros Hg G I V. unfold cdt, cam_data. destruct (cquery hub m) as [|k1 [|k2 q]] eqn:Q; [destruct I| |].
  - destruct I as [->|[]]. rewrite <- (Hg k eq_refl), (G k (or_introl eq_refl)), V. exists k, c. repeat split; auto. left; reflexivity.
  - set (F := filter (fun kv : string * reply => smem (fst kv) (k1 :: k2 :: q)) own).
    destruct (cam_check_refused (k1 :: k2 :: q) F k c) as (k' & c' & I' & V' & ->); auto.
    { intros k' I'. unfold F. rewrite dget_filter. apply smem_In in I' as J. rewrite J. auto. }
    exists k', c'. repeat split; auto.
Qed.
Lemma cdt_missing m k : (forall g, cquery hub m = [g] -> g = getter m) ->
  (forall k c, In k (cquery hub m) -> dget k own <> Some (RErr c)) -> In k (cquery hub m) -> dget k own = None ->
  cdt hub own info m = Err KKasa.
Proof.
  intros Hg G I V. unfold cdt, cam_data. destruct (cquery hub m) as [|k1 [|k2 q]] eqn:Q; [destruct I| |].
  - destruct I as [->|[]]. rewrite <- (Hg k eq_refl), V. reflexivity.
  - set (qq := k1 :: k2 :: q) in *. set (F := filter (fun kv : string * reply => smem (fst kv) qq) own).
    assert (GF : forall x, In x qq -> dget x F = dget x own).
    { intros x Ix. unfold F. rewrite dget_filter. apply smem_In in Ix as ->. reflexivity. }
    assert (E : cam_check qq F = Err KKasa); [|rewrite E; reflexivity].
    clearbody F. clear Q Hg. clearbody qq. revert k I V G GF. induction qq as [|x qq IH]; intros k I V G GF; [destruct I|].
    cbn [cam_check]. rewrite (GF x (or_introl eq_refl)). destruct (dget x own) as [[v|c]|] eqn:E; [| |reflexivity].
    + destruct I as [->|I]; [congruence|]. apply (IH k I V); intros; [apply G|apply GF]; right; assumption.
    + exfalso. exact (G x c (or_introl eq_refl) E).
Qed.
End Data.

(** ** Readings *)
Lemma json_is_says s v : json_is s v = says s v.
Proof. reflexivity. Qed.
Lemma num_same v : is_num v = number v.
Proof. destruct v; reflexivity. Qed.
Lemma volume_agree d : (forall l, dget "volume" d <> Some (JFloat l)) ->
  agree (let! z := siren_volume d in Ok (Plain (JInt z)))
    (mapped (fun v => option_map (fun z => Plain (JInt z)) (spelled_number v)) (dget "volume" d)).
Proof.
  intros N. unfold siren_volume, dindex. destruct (dget "volume" d) as [v|]; [|exact I]. cbn [bind mapped].
  destruct v as [|b|z|l|s|a|o]; cbn [spelled_number whole_number option_map bind]; try exact I; try reflexivity.
  unfold Z_of_str. destruct (DecimalString.NilZero.int_of_string s); reflexivity.
Qed.

Section Read.
Variables (hub : bool) (w : answers) (own : dict reply) (b info : dict json).
Hypothesis P : cproper w b.
Hypothesis S : same_info b (JObj info).

Lemma basic_agrees r : basic hub r = true -> r <> Charging -> (r = Rssi -> hub = false \/ dget "rssi" b = None) ->
  agree (cread hub own info r) (cmeans hub w b r).
Proof.
  intros B N R. destruct r; try discriminate B; try congruence; cbn [cread cmeans].
  - cbn [basic] in B. subst hub. destruct (R eq_refl) as [X|X]; [discriminate X|]. rewrite X. unfold connection, cdt. cbn [cquery cam_data bind Read_Model.whole sub].
    rewrite (info_get b info "getConnectionType" S) by (cbn; intuition discriminate). rewrite (cp_basic _ _ P). exact eq_refl.
  - cbn [basic] in B. subst hub. unfold connection, cdt. cbn [cquery cam_data bind Read_Model.whole sub].
    rewrite (info_get b info "getConnectionType" S) by (cbn; intuition discriminate). rewrite (cp_basic _ _ P). exact eq_refl.
  - unfold dindex. rewrite (info_id b info S (cp_id _ _ P)). destruct (dget "dev_id" b); [exact eq_refl|]. destruct (dget "device_id" b); [exact eq_refl|exact I].
  - clear R. unfold dindex. rewrite (info_get b info) by (auto; cbn; intuition discriminate). destruct (dget _ b); [exact eq_refl|exact I].
  - clear R. unfold dindex. rewrite (info_get b info) by (auto; cbn; intuition discriminate). destruct (dget _ b); [exact eq_refl|exact I].
  - clear R. unfold dindex. rewrite (info_get b info) by (auto; cbn; intuition discriminate). destruct (dget _ b); [exact eq_refl|exact I].
  - clear R. unfold dindex. rewrite (info_get b info) by (auto; cbn; intuition discriminate). destruct (dget _ b) as [v|]; [|exact I].
    cbn [bind mapped]. unfold milli_of. rewrite num_same. destruct (number v); [exact eq_refl|exact I].
Qed.

Hypothesis W : dwf own.
Lemma within_top (m : cmodule) path k t (f : json -> res value) :
  (forall v, agree (f v) (t (follow path v))) -> t None = None ->
  cquery hub m = [getter m] -> dget (getter m) own = Some (w (getter m)) -> (exists v, w (getter m) = RVal v) ->
  agree (let! v := ctop hub own info m k in f v) (t (within w (getter m) (section_of m) (k :: path))).
Proof.
  intros F T Q G (v & V). destruct (cp_objects _ _ P _ _ V) as (d & ->). unfold ctop.
  rewrite (cdt_one hub w own info m d Q G V). unfold within, fld. rewrite V. cbn [follow].
  destruct d as [|e d]; [cbn [dget bind]; rewrite T; exact I|]. cbn [bind].
  destruct (dget (section_of m) (e :: d)) as [x|].
  - destruct x as [| | | | | |o]; cbn [jitem bind]; try (rewrite T; exact I). unfold dindex. destruct (dget k o); [apply F|cbn [bind]; rewrite T; exact I].
  - cbn [jitem]. unfold dindex. destruct (dget k (e :: d)); [apply F|cbn [bind]; rewrite T; exact I].
Qed.
Lemma fld_at (m : cmodule) k path t (f : json -> res value) k1 k2 q :
  (forall v, agree (f v) (t (follow path v))) -> t None = None ->
  cquery hub m = k1 :: k2 :: q -> In k (cquery hub m) ->
  (forall k, In k (cquery hub m) -> dget k own = Some (w k)) -> (forall k, In k (cquery hub m) -> exists v, w k = RVal v) ->
  agree (let! v := ctop hub own info m k in f v) (t (fld w k path)).
Proof.
  intros F T Q K G A. destruct (cdt_many hub w own info m k1 k2 q Q W G A) as (d & E & D).
  unfold ctop. rewrite E. cbn [bind jitem]. destruct (A k K) as (v & V). unfold dindex. rewrite (D k v K V). cbn [bind].
  unfold fld. rewrite V. apply F.
Qed.
Lemma item_agree k v : agree (plain (jitem k v)) (as_is (follow [k] v)).
Proof. destruct v as [| | | | | |d]; try exact I. cbn [jitem follow]. unfold dindex. destruct (dget k d); [exact eq_refl|exact I]. Qed.

Lemma bind_assoc {A B C} (r : res A) (f : A -> res B) (g : B -> res C) : bind (bind r f) g = bind r (fun a => bind (f a) g).
Proof. destruct r; reflexivity. Qed.

Lemma cread_agrees r : (forall s, r = SwitchOn s -> In s switches) -> r <> Charging -> (r = Rssi -> hub = false \/ dget "rssi" b = None) ->
  (forall k, In k (cquery hub (cmodule_of r)) -> dget k own = Some (w k)) ->
  (forall k, In k (cquery hub (cmodule_of r)) -> exists v, w k = RVal v) ->
  agree (cread hub own info r) (cmeans hub w b r).
Proof.
  intros HS N R G A. destruct (basic hub r) eqn:B; [apply basic_agrees; auto|].
  destruct r; try discriminate B; cbn [cmodule_of] in *; cbn [cread cmeans].
  - unfold plain, cat_. rewrite bind_assoc. eapply (fld_at GAlarm "getSirenConfig" ["siren_type"] as_is); try reflexivity; auto.
    + intros v. apply item_agree.
    + cbn; auto.
  - unfold plain, cat_. rewrite bind_assoc. eapply (fld_at GAlarm "getSirenTypeList" ["siren_type_list"] as_is); try reflexivity; auto.
    + intros v. apply item_agree.
    + cbn; auto.
  - destruct (A "getSirenConfig") as (v & V); [cbn; auto|]. destruct (cp_objects _ _ P _ _ V) as (d & ->).
    destruct (cdt_many hub w own info GAlarm _ _ _ eq_refl W G A) as (d' & E & D).
    unfold ctop. rewrite E. cbn [bind jitem]. unfold dindex at 1. rewrite (D "getSirenConfig" _ ltac:(cbn; auto) V). cbn [bind Read_Model.as_dict].
    unfold fld. rewrite V. cbn [follow].
    replace (match dget "volume" d with Some x => Some x | None => None end) with (dget "volume" d) by (destruct (dget "volume" d); reflexivity).
    apply volume_agree. intros l X. apply (cp_volume _ _ P l). unfold fld. rewrite V. cbn [follow]. rewrite X. reflexivity.
  - unfold plain, cat_. rewrite bind_assoc. eapply (fld_at GAlarm "getSirenConfig" ["duration"] as_is); try reflexivity; auto.
    + intros v. apply item_agree.
    + cbn; auto.
  - unfold cat_. rewrite bind_assoc. eapply (fld_at GAlarm "getSirenStatus" ["status"] (yes_if (fun v => negb (says "off" v)))); try reflexivity; auto.
    + intros v. destruct v as [| | | | | |d]; try exact I. cbn [jitem follow]. unfold dindex. destruct (dget "status" d); [exact eq_refl|exact I].
    + cbn; auto.
  - unfold plain. apply (within_top GMatter [] "setup_code" as_is); auto; try reflexivity.
    + apply G. left. reflexivity.
    + apply A. left. reflexivity.
  - unfold plain. apply (within_top GMatter [] "setup_payload" as_is); auto; try reflexivity.
    + apply G. left. reflexivity.
    + apply A. left. reflexivity.
  - cbn [basic] in B. subst hub. destruct (A "getConnectionType") as (v & V); [cbn; auto|]. destruct (cp_objects _ _ P _ _ V) as (d & ->).
    destruct (cdt_many false w own info GDevice _ _ _ eq_refl W G A) as (d' & E & D).
    unfold connection. rewrite E. cbn [bind sub]. rewrite (D "getConnectionType" _ ltac:(cbn; auto) V). cbn [bind field].
    unfold fld. rewrite V. cbn [follow]. unfold or_else. destruct (dget "rssiValue" d); exact eq_refl.
  - cbn [basic] in B. subst hub. destruct (A "getConnectionType") as (v & V); [cbn; auto|]. destruct (cp_objects _ _ P _ _ V) as (d & ->).
    destruct (cdt_many false w own info GDevice _ _ _ eq_refl W G A) as (d' & E & D).
    unfold connection. rewrite E. cbn [bind sub]. rewrite (D "getConnectionType" _ ltac:(cbn; auto) V). cbn [bind field].
    unfold fld. rewrite V. cbn [follow]. unfold or_else. destruct (dget "rssi" d); exact eq_refl.
  - pose proof (cp_categories _ _ P) as C.
    set (q := within w "getSupportChildDeviceCategory" "childControl" ["device_category_list"]) in *.
    assert (X : agree (let! v := ctop hub own info GSetup "device_category_list" in Ok (Plain v)) (as_is q)).
    { apply (within_top GSetup [] "device_category_list" as_is); auto; try reflexivity.
      - apply G. left. reflexivity.
      - apply A. left. reflexivity. }
    destruct (ctop hub own info GSetup "device_category_list") as [v|e]; cbn [bind] in *.
    + destruct q as [v'|]; [|destruct X]. cbn in X. injection X as <-. destruct (C v eq_refl) as (l & -> & H). cbn [jiter bind].
      pose proof (categories_agree l H) as Y. destruct (categories l); cbn [bind]; rewrite Y; [exact eq_refl|exact I].
    + destruct q; [destruct X|exact I].
  - assert (K : kept w0 = Some (w_getter w0, w_module w0, w_section w0)).
    { specialize (HS w0 eq_refl). cbn in HS. repeat (destruct HS as [<-|HS]; [reflexivity|]). destruct HS. }
    rewrite K. unfold cat_. rewrite bind_assoc.
    apply (within_top (GSwitch w0) ["enabled"] (w_section w0) (yes_if (says "on"))); auto; try reflexivity.
    + intros v. destruct v as [| | | | | |d]; try exact I. cbn [jitem follow]. unfold dindex. destruct (dget "enabled" d); [exact eq_refl|exact I].
    + apply G. left. reflexivity.
    + apply A. left. reflexivity.
Qed.
End Read.

(** Files about devices for publication: C155 (nothing private is in them), C156 (what is in them). *)
From Coq Require Import Lia.
From Verif Require Import Base Base_Lemmas Py Redact_Model Redact_Spec Redact_Proofs Factory_Model Table_Model Dump_Model Dump_Spec Dump_Proofs.
Open Scope string_scope.
Open Scope list_scope.
Open Scope Z_scope.

(** ** Nothing private *)
(** Whatever a device answers, in what is written of it there is nothing private, at any depth: places are
    zero, ids have no letter and no digit but zero, of hardware addresses only the part of the vendor is
    left, names, networks, accounts, serial numbers and maps are replaced. *)
Theorem written_publishable : forall t v, In t [smart_redactors; iot_redactors; new_discovery_redactors] ->
  publishable t [] (redact_data (wrap_redactors t) v).
Proof. intros t v T. now apply redact_publishable. Qed.
Print Assumptions written_publishable.
Definition plug_info : json :=
  JObj [("get_device_info", JObj [("device_id", JStr "8022AB-CD34"); ("mac", JStr "A8-42-A1-12-34-56"); ("latitude", JInt 523456);
                                  ("nickname", JStr "S2l0Y2hlbg=="); ("model", JStr "P100"); ("ssid", JStr "SG9tZQ==")])].
Example written_ex : redact_data (wrap_redactors smart_redactors) plug_info =
  JObj [("get_device_info", JObj [("device_id", JStr "00000000000"); ("mac", JStr "A8-42-A1-00-00-00"); ("latitude", JInt 0);
                                  ("nickname", JStr "I01BU0tFRF9OQU1FIw=="); ("model", JStr "P100"); ("ssid", JStr "I01BU0tFRF9TU0lEIw==")])].
Proof. vm_compute. reflexivity. Qed.

Section Files.
Variable smart_name cam_name : dict json -> option (res json) -> res string.
Variable cam_child_name : dict json -> res string.
Let files_of := smart_files smart_name cam_name cam_child_name.

(** All files about a device and its children, but for what is under two names: what the device said when
    it was discovered, which is written by the rules for that, and the answers of some children, see below. *)
Theorem files_publishable : forall final children discovery files, files_of final children discovery = Ok files ->
  exists main rest, files = main :: rest /\
    publishable smart_redactors ["discovery_result"; "child_devices"] (f_data main) /\
    (forall f, In f rest -> publishable smart_redactors [] (f_data f)) /\
    (dget "discovery_result" final = None -> forall x, at_path [Key "discovery_result"] (f_data main) = Some x -> publishable new_discovery_redactors [] x).
Proof.
  intros final children disc files H. apply files_pub in H. destruct H as (main & rest & E & P & R & D). exists main, rest. split; [exact E|]. split; [exact P|]. split.
  - apply Forall_forall. exact R.
  - intros N x X. apply D; [|exact X]. intros w. cbn. rewrite N. discriminate.
Qed.

(** When the children are of other models than the device, there is nothing private in any file. *)
Theorem files_with_children_publishable_partial : forall final children discovery files pm,
  files_of final children discovery = Ok files -> model_is final pm ->
  (forall i r, In (i, r) children -> exists m, model_is r m /\ m <> pm) -> dget "child_devices" final = None ->
  forall f, In f files -> publishable smart_redactors ["discovery_result"] (f_data f).
Proof.
  intros final children disc files pm H Pm Ch N f I.
  pose proof H as H0. apply (files_apart _ _ _ _ _ _ _ pm) in H0; [|exact Pm|exact Ch]. destruct H0 as (fin & infos & rest & main & B & _ & E & M & _).
  destruct (files_publishable _ _ _ _ H) as (main' & rest' & E' & _ & R & _). rewrite E in E'. injection E' as <- <-. subst files. destruct I as [<-|I].
  - assert (P : publishable smart_redactors ["discovery_result"] (JObj (redacted smart_redactors fin))) by (rewrite redacted_obj; apply redact_publishable; cbn; tauto).
    destruct M as [->|(e & l & _ & ->)]; [exact P|]. apply pub_dset; [exact P|]. left. now left.
  - intros p k x C T _. apply (R f I p k x C T). intros t _ [].
Qed.
End Files.
Print Assumptions files_publishable.
Print Assumptions files_with_children_publishable_partial.

(** A power strip: its sockets are children and have its model. *)
Definition strip : dict json :=
  [("get_device_info", JObj [("device_id", JStr "8022AB"); ("model", JStr "P300")]);
   ("get_child_device_component_list", JObj [("child_component_list", JArr [JObj [("device_id", JStr "8022AB00")]])]);
   ("get_child_device_list", JObj [("child_device_list", JArr [JObj [("device_id", JStr "8022AB00"); ("latitude", JInt 523456)]])])].
Definition socket : dict json :=
  [("get_device_info", JObj [("device_id", JStr "8022AB00"); ("model", JStr "P300"); ("latitude", JInt 523456); ("ssid", JStr "SG9tZQ==")])].
Definition named (n : string) : dict json -> option (res json) -> res string := fun _ _ => Ok n.
(** What its sockets say, where the home is for one, is written into the file as it is: where it is said
    by the strip itself it is hidden. *)
Theorem same_model_child_refuted : exists files main,
  smart_files (named "P300(EU)_1.0_1.0.15") (named "") (fun _ => Ok "") strip [("8022AB00", socket)] None = Ok files /\ files = [main] /\
  at_path [Key "get_child_device_list"; Key "child_device_list"; Idx 0; Key "latitude"] (f_data main) = Some (JInt 0) /\
  at_path [Key "child_devices"; Key "SCRUBBED_CHILD_DEVICE_ID_1"; Key "get_device_info"; Key "latitude"] (f_data main) = Some (JInt 523456) /\
  at_path [Key "child_devices"; Key "SCRUBBED_CHILD_DEVICE_ID_1"; Key "get_device_info"; Key "ssid"] (f_data main) = Some (JStr "SG9tZQ==") /\
  ~ publishable smart_redactors [] (f_data main).
Proof.
  do 2 eexists. split; [vm_compute; reflexivity|]. split; [reflexivity|]. split; [reflexivity|]. split; [reflexivity|]. split; [reflexivity|].
  intros P. assert (H : hidden "latitude" (JInt 523456)).
  { apply (P [Key "child_devices"; Key "SCRUBBED_CHILD_DEVICE_ID_1"; Key "get_device_info"]); try reflexivity; try discriminate.
    - intros k K. cbn in K. destruct K as [K|[K|[K|[]]]]; injection K as <-; reflexivity.
    - intros t _ []. }
  inversion H; subst.
  - match goal with B : blank _ |- _ => destruct B; discriminate end.
  - match goal with M : marked _ |- _ => destruct M as [M|(s & M & _)]; discriminate M end.
Qed.
Print Assumptions same_model_child_refuted.

(** A hub with a sensor *)
Definition hub : dict json :=
  [("get_device_info", JObj [("device_id", JStr "8022AB"); ("model", JStr "H100")]);
   ("get_child_device_component_list", JObj [("child_component_list", JArr [JObj [("device_id", JStr "X2"); ("n", JInt 7)]; JObj [("device_id", JStr "X1")]])]);
   ("get_child_device_list", JObj [("child_device_list", JArr [JObj [("device_id", JStr "X1"); ("nickname", JStr "S2l0")]; JObj [("device_id", JStr "X2")]])])].
Definition sensor (i : string) : dict json := [("get_device_info", JObj [("device_id", JStr i); ("model", JStr "T110"); ("latitude", JInt 523456)])].
Definition hub_files : res (list fixture) :=
  smart_files (named "H100") (named "") (fun _ => Ok "") hub [("X1", sensor "X1"); ("X2", sensor "X2")] (Some [("result", JObj [("device_model", JStr "H100"); ("ip", JStr "192.168.1.7")])]).
Example hub_ex : exists m a b, hub_files = Ok [m; a; b] /\ model_is hub "H100" /\ (forall i, model_is (sensor i) "T110") /\
  at_path [Key "discovery_result"; Key "result"; Key "ip"] (f_data m) = Some (JStr "127.0.0.123") /\
  at_path [Key "get_device_info"; Key "latitude"] (f_data a) = Some (JInt 0).
Proof.
  do 3 eexists. split; [vm_compute; reflexivity|]. split; [split; [discriminate|left; reflexivity]|]. split; [intros i; split; [discriminate|left; reflexivity]|]. split; reflexivity.
Qed.

(** Legacy devices *)
Section Legacy.
Variable str : json -> string.
Variable W : Type.
Variable ask : W -> dict json -> W * res (dict json).
Theorem legacy_file_publishable : forall discovery w w' f, legacy_file str W ask discovery w = (w', Ok f) ->
  publishable iot_redactors ["discovery_result"] (f_data f) /\
  (forall e l x, discovery = Some (e :: l) -> dget "system" (e :: l) = None -> at_path [Key "discovery_result"] (f_data f) = Some x -> publishable new_discovery_redactors [] x).
Proof. intros disc w w' f H. exact (legacy_pub _ _ _ _ _ _ _ H). Qed.

(** All that the device answers to the combined question is in the file, if it is not private. *)
Theorem legacy_file_keeps_answers : forall discovery w w' f,
  (forall w m t w' info, ask w [(m, JObj [(t, JObj [])])] = (w', Ok info) -> dget "model" info = None) ->
  legacy_file str W ask discovery w = (w', Ok f) ->
  exists w1 q w2 d, ask w1 q = (w2, Ok d) /\ kept iot_redactors ["discovery_result"] (JObj d) (f_data f).
Proof.
  intros disc w w' f Hm H. apply legacy_from_one in H; [|exact Hm]. destruct H as (w1 & q & w2 & d & A & D). exists w1, q, w2, d. split; [exact A|].
  assert (K : kept iot_redactors ["discovery_result"] (JObj d) (JObj (redacted iot_redactors d))) by (rewrite redacted_obj; apply kept_weaken, kept_redact).
  destruct D as [->|(r & ->)]; [exact K|]. eapply kept_trans; [exact K|]. apply kept_dset. right. left. now left.
Qed.
(** Of a device that answers steadily everything it knows is in the file, if it is not private. *)
Lemma legacy_try_known ans : steady_legacy ask ans -> forall items acc w, exists w' s, legacy_try W ask items acc w = (w', Ok s) /\
  (forall m t, (exists i, In (m, t, i) s) <-> (exists i, In (m, t, i) acc) \/ In (m, t) items /\ ans m t <> None).
Proof.
  intros (S1 & S2). induction items as [|[m t] items IH]; intros acc w; cbn [legacy_try].
  { exists w, acc. split; [reflexivity|]. intros m t. split; [now left|intros [H|([] & _)]; exact H]. }
  destruct (ans m t) as [v|] eqn:A.
  - destruct (S1 w [(m, JObj [(t, JObj [])])]) as (w1 & d & E & D).
    { intros m0 t0 x H. cbn in H. destruct (String.eqb_spec m0 m) as [->|]; [|discriminate H]. cbn in H. destruct (String.eqb_spec t0 t) as [->|]; [congruence|discriminate H]. }
    destruct (D m t (JObj [])) as (D1 & D2); [cbn; rewrite String.eqb_refl; cbn; now rewrite String.eqb_refl|].
    rewrite E. cbn [bind]. unfold dindex. cbn [at_path] in D1, D2. rewrite A in D1. destruct (dget m d) as [y|]; [|discriminate D1].
    destruct y as [| | | | | |y]; try discriminate D1. cbn [bind jcontains]. assert (Y : dmem "err_msg" y = false) by (unfold dmem; now destruct (dget "err_msg" y)).
    rewrite Y. destruct (IH (acc ++ [(m, t, d)]) w1) as (w' & s & E' & H). exists w', s. split; [exact E'|]. intros m0 t0. rewrite H. split.
    + intros [(i & I)|(I & N)]; [|right; split; [now right|exact N]]. apply in_app_iff in I. destruct I as [I|[I|[]]]; [left; eauto|]. injection I as <- <- _. right. split; [now left|congruence].
    + intros [(i & I)|([I|I] & N)]; [left; exists i; apply in_app_iff; now left| |right; now split]. injection I as <- <-. left. exists d. apply in_app_iff. right. now left.
  - destruct (S2 w m t A) as (w1 & r & E & R). rewrite E.
    assert (G : exists w' s, legacy_try W ask items acc w1 = (w', Ok s) /\
      (forall m0 t0, (exists i, In (m0, t0, i) s) <-> (exists i, In (m0, t0, i) acc) \/ In (m0, t0) ((m, t) :: items) /\ ans m0 t0 <> None)).
    { destruct (IH acc w1) as (w' & s & E' & H). exists w', s. split; [exact E'|]. intros m0 t0. rewrite H. split; (intros [I|(I & N)]; [now left|right]).
      - split; [now right|exact N].
      - destruct I as [I|I]; [injection I as <- <-; congruence|now split]. }
    destruct r as [d|e]; cbn [bind].
    + destruct R as (x & R & N). unfold dindex. rewrite R. cbn [bind jcontains]. assert (Y : dmem "err_msg" x = true) by (unfold dmem; now destruct (dget "err_msg" x)). rewrite Y. exact G.
    + rewrite R. exact G.
Qed.
Lemma put2_path m t v d a b : at_path [Key a; Key b] (JObj (put2 m t v d)) =
  if String.eqb a m && String.eqb b t then Some v else if String.eqb a m then match dget m d with Some (JObj x) => dget b x | _ => None end else at_path [Key a; Key b] (JObj d).
Proof.
  cbn [at_path]. unfold put2. rewrite dget_dset. destruct (String.eqb_spec a m) as [->|]; cbn [andb]; [|reflexivity].
  rewrite dget_dset. destruct (String.eqb_spec b t) as [->|]; [reflexivity|]. destruct (dget m d) as [[| | | | | |x]|]; try reflexivity. destruct (dget b x); reflexivity.
Qed.
Lemma question_paths (s : list (string * string * dict json)) a b : forall d, (forall x, dget a d = Some x -> exists y, x = JObj y) ->
  (exists x, at_path [Key a; Key b] (JObj (fold_left (fun d s => match s with (m, t, _) => put2 m t (JObj []) d end) s d)) = Some x) <->
  (exists x, at_path [Key a; Key b] (JObj d) = Some x) \/ exists i, In (a, b, i) s.
Proof.
  induction s as [|[[m t] i] s IH]; intros d Hd; cbn [fold_left].
  { split; [now left|intros [H|(i & [])]; exact H]. }
  rewrite IH.
  - rewrite put2_path. split.
    + intros [(x & H)|(j & I)]; [|right; exists j; now right]. destruct (String.eqb_spec a m) as [->|], (String.eqb_spec b t) as [->|]; cbn [andb] in H.
      * right. exists i. now left.
      * left. exists x. cbn [at_path]. destruct (dget m d) as [[| | | | | |z]|]; try discriminate H. rewrite H. reflexivity.
      * left. now exists x.
      * left. now exists x.
    + intros [(x & H)|(j & [I|I])].
      * left. destruct (String.eqb_spec a m) as [->|], (String.eqb_spec b t) as [->|]; cbn [andb]; [eauto| |eauto|eauto].
        exists x. cbn [at_path] in H. destruct (dget m d) as [[| | | | | |z]|]; try discriminate H. destruct (dget b z); [exact H|discriminate H].
      * injection I as -> -> _. left. rewrite !String.eqb_refl. cbn. eauto.
      * right. now exists j.
  - intros x. unfold put2. rewrite dget_dset. destruct (String.eqb a m); [|apply Hd]. intros E. injection E as <-. eauto.
Qed.
Theorem legacy_file_has_all : forall ans discovery w w' f, steady_legacy ask ans -> legacy_file str W ask discovery w = (w', Ok f) ->
  exists d, kept iot_redactors ["discovery_result"] (JObj d) (f_data f) /\
    forall m ts t v, In (m, ts) legacy_questions -> In t ts -> ans m t = Some v -> at_path [Key m; Key t] (JObj d) = Some v.
Proof.
  intros ans disc w w' f St H. destruct (legacy_steps _ _ _ _ _ _ _ H) as (d & _ & _ & _ & Fd & _ & _ & _ & s & w1 & w2 & T & Q). cbn zeta in Q.
  destruct (legacy_try_known ans St legacy_items [] w) as (w1' & s' & T' & K). rewrite T in T'. injection T' as <- <-.
  set (q := fold_left (fun d s => match s with (m, t, _) => put2 m t (JObj []) d end) s []) in *.
  assert (P : forall m t, (exists x, at_path [Key m; Key t] (JObj q) = Some x) <-> In (m, t) legacy_items /\ ans m t <> None).
  { intros m t. unfold q. rewrite question_paths by discriminate. rewrite K. split.
    - intros [(x & X)|[(i & [])|X]]; [discriminate X|exact X].
    - intros X. right. now right. }
  destruct St as (S1 & _). destruct (S1 w1 q) as (w2' & d' & E & D).
  { intros m t x X. now apply P; exists x. }
  assert (d' = d) as -> by (destruct Q as [Q|(e & Q & _)]; congruence). exists d. split.
  - assert (Kp : kept iot_redactors ["discovery_result"] (JObj d) (JObj (redacted iot_redactors d))) by (rewrite redacted_obj; apply kept_weaken, kept_redact).
    destruct Fd as [(-> & _)|(e & l & _ & ->)]; [exact Kp|]. eapply kept_trans; [exact Kp|]. apply kept_dset. right. left. now left.
  - intros m ts t v I It A.
    assert (L : In (m, t) legacy_items).
    { assert (F : forallb (fun e => forallb (fun t => existsb (fun i => String.eqb (fst i) (fst e) && String.eqb (snd i) t) legacy_items) (snd e)) legacy_questions = true) by (vm_compute; reflexivity).
      rewrite forallb_forall in F. specialize (F _ I). rewrite forallb_forall in F. specialize (F _ It). apply existsb_exists in F. destruct F as ((a, b) & Ia & Eb). cbn in Eb.
      apply andb_prop in Eb. destruct Eb as (Ea & Eb). apply String.eqb_eq in Ea, Eb. now subst. }
    destruct (proj2 (P m t)) as (x & X); [split; [exact L|congruence]|]. destruct (D m t x X) as (D1 & _). congruence.
Qed.
End Legacy.
Print Assumptions legacy_file_publishable.
Print Assumptions legacy_file_keeps_answers.
Print Assumptions legacy_file_has_all.
(** A plug that answers the question for two things at once, and one that does not *)
Definition single_answer (m t : string) : dict json :=
  if String.eqb m "system" && String.eqb t "get_sysinfo" then
    [(m, JObj [(t, JObj [("model", JStr "HS110(EU)"); ("hw_ver", JStr "1.0"); ("sw_ver", JStr "1.2.5 Build 1"); ("alias", JStr "Kitchen"); ("relay_state", JInt 1)])])]
  else if String.eqb m "emeter" && String.eqb t "get_realtime" then [(m, JObj [(t, JObj [("power", JInt 7)])])]
  else [(m, JObj [("err_code", JInt (-1)); ("err_msg", JStr "module not support")])].
Definition ask_plug (at_once : bool) (w : unit) (q : dict json) : unit * res (dict json) :=
  match q with
  | [(m, JObj [(t, _)])] => (w, Ok (single_answer m t))
  | _ => (w, if at_once then Ok (single_answer "system" "get_sysinfo" ++ single_answer "emeter" "get_realtime") else Err KTimeout)
  end.
Definition plain_str (v : json) : string := match v with JStr s => s | _ => "" end.
Example legacy_ex : snd (legacy_file plain_str unit (ask_plug true) None tt) =
  Ok (mkFix "HS110(EU)_1.0_1.2.5" "tests/fixtures/iot/"
        (JObj [("system", JObj [("get_sysinfo", JObj [("model", JStr "HS110(EU)"); ("hw_ver", JStr "1.0"); ("sw_ver", JStr "1.2.5 Build 1"); ("alias", JStr "#MASKED_NAME#"); ("relay_state", JInt 1)])]);
               ("emeter", JObj [("get_realtime", JObj [("power", JInt 7)])])]) "IOT").
Proof. vm_compute. reflexivity. Qed.
(** It answers steadily: the one that answers what it knows of each module it is asked about *)
Definition known (m t : string) : option json :=
  if String.eqb m "system" && String.eqb t "get_sysinfo" then Some (JObj [("model", JStr "HS110(EU)"); ("hw_ver", JStr "1.0"); ("sw_ver", JStr "1.2.5 Build 1"); ("alias", JStr "Kitchen")])
  else if String.eqb m "cnCloud" && String.eqb t "get_info" then Some (JObj [("binded", JInt 1)]) else None.
Definition answer_known (m : string) (ts : json) : json :=
  match ts with
  | JObj ts => if forallb (fun e => match known m (fst e) with Some _ => true | None => false end) ts
               then JObj (map (fun e => (fst e, match known m (fst e) with Some v => v | None => JNull end)) ts) else JObj [("err_msg", JStr "member not support")]
  | _ => JNull
  end.
Definition ask_steady (w : unit) (q : dict json) : unit * res (dict json) := (w, Ok (map (fun e => (fst e, answer_known (fst e) (snd e))) q)).
Lemma dget_map {A B} (g : string -> A -> B) k (d : dict A) : dget k (map (fun e => (fst e, g (fst e) (snd e))) d) = option_map (g k) (dget k d).
Proof. induction d as [|[a x] d IH]; [reflexivity|]. cbn. destruct (String.eqb_spec k a) as [->|]; [reflexivity|exact IH]. Qed.
Example legacy_steady_ex : steady_legacy ask_steady known /\ exists f, snd (legacy_file plain_str unit ask_steady None tt) = Ok f /\
  at_path [Key "cnCloud"; Key "get_info"; Key "binded"] (f_data f) = Some (JInt 1).
Proof.
  split; [|eexists; split; [vm_compute; reflexivity|reflexivity]]. split.
  - intros w q Hq. do 2 eexists. split; [reflexivity|]. intros m t x X. destruct (at2 _ _ _ _ X) as (ts & M & T). cbn [at_path].
    rewrite (dget_map (fun k v => answer_known k v)), M. cbn [option_map]. unfold answer_known.
    assert (F : forallb (fun e => match known m (fst e) with Some _ => true | None => false end) ts = true).
    { apply forallb_forall. intros [k y] I. cbn. destruct (known m k) eqn:K; [reflexivity|]. destruct (dget k ts) as [z|] eqn:D.
      - destruct (Hq m k z); [cbn [at_path]; now rewrite M, D|exact K].
      - apply dget_None in D. destruct D. exact (in_map fst _ _ I). }
    rewrite F. split.
    + rewrite (dget_map (fun k (_ : json) => match known m k with Some v => v | None => JNull end)), T. cbn [option_map].
      specialize (Hq m t x X). destruct (known m t); [reflexivity|congruence].
    + rewrite (dget_map (fun k (_ : json) => match known m k with Some v => v | None => JNull end)). destruct (dget "err_msg" ts) as [z|] eqn:D; [|reflexivity].
      destruct (Hq m "err_msg" z); [cbn [at_path]; now rewrite M, D|]. unfold known. cbn. now rewrite !Bool.andb_false_r.
  - intros w m t K. do 2 eexists. split; [reflexivity|]. cbn. rewrite K. exists [("err_msg", JStr "member not support")]. rewrite String.eqb_refl. split; [reflexivity|discriminate].
Qed.
(** The tool means to write the single answers when the combined question fails; it fails itself, because
    it puts the whole of each answer, module and method and all, where the answer of the method belongs. *)
Theorem legacy_fallback_refuted :
  (forall m t, snd (ask_plug false tt [(m, JObj [(t, JObj [])])]) = Ok (single_answer m t)) /\
  snd (legacy_file plain_str unit (ask_plug false) None tt) = Err PyKeyError.
Proof. split; [reflexivity|]. vm_compute. reflexivity. Qed.
Print Assumptions legacy_fallback_refuted.

(** ** What is in the files *)
Lemma Forall2_len {A B} (R : A -> B -> Prop) l l' : Forall2 R l l' -> List.length l = List.length l'.
Proof. induction 1; cbn; congruence. Qed.
Section Content.
Variable smart_name cam_name : dict json -> option (res json) -> res string.
Variable cam_child_name : dict json -> res string.
Let files_of := smart_files smart_name cam_name cam_child_name.

(** The id of a child is replaced by a name for it, the same in the list of the components, in the list of
    the children, and in the file of the child; different children have different names. *)
Theorem child_ids_shown : forall final children discovery main rest c p n i gc,
  files_of final children discovery = Ok (main :: rest) -> In (c, p) listings -> dget c final = Some gc -> truthy gc = true -> i <> "" ->
  at_path (p ++ [Idx n; Key "device_id"]) (JObj final) = Some (JStr i) ->
  exists j, nth_error (dkeys children) j = Some i /\ at_path (p ++ [Idx n; Key "device_id"]) (f_data main) = Some (JStr (stand_in_id j)).
Proof.
  intros final children disc main rest c p n i gc H L G T N A. apply smart_files_steps in H. destruct H as (ch & fin & infos & fin2 & rest' & main' & _ & B & _ & D & E & M).
  injection E as -> ->. destruct (scrub_main_id _ _ _ _ _ n i gc B L G T N A) as (id & I & A1). destruct (id_map_get _ _ _ _ I) as (j & J & ->). exists j. split; [exact J|].
  cbn [Nat.add] in A1. destruct (listings_clean c p n L) as (Cl & q & Q & Hq).
  assert (A2 : at_path (p ++ [Idx n; Key "device_id"]) (JObj (redacted smart_redactors fin)) = Some (JStr (stand_in_id j))).
  { rewrite redacted_obj. change [Idx n; Key "device_id"] with ([Idx n] ++ [Key "device_id"]) in *. rewrite app_assoc in *. now apply redact_stand_in. }
  destruct p as [|p0 p]; [discriminate Hq|]. cbn [hd_error] in Hq. injection Hq as ->.
  assert (Nq : q <> "child_devices" /\ q <> "discovery_result") by (cbn in Q; intuition congruence).
  assert (A3 : at_path ((Key q :: p) ++ [Idx n; Key "device_id"]) (JObj fin2) = Some (JStr (stand_in_id j))).
  { cbn [app at_path] in *. rewrite (child_files_other _ _ _ _ q (proj1 Nq) _ _ _ _ _ D). exact A2. }
  destruct M as [(-> & _)|(e & l & _ & ->)]; [exact A3|]. cbn [app at_path] in *. rewrite dget_dset_other by tauto. exact A3.
Qed.
Theorem child_names_differ : forall a b, stand_in_id a = stand_in_id b -> a = b.
Proof. exact stand_in_inj. Qed.

(** The files of the children, in the order of the children: each has the name of its child, and all that
    the child answered, if it is not private. *)
Theorem child_files_shown : forall final children discovery files pm,
  files_of final children discovery = Ok files -> model_is final pm -> NoDup (dkeys children) ->
  (forall i r, In (i, r) children -> i <> "" /\ dget "child_info_from_parent" r = None /\ exists m, model_is r m /\ m <> pm) ->
  exists main rest, files = main :: rest /\ List.length rest = List.length children /\
    forall j i r, nth_error children j = Some (i, r) -> exists f, nth_error rest j = Some f /\ kept smart_redactors [] (JObj r) (f_data f) /\
      (forall v, at_path [Key "get_device_info"; Key "device_id"] (JObj r) = Some v -> at_path [Key "get_device_info"; Key "device_id"] (f_data f) = Some (JStr (stand_in_id j))) /\
      (forall v, at_path [Key "child_info_from_parent"] (f_data f) = Some v -> at_path [Key "device_id"] v = Some (JStr (stand_in_id j))).
Proof.
  intros final children disc files pm H Pm Nd Ch. apply (files_apart _ _ _ _ _ _ _ pm) in H; [|exact Pm|intros i r I; apply (Ch i r I)].
  destruct H as (fin & infos & rest & main & B & C & -> & M & F). exists main, rest. split; [reflexivity|]. split; [symmetry; now apply Forall2_len in F|].
  intros j i r J.
  assert (Fj : exists f id r', nth_error rest j = Some f /\ dget i (id_map_from 0 (dkeys children)) = Some id /\ scrub_response id r = Ok r' /\ file_of infos id r' f).
  { clear - F J. revert F J. generalize (id_map_from 0 (dkeys children)). intros m F. revert j. induction F as [|c f l l' (id & r' & X) F IH]; intros j J; [destruct j; discriminate J|].
    destruct j as [|j]; [|exact (IH j J)]. injection J as ->. exists f, id, r'. cbn in X. split; [reflexivity|exact X]. }
  destruct Fj as (f & id & r' & Fj & I & S & Fo). exists f. split; [exact Fj|].
  destruct (Ch i r (nth_error_In _ _ J)) as (Ni & Nc & _).
  assert (Jk : nth_error (dkeys children) j = Some i) by (unfold dkeys; now apply (map_nth_error fst) in J).
  rewrite (id_map_has _ 0 j i Nd Jk Ni) in I. injection I as <-.
  destruct (scrub_response_kept _ _ _ S) as (K & Kn).
  assert (Nr : dget "child_info_from_parent" (redacted smart_redactors r') = None).
  { pose proof (redacted_obj smart_redactors r') as R. rewrite redact_obj in R. injection R as ->. rewrite (dget_map_entry (entry _)). now rewrite (Kn _ Nc). }
  assert (K1 : kept smart_redactors [] (JObj r) (JObj (redacted smart_redactors r'))) by (rewrite redacted_obj; eapply kept_trans; [exact K|apply kept_redact]).
  assert (Id : forall v, at_path [Key "get_device_info"; Key "device_id"] (JObj r) = Some v -> at_path [Key "get_device_info"; Key "device_id"] (JObj (redacted smart_redactors r')) = Some (JStr (stand_in_id j))).
  { intros v V. rewrite redacted_obj. apply (redact_stand_in [Key "get_device_info"]); [intros k [E|[]]; injection E as <-; reflexivity|]. exact (scrub_response_id _ _ _ _ S V). }
  destruct Fo as [->|(info & If & ->)].
  - split; [exact K1|]. split; [exact Id|]. intros v V. cbn [at_path] in V. rewrite Nr in V. discriminate V.
  - split; [|split].
    + intros p x Cp Bp Lx A. apply K1 in A; auto. destruct p as [|[k|n] p]; [destruct Lx as [_ Lx]; injection A as <-; now destruct (Lx (redacted smart_redactors r'))| |discriminate A].
      cbn [at_path] in A |- *. rewrite dget_dset. destruct (String.eqb_spec k "child_info_from_parent"); [|exact A]. subst k. rewrite Nr in A. discriminate A.
    + intros v V. cbn [at_path]. rewrite dget_dset_other by discriminate. exact (Id v V).
    + intros v V. cbn [at_path] in V. rewrite dget_dset_same in V. injection V as <-.
      assert (P0 : publishable smart_redactors [] (JObj (redacted smart_redactors fin))) by (rewrite redacted_obj; apply redact_publishable; cbn; tauto).
      apply (infos_pub _ _ P0 C _ _ If).
Qed.
(** The file of the device has all that the device answered, if it is not private. *)
Theorem file_keeps_answers : forall final children discovery main rest, files_of final children discovery = Ok (main :: rest) ->
  kept smart_redactors ["discovery_result"; "child_devices"] (JObj final) (f_data main).
Proof.
  intros final children disc main rest H. apply smart_files_steps in H. destruct H as (ch & fin & infos & fin2 & rest' & main' & _ & B & _ & D & E & M). injection E as -> ->.
  apply scrub_main_kept in B.
  assert (K : kept smart_redactors ["discovery_result"; "child_devices"] (JObj final) (JObj fin2)).
  { intros p x C Bt L A. apply B in A; auto. apply (kept_redact smart_redactors (JObj fin)) in A; auto. rewrite <- redacted_obj in A.
    destruct p as [|[k|n] p]; [destruct L as [_ L]; injection A as <-; now destruct (L (redacted smart_redactors fin))| |discriminate A].
    cbn [at_path] in A |- *. rewrite (child_files_other _ _ _ _ k) with (1 := fun E => Bt k eq_refl (or_intror (or_introl (eq_sym E)))) (2 := D). exact A. }
  destruct M as [(-> & _)|(e & l & _ & ->)]; [exact K|]. eapply kept_trans; [exact K|]. apply kept_dset. right. left. now left.
Qed.
(** A child that is listed, but answered nothing: no file is written at all. *)
Theorem silent_child_no_file : forall final children discovery files c p n i gc,
  In (c, p) listings -> dget c final = Some gc -> truthy gc = true -> i <> "" ->
  at_path (p ++ [Idx n; Key "device_id"]) (JObj final) = Some (JStr i) -> ~ In i (dkeys children) -> files_of final children discovery <> Ok files.
Proof.
  intros final children disc files c p n i gc L G T N A NI H. pose proof H as H0. apply smart_files_steps in H0. destruct H0 as (_ & _ & _ & _ & rest & main & _ & _ & _ & _ & -> & _).
  destruct (child_ids_shown _ _ _ _ _ _ _ n i gc H L G T N A) as (j & J & _). apply NI. now apply nth_error_In in J.
Qed.
End Content.
Print Assumptions child_ids_shown.
Print Assumptions child_names_differ.
Print Assumptions child_files_shown.
Print Assumptions file_keeps_answers.
Print Assumptions silent_child_no_file.
Example hub_ids_ex : exists m a b, hub_files = Ok [m; a; b] /\
  at_path [Key "get_child_device_list"; Key "child_device_list"; Idx 0; Key "device_id"] (f_data m) = Some (JStr "SCRUBBED_CHILD_DEVICE_ID_1") /\
  at_path [Key "get_child_device_component_list"; Key "child_component_list"; Idx 0; Key "device_id"] (f_data m) = Some (JStr "SCRUBBED_CHILD_DEVICE_ID_2") /\
  at_path [Key "get_child_device_component_list"; Key "child_component_list"; Idx 0; Key "n"] (f_data m) = Some (JInt 7) /\
  at_path [Key "get_device_info"; Key "device_id"] (f_data b) = Some (JStr "SCRUBBED_CHILD_DEVICE_ID_2").
Proof. do 3 eexists. split; [vm_compute; reflexivity|]. repeat split. Qed.

(** *** From the answers of the device *)
Section Asking.
Variable W : Type.
Variable ask : W -> string -> dict json -> W * res (dict json).
Variable ans : string -> string -> json -> option json.
(** The answers that are written about the device called [child], itself if that is empty *)
Definition part (final : dict json) (children : dict (dict json)) (child : string) (d : dict json) : Prop :=
  if String.eqb child "" then d = final else dget child children = Some d.
(** The device gives the same answers whenever it is asked.  Then all answers to all questions are
    written, if no two questions have the same name; and nothing else. *)
Theorem all_answers_written_partial : forall b tests known w, steady ask ans -> 1 <= b ->
  (forall c, In c known -> ans (s_child c) (s_key c) (s_params c) <> None) ->
  (exists c, In c (known ++ tests) /\ s_child c = "" /\ ans (s_child c) (s_key c) (s_params c) <> None) ->
  exists w' final children, collect W ask b tests known w = (w', Ok (final, children)) /\
    (forall c v, In c (known ++ tests) -> ans (s_child c) (s_key c) (s_params c) = Some v -> s_multi c = true -> s_key c <> "" ->
       (forall c', In c' (known ++ tests) -> s_child c' = s_child c ->
          (s_multi c' = true -> s_key c' = s_key c -> s_params c' = s_params c) /\ (s_multi c' = false -> s_module c' <> s_key c)) ->
       exists d, part final children (s_child c) d /\ dget (s_key c) d = Some v) /\
    (forall c v, In c (known ++ tests) -> ans (s_child c) (s_key c) (s_params c) = Some v -> s_multi c = false ->
       (forall c', In c' (known ++ tests) -> s_child c' = s_child c -> s_multi c' = false -> s_module c' = s_module c -> s_key c' = s_key c /\ s_params c' = s_params c) ->
       exists d, part final children (s_child c) d /\ dget (s_module c) d = Some (JObj [(s_key c, v)])) /\
    (forall child d k v, part final children child d -> dget k d = Some v ->
       exists c a, In c (known ++ tests) /\ s_child c = child /\ ans child (s_key c) (s_params c) = Some a /\ (s_key c = k /\ v = a \/ s_module c = k /\ v = JObj [(s_key c, a)])).
Proof.
  intros b tests known w St B Kn (c0 & I0 & C0 & A0).
  assert (Gd : forall c, In c (good ans tests known) <-> In c (known ++ tests) /\ ans (s_child c) (s_key c) (s_params c) <> None).
  { intros c. unfold good. rewrite !in_app_iff, filter_In. split.
    - intros [I|(I & A)]; [split; [now left|now apply Kn]|split; [now right|]]. destruct (ans (s_child c) (s_key c) (s_params c)); [discriminate|discriminate A].
    - intros ([I|I] & A); [now left|right]. split; [exact I|]. destruct (ans (s_child c) (s_key c) (s_params c)); [reflexivity|congruence]. }
  destruct (collect_steady W ask ans St b tests known w B Kn) as (w' & ch & E & H & Hch); [exists c0; split; [apply Gd; auto|exact C0]|].
  set (g := good ans tests known) in *. set (fin := expected ans "" (filter (fun s => String.eqb (s_child s) "") g)) in *. exists w', fin, ch. split; [exact E|].
  assert (Pt : forall c, In c g -> part fin ch (s_child c) (expected ans (s_child c) (filter (fun s => String.eqb (s_child s) (s_child c)) g))).
  { intros c I. unfold part. destruct (String.eqb_spec (s_child c) "") as [Z|Z]; [rewrite Z; reflexivity|]. now apply H. }
  split; [|split].
  - intros c v I A M K U. assert (Ig : In c g) by (apply Gd; split; [exact I|congruence]). eexists. split; [apply Pt; exact Ig|]. apply expected_multi; auto.
    + apply filter_In. split; [exact Ig|apply String.eqb_refl].
    + unfold multi. rewrite M. cbn. destruct (String.eqb_spec (s_key c) ""); [congruence|reflexivity].
    + intros c' I'. apply filter_In in I'. destruct I' as (I' & Z). apply String.eqb_eq in Z. apply Gd in I'. destruct (U c' (proj1 I') Z) as (U1 & U2).
      split; [|exact U2]. intros M'. apply U1. unfold multi in M'. now apply andb_prop in M'.
  - intros c v I A M U. assert (Ig : In c g) by (apply Gd; split; [exact I|congruence]). eexists. split; [apply Pt; exact Ig|]. apply expected_single; auto.
    + apply filter_In. split; [exact Ig|apply String.eqb_refl].
    + intros c' I'. apply filter_In in I'. destruct I' as (I' & Z). apply String.eqb_eq in Z. apply Gd in I'. apply U; [exact (proj1 I')|exact Z].
  - intros child d k v P D.
    assert (Ex : d = expected ans child (filter (fun s => String.eqb (s_child s) child) g)).
    { unfold part in P. destruct (String.eqb_spec child "") as [Z|Z]; [rewrite Z; exact P|].
      assert (Q : exists c, In c g /\ s_child c = child).
      { rewrite Hch in P.
        assert (G : forall l acc, (forall x y, In (x, y) l -> exists c, In c g /\ s_child c = x) -> dget child acc = None \/ (exists c, In c g /\ s_child c = child) ->
                  dget child (fold_left (fun a e => if String.eqb (fst e) "" then a else dset (fst e) (expected ans (fst e) (snd e)) a) l acc) = Some d -> exists c, In c g /\ s_child c = child).
        { induction l as [|[x y] l IH]; intros acc Hl Ha G; cbn [fold_left fst snd] in G; [destruct Ha as [Ha|Ha]; [congruence|exact Ha]|].
          apply (IH _ (fun x y I => Hl x y (or_intror I))) in G; [exact G|]. destruct (String.eqb_spec x ""); [exact Ha|]. rewrite dget_dset.
          destruct (String.eqb_spec child x) as [Q|]; [right; subst; exact (Hl x y (or_introl eq_refl))|exact Ha]. }
        apply (G _ _) in P; [exact P| |now left]. intros x y I. unfold device_requests in I. apply In_dget in I; [|apply device_requests_wf; constructor].
        rewrite device_requests_get in I. cbn [dget app] in I. destruct (filter (fun s => String.eqb (s_child s) x) g) as [|c l] eqn:F; [discriminate I|].
        assert (Fc : In c (filter (fun s => String.eqb (s_child s) x) g)) by (rewrite F; now left). apply filter_In in Fc. destruct Fc as (Ic & Zc). apply String.eqb_eq in Zc. eauto. }
      destruct Q as (c & Ic & <-). rewrite (H c Ic Z) in P. now injection P as <-. }
    subst d. apply expected_only in D. destruct D as (c & Ic & D). apply filter_In in Ic. destruct Ic as (Ic & Z). apply String.eqb_eq in Z. apply Gd in Ic. destruct Ic as (Ic & A). rewrite Z in A.
    destruct (ans child (s_key c) (s_params c)) as [a|] eqn:Ea; [|congruence]. exists c, a. repeat split; auto.
Qed.
(** It does not matter how many questions are put at once. *)
Theorem batch_size_does_not_matter : forall b b' tests known w, steady ask ans -> 1 <= b -> 1 <= b' ->
  (forall c, In c known -> ans (s_child c) (s_key c) (s_params c) <> None) ->
  (exists c, In c (known ++ tests) /\ s_child c = "" /\ ans (s_child c) (s_key c) (s_params c) <> None) ->
  snd (collect W ask b tests known w) = snd (collect W ask b' tests known w).
Proof.
  intros b b' tests known w St B B' Kn (c0 & I0 & C0 & A0).
  assert (Ex : exists c, In c (good ans tests known) /\ s_child c = "").
  { exists c0. split; [|exact C0]. unfold good. apply in_app_iff. apply in_app_iff in I0. destruct I0 as [I0|I0]; [now left|right]. apply filter_In. split; [exact I0|].
    destruct (ans (s_child c0) (s_key c0) (s_params c0)); [reflexivity|congruence]. }
  destruct (collect_steady W ask ans St b tests known w B Kn Ex) as (w1 & ch1 & E1 & _ & H1). destruct (collect_steady W ask ans St b' tests known w B' Kn Ex) as (w2 & ch2 & E2 & _ & H2).
  rewrite E1, E2. cbn [snd]. now rewrite H1, H2.
Qed.
End Asking.
Print Assumptions all_answers_written_partial.
Print Assumptions batch_size_does_not_matter.

(** A device that gives the answers of a table *)
Definition steady_ask (ans : string -> string -> json -> option json) (w : unit) (c : string) (r : dict json) : unit * res (dict json) :=
  if forallb (fun kv => match ans c (fst kv) (snd kv) with Some _ => true | None => false end) r then (w, Ok (answers_of ans c r)) else (w, Err (KDevice None)).
Lemma steady_ask_steady ans : steady (steady_ask ans) ans.
Proof.
  split.
  - intros w c r A. exists w. unfold steady_ask. assert (F : forallb (fun kv => match ans c (fst kv) (snd kv) with Some _ => true | None => false end) r = true); [|now rewrite F].
    apply forallb_forall. intros [k p] I. cbn. specialize (A k p I). destruct (ans c k p); [reflexivity|congruence].
  - intros w c k p A. exists w, (KDevice None). unfold steady_ask. cbn. rewrite A. repeat split. discriminate.
Qed.
Definition cam_ans (c k : string) (p : json) : option json :=
  if String.eqb k "get" then Some (JObj [(first_key p, JStr ("of " ++ c))])
  else if String.eqb k "getDeviceInfo" then Some (JObj [("device_info", JObj [("basic_info", JObj [("device_model", JStr (if String.eqb c "" then "H200" else "C420"))])])])
  else None.
Definition some_requests : list (string * json) :=
  [("getDeviceInfo", JObj [("device_info", JObj [("name", JArr [JStr "basic_info"])])]);
   ("get", JObj [("function", JObj [("name", JArr [JStr "module_spec"])])]); ("get", JObj [("motor", JObj [("name", JArr [JStr "capability"])])])].
Example collect_ex : exists d, snd (collect unit (steady_ask cam_ans) 5 (camera_calls some_requests) [] tt) = Ok (d, []) /\ dkeys d = ["getDeviceInfo"; "get_function"; "get_motor"] /\
  dget "get_function" d = Some (JObj [("get", JObj [("function", JStr "of ")])]).
Proof. eexists. split; [vm_compute; reflexivity|]. split; reflexivity. Qed.
(** A camera is asked all of the table, and all that it answers is written: under the name of the question,
    and for the questions by "get" under "get_" and the name of what is asked for. *)
Lemma NoDup_name {A} (f : A -> string) (l : list A) x y : NoDup (map f l) -> In x l -> In y l -> f x = f y -> x = y.
Proof.
  induction l as [|a l IH]; cbn; [contradiction|]. intros N X Y E. inversion N as [|? ? N1 N2]; subst. destruct X as [->|X], Y as [->|Y]; auto.
  - destruct N1. rewrite E. now apply in_map.
  - destruct N1. rewrite <- E. now apply in_map.
Qed.
Theorem camera_answers_written : forall W (ask : W -> string -> dict json -> W * res (dict json)) ans b w, steady ask ans -> 1 <= b ->
  (exists m p, In (m, p) smartcam_requests /\ ans "" m p <> None) ->
  exists w' final children, collect W ask b (camera_calls smartcam_requests) [] w = (w', Ok (final, children)) /\
    forall m p v, In (m, p) smartcam_requests -> ans "" m p = Some v ->
      (m <> "get" -> dget m final = Some v) /\
      (m = "get" -> exists k x, p = JObj [(k, x)] /\ dget ("get_" ++ k)%string final = Some (JObj [("get", v)])).
Proof.
  intros W ask ans b w St B (m0 & p0 & I0 & A0).
  assert (N : NoDup (map (fun r => camera_module (fst r) (snd r)) smartcam_requests)).
  { assert (Q : nodup string_dec (map (fun r => camera_module (fst r) (snd r)) smartcam_requests) = map (fun r => camera_module (fst r) (snd r)) smartcam_requests) by (vm_compute; reflexivity).
    rewrite <- Q. apply NoDup_nodup. }
  assert (K : forall m p, In (m, p) smartcam_requests -> m <> "" /\ (m = "get" -> exists k x, p = JObj [(k, x)])).
  { assert (F : Forall (fun r => fst r <> "" /\ (fst r = "get" -> exists k x, snd r = JObj [(k, x)])) smartcam_requests).
    { unfold smartcam_requests. repeat constructor; cbn; try discriminate; intros _; eauto. }
    intros m p I. exact (proj1 (Forall_forall _ _) F (m, p) I). }
  assert (U : forall m p m' p', In (m, p) smartcam_requests -> In (m', p') smartcam_requests -> camera_module m p = camera_module m' p' -> m = m' /\ p = p').
  { intros m p m' p' I I' E. assert (Q : (m, p) = (m', p')) by exact (NoDup_name (fun r => camera_module (fst r) (snd r)) _ _ _ N I I' E). now injection Q. }
  assert (In1 : forall m p, In (m, p) smartcam_requests -> In (mkCall (camera_module m p) m p "" (negb (String.eqb m "get"))) ([] ++ camera_calls smartcam_requests)).
  { intros m p I. cbn [app]. unfold camera_calls. exact (in_map (fun r => mkCall (camera_module (fst r) (snd r)) (fst r) (snd r) "" (negb (String.eqb (fst r) "get"))) _ _ I). }
  assert (In2 : forall c, In c ([] ++ camera_calls smartcam_requests) -> exists m p, In (m, p) smartcam_requests /\ c = mkCall (camera_module m p) m p "" (negb (String.eqb m "get"))).
  { intros c I. cbn [app] in I. unfold camera_calls in I. apply in_map_iff in I. destruct I as ((m, p) & E & I). exists m, p. split; [exact I|now rewrite <- E]. }
  destruct (all_answers_written_partial W ask ans b (camera_calls smartcam_requests) [] w St B (fun c (I : In c []) => match I with end)) as (w' & final & children & E & H1 & H2 & _).
  { eexists. split; [apply In1; exact I0|]. split; [reflexivity|exact A0]. }
  exists w', final, children. split; [exact E|]. intros m p v I A. destruct (K m p I) as (K1 & K2). split; intros G.
  - assert (Gb : String.eqb m "get" = false) by now apply String.eqb_neq.
    destruct (H1 _ v (In1 m p I) A) as (d & P & D); cbn [s_child s_key s_params s_multi s_module] in *; [now rewrite Gb|exact K1| |change (d = final) in P; rewrite <- P; exact D].
    intros c' I' _. apply In2 in I'. destruct I' as (m' & p' & I' & ->). cbn [s_key s_params s_multi s_module]. split.
    + intros M' ->. apply (U m p' m p I' I). unfold camera_module. now rewrite Gb.
    + intros M' Q. destruct (String.eqb_spec m' "get") as [->|]; [|discriminate M']. apply G. symmetry. apply (U "get" p' m p I' I). rewrite Q. unfold camera_module. now rewrite Gb.
  - subst m. destruct (K2 eq_refl) as (k & x & ->). exists k, x. split; [reflexivity|].
    destruct (H2 _ v (In1 "get" _ I) A) as (d & P & D); cbn [s_child s_key s_params s_multi s_module] in *; [reflexivity| |change (d = final) in P; rewrite <- P; exact D].
    intros c' I' _ M' Q. apply In2 in I'. destruct I' as (m' & p' & I' & ->). cbn [s_key s_params s_multi s_module] in *. exact (U _ _ _ _ I' I Q).
Qed.
Print Assumptions camera_answers_written.
Example camera_written_ex : steady (steady_ask cam_ans) cam_ans /\ (exists m p, In (m, p) smartcam_requests /\ cam_ans "" m p <> None) /\
  List.length (filter (fun r => match cam_ans "" (fst r) (snd r) with Some _ => true | None => false end) smartcam_requests) = 6%nat.
Proof. split; [apply steady_ask_steady|]. split; [|reflexivity]. exists "getDeviceInfo", (JObj [("device_info", JObj [("name", JArr [JStr "basic_info"])])]). split; [do 2 right; now left|discriminate]. Qed.
(** For a child that is a camera the questions by "get" are put like the others: they have the same name,
    and only the last of them is put again and written. *)
Theorem camera_child_answers_refuted : forall b, 1 <= b -> exists w final children d,
  collect unit (steady_ask cam_ans) b (camera_calls some_requests ++ camera_child_calls some_requests "child") [] tt = (w, Ok (final, children)) /\
  dget "child" children = Some d /\ dkeys d = ["getDeviceInfo"; "get"] /\ dget "get" d = Some (JObj [("motor", JStr "of child")]) /\
  cam_ans "child" "get" (JObj [("function", JObj [("name", JArr [JStr "module_spec"])])]) = Some (JObj [("function", JStr "of child")]).
Proof.
  intros b B.
  pose proof (batch_size_does_not_matter unit (steady_ask cam_ans) cam_ans b 5 (camera_calls some_requests ++ camera_child_calls some_requests "child") [] tt (steady_ask_steady cam_ans) B ltac:(lia)) as H.
  destruct (collect unit (steady_ask cam_ans) b _ [] tt) as (w, r). cbn [snd] in H.
  assert (R : r = snd (collect unit (steady_ask cam_ans) 5 (camera_calls some_requests ++ camera_child_calls some_requests "child") [] tt)).
  { apply H; [intros c []|]. exists (mkCall "getDeviceInfo" "getDeviceInfo" (JObj [("device_info", JObj [("name", JArr [JStr "basic_info"])])]) "" true). repeat split; [now left|discriminate]. }
  subst r. exists w. do 3 eexists. split; [apply f_equal; vm_compute; reflexivity|]. repeat split.
Qed.
Print Assumptions camera_child_answers_refuted.

(** A hub for cameras whose list of children has their ids under the other of the two names for it, which
    the tool handles where it replaces the ids, but not where it looks the children up: no file *)
Definition cam_hub : dict json :=
  [("getDeviceInfo", JObj [("device_info", JObj [("basic_info", JObj [("device_model", JStr "H200")])])]);
   ("getChildDeviceComponentList", JObj [("child_component_list", JArr [JObj [("device_id", JStr "X1")]])]);
   ("getChildDeviceList", JObj [("child_device_list", JArr [JObj [("dev_id", JStr "X1")]])])].
Definition cam_child : dict json := [("getDeviceInfo", JObj [("device_info", JObj [("basic_info", JObj [("dev_id", JStr "X1"); ("device_model", JStr "C420")])])])].
Theorem dev_id_children_refuted : exists m', scrub_main (id_map_from 0 ["X1"]) cam_hub = Ok m' /\
  at_path [Key "getChildDeviceList"; Key "child_device_list"; Idx 0; Key "dev_id"] (JObj m') = Some (JStr "SCRUBBED_CHILD_DEVICE_ID_1") /\
  forall sn cn ccn discovery, smart_files sn cn ccn cam_hub [("X1", cam_child)] discovery = Err PyKeyError.
Proof. eexists. split; [vm_compute; reflexivity|]. split; [reflexivity|]. intros. reflexivity. Qed.
Print Assumptions dev_id_children_refuted.
(** One sensor of the hub does not answer: the hub and the other sensor get no file either. *)
Theorem silent_child_refuted : forall sn cn ccn discovery, smart_files sn cn ccn hub [("X1", sensor "X1")] discovery = Err PyKeyError.
Proof. intros. reflexivity. Qed.
Print Assumptions silent_child_refuted.

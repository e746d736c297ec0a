(** Property C147: legacy device objects over protocol, transport and device. *)
From Coq Require Import Lia.
From Verif Require Import Base Base_Lemmas Py Crypto_Model Retry_Model Iot_Model Iot_Spec Iot_Props Stack_Spec Stack_Props Stack2_Spec Stack2_Props.
From Verif Require Import IotUpd_Model WholeIot_Model WholeIot_Spec WholeIot_Proofs.
From Verif Require Klap_Model Klap_Spec KlapPeer_Spec Xor_Model XorPeer_Spec LinkiePeer_Spec Linkie_Props.
Open Scope string_scope.
Open Scope list_scope.
Open Scope Z_scope.

(** ** Over each transport, while nothing goes wrong with the network, the sessions and the device, a
    program has the results and the effects it would have if the device was a function it calls,
    whatever it makes of the replies it gets. *)
Theorem legacy_program_over_tcp : forall R dumps json_loads S app script x (p : iprog R) w' r y o,
  XorPeer_Spec.fits S app ->
  xor_fresh json_loads S app x ->
  iperform dumps (stack_send _ _ S _ _ (xor_client json_loads) plain (@Ok json) script) (stack_reset _ _ S Xor_Model.reset) p
    (mkStack (fst x) 0 []) = (w', r) ->
  XorPeer_Spec.together json_loads S app x (xor_happenings (k_trace w')) y o ->
  XorPeer_Spec.all_healthy S (xor_happenings (k_trace w')) ->
  exists v', iperform dumps (direct_send _ S _ _ plain (@Ok json) script app (XorPeer_Spec.understood json_loads)) (fun y => y) p
    (snd x, 0%nat) = (v', r) /\ fst v' = snd y.
Proof.
  intros R dumps json_loads S app script x p w' r y o H1 H2 H H3 H4.
  refine (iperform_transfer dumps _ _ _ _ _ w' _ (fun v' => fst v' = snd y) p r H _). intros qs rs Hq. eapply whole_xor_iot; eassumption.
Qed.
Print Assumptions legacy_program_over_tcp.
Theorem legacy_program_over_klap : forall R dumps md5 sha1 sha256 enc_block dec_block json_loads S app auth c script x (p : iprog R) w' r y o,
  Klap_Spec.crypto_ok sha256 enc_block dec_block ->
  In auth (Klap_Model.candidates md5 sha1 sha256 c) ->
  klap_fresh md5 sha1 sha256 enc_block dec_block json_loads S app auth c x ->
  iperform dumps (stack_send _ _ S _ _ (klap_client md5 sha1 sha256 enc_block dec_block json_loads c) plain (@Ok json) script)
    (stack_reset _ _ S Klap_Model.klap_reset) p (mkStack (fst x) 0 []) = (w', r) ->
  KlapPeer_Spec.together md5 sha1 sha256 enc_block dec_block json json_loads S app auth c x (klap_happenings (k_trace w')) y o ->
  KlapPeer_Spec.all_healthy sha256 S auth (klap_happenings (k_trace w')) ->
  exists v', iperform dumps (direct_send _ S _ _ plain (@Ok json) script app (KlapPeer_Spec.understood json json_loads)) (fun y => y) p
    (KlapPeer_Spec.dv_state (snd x), 0%nat) = (v', r) /\ fst v' = KlapPeer_Spec.dv_state (snd y).
Proof.
  intros R dumps md5 sha1 sha256 enc_block dec_block json_loads S app auth c script x p w' r y o H1 H2 H3 H H4 H5.
  refine (iperform_transfer dumps _ _ _ _ _ w' _ (fun v' => fst v' = KlapPeer_Spec.dv_state (snd y)) p r H _).
  intros qs rs Hq. eapply whole_klap_iot; eassumption.
Qed.
Print Assumptions legacy_program_over_klap.
Theorem legacy_program_over_linkie : forall R dumps b64d json_loads S app script x (p : iprog R) w' r y o,
  Linkie_Props.reads_base64 b64d ->
  iperform dumps (stack_send _ _ S _ _ (linkie_client b64d json_loads) plain (@Ok json) script) (stack_reset _ _ S linkie_reset) p
    (mkStack tt 0 []) = (w', r) ->
  LinkiePeer_Spec.together b64d json_loads S app x (linkie_happenings (k_trace w')) y o ->
  LinkiePeer_Spec.all_healthy S (linkie_happenings (k_trace w')) ->
  exists v', iperform dumps (direct_send _ S _ _ plain (@Ok json) script app (LinkiePeer_Spec.understood json_loads)) (fun y => y) p
    (x, 0%nat) = (v', r) /\ fst v' = y.
Proof.
  intros R dumps b64d json_loads S app script x p w' r y o H1 H H3 H4.
  refine (iperform_transfer dumps _ _ _ _ _ w' _ (fun v' => fst v' = y) p r H _). intros qs rs Hq. eapply whole_linkie_iot; eassumption.
Qed.
Print Assumptions legacy_program_over_linkie.

(** ** A device that tells its facts: after an update the object shows them. *)
Theorem legacy_update_shows_device : forall D dumps (dev_send : D -> bytes -> D * res json) treset facts init o d d' o' out,
  l_lu o <> [] -> l_mods o <> [] -> ordinary (l_mods o) ->
  tells (l_mods o) dumps dev_send facts ->
  iperform dumps dev_send treset (update_legacy init o IRet) d = (d', (o', out)) ->
  facts d' = facts d /\ refreshed (facts d) o o' /\
  forall s, informs (facts d) s -> out = Ok tt /\ l_sys o' = Some (JObj s).
Proof.
  intros D dumps dev_send treset facts init o d d' o' out L M O T H. unfold update_legacy in H. destruct (l_lu o) as [|u us] eqn:E; [congruence|].
  assert (X : ready init o = o) by (unfold ready; destruct (l_mods o); [congruence|reflexivity]). rewrite X in H.
  destruct (modular_tells dumps dev_send treset facts (l_mods o) T o IRet d _ eq_refl O H) as (d1 & o1 & r & F & Rf & S & G).
  cbn [iperform] in G. injection G as -> -> ->. split; [exact F|]. split; [exact Rf|exact S].
Qed.
Print Assumptions legacy_update_shows_device.
(** The first update: as if the object had known the system information before. *)
Theorem legacy_first_update_shows_device : forall D dumps (dev_send : D -> bytes -> D * res json) treset facts init o d d' o' out s,
  l_lu o = [] -> informs (facts d) s ->
  (let mods := modules_then init o (JObj s) in ordinary mods /\ tells mods dumps dev_send facts) ->
  iperform dumps dev_send treset (update_legacy init o IRet) d = (d', (o', out)) ->
  facts d' = facts d /\ refreshed (facts d) (informed o (modules_then init o (JObj s)) (JObj s)) o' /\
  out = Ok tt /\ l_sys o' = Some (JObj s).
Proof.
  intros D dumps dev_send treset facts init o d d' o' out s L I [O T] H.
  destruct (first_tells dumps dev_send treset facts _ T init o IRet d _ s L I H) as (d1 & F & H1).
  destruct (modular_tells dumps dev_send treset facts _ T (informed o (modules_then init o (JObj s)) (JObj s)) IRet d1 _ eq_refl O H1) as (d2 & o2 & r & F2 & Rf & S & G).
  cbn [iperform] in G. injection G as -> -> ->. rewrite F in *. split; [exact F2|]. split; [exact Rf|]. now apply S.
Qed.
Print Assumptions legacy_first_update_shows_device.

(** ** All of it together: an object, the protocol, TCP, the network and a device that tells its facts. *)
Theorem legacy_first_update_over_tcp_shows_device : forall dumps json_loads S app script x facts init o w' o' out s y os,
  XorPeer_Spec.fits S app ->
  xor_fresh json_loads S app x ->
  iperform dumps (stack_send _ _ S _ _ (xor_client json_loads) plain (@Ok json) script) (stack_reset _ _ S Xor_Model.reset)
    (update_legacy init o IRet) (mkStack (fst x) 0 []) = (w', (o', out)) ->
  XorPeer_Spec.together json_loads S app x (xor_happenings (k_trace w')) y os ->
  XorPeer_Spec.all_healthy S (xor_happenings (k_trace w')) ->
  l_lu o = [] -> informs (facts (snd x)) s ->
  (let mods := modules_then init o (JObj s) in ordinary mods /\
     tells mods dumps (direct_send _ S _ _ plain (@Ok json) script app (XorPeer_Spec.understood json_loads)) (fun d => facts (fst d))) ->
  facts (snd y) = facts (snd x) /\ refreshed (facts (snd x)) (informed o (modules_then init o (JObj s)) (JObj s)) o' /\
  out = Ok tt /\ l_sys o' = Some (JObj s).
Proof.
  intros dumps json_loads S app script x facts init o w' o' out s y os H1 H2 H H3 H4 L I OT.
  destruct (legacy_program_over_tcp _ _ _ _ _ _ _ _ _ _ _ _ H1 H2 H H3 H4) as (v' & E & Ev).
  destruct (legacy_first_update_shows_device _ _ _ _ (fun d => facts (fst d)) init o (snd x, 0%nat) _ o' out s L I OT E) as (F & Rf & Z).
  cbn [fst] in F. rewrite Ev in F. auto.
Qed.
Print Assumptions legacy_first_update_over_tcp_shows_device.
Theorem legacy_update_over_tcp_shows_device : forall dumps json_loads S app script x facts init o w' o' out y os,
  XorPeer_Spec.fits S app ->
  xor_fresh json_loads S app x ->
  iperform dumps (stack_send _ _ S _ _ (xor_client json_loads) plain (@Ok json) script) (stack_reset _ _ S Xor_Model.reset)
    (update_legacy init o IRet) (mkStack (fst x) 0 []) = (w', (o', out)) ->
  XorPeer_Spec.together json_loads S app x (xor_happenings (k_trace w')) y os ->
  XorPeer_Spec.all_healthy S (xor_happenings (k_trace w')) ->
  l_lu o <> [] -> l_mods o <> [] -> ordinary (l_mods o) ->
  tells (l_mods o) dumps (direct_send _ S _ _ plain (@Ok json) script app (XorPeer_Spec.understood json_loads)) (fun d => facts (fst d)) ->
  facts (snd y) = facts (snd x) /\ refreshed (facts (snd x)) o o' /\
  forall s, informs (facts (snd x)) s -> out = Ok tt /\ l_sys o' = Some (JObj s).
Proof.
  intros dumps json_loads S app script x facts init o w' o' out y os H1 H2 H H3 H4 L M O T.
  destruct (legacy_program_over_tcp _ _ _ _ _ _ _ _ _ _ _ _ H1 H2 H H3 H4) as (v' & E & Ev).
  destruct (legacy_update_shows_device _ _ _ _ (fun d => facts (fst d)) init o (snd x, 0%nat) _ o' out L M O T E) as (F & Rf & Z).
  cbn [fst] in F. rewrite Ev in F. auto.
Qed.
Print Assumptions legacy_update_over_tcp_shows_device.

(** ** A command over TCP: the device carries it out once, and the caller has the answer to it. *)
Theorem legacy_command_over_tcp : forall dumps json_loads S app script x target cmd arg ids w' r y os,
  XorPeer_Spec.fits S app ->
  xor_fresh json_loads S app x ->
  iperform dumps (stack_send _ _ S _ _ (xor_client json_loads) plain (@Ok json) script) (stack_reset _ _ S Xor_Model.reset)
    (legacy_command target cmd arg ids IRet) (mkStack (fst x) 0 []) = (w', r) ->
  XorPeer_Spec.together json_loads S app x (xor_happenings (k_trace w')) y os ->
  XorPeer_Spec.all_healthy S (xor_happenings (k_trace w')) ->
  forall s1 answer resp t d,
  app (fst (script 0%nat) (snd x)) (dumps (create_request target cmd arg ids)) = (s1, answer) ->
  json_loads answer = Some (JObj resp) -> dget target resp = Some (JObj t) -> dget cmd t = Some (JObj d) -> fine t -> fine d ->
  snd y = s1 /\ r = Ok (JObj (ddel "err_code" d)).
Proof.
  intros dumps json_loads S app script x target cmd arg ids w' r y os H1 H2 H H3 H4 s1 answer resp t d Ha Hj Ht Hc Ft Fd.
  destruct (legacy_program_over_tcp _ _ _ _ _ _ _ _ _ _ _ _ H1 H2 H H3 H4) as (v' & E & Ev).
  unfold legacy_command in E. cbn [iperform] in E.
  rewrite (iot_query_ok _ (fun y => y) (snd x, 0%nat) (s1, 1%nat) (JObj resp)) in E.
  - cbn [iperform] in E. injection E as <- <-. split; [now rewrite <- Ev|]. exact (command_accepts _ _ _ _ _ Ht Hc Ft Fd).
  - unfold direct_send, plain. cbn [fst snd]. rewrite Ha. unfold XorPeer_Spec.understood. now rewrite Hj.
Qed.
Print Assumptions legacy_command_over_tcp.

(** ** Examples.  A plug without an energy meter whose messages are written with two letters for one;
    of every command it says its name.  It counts the messages. *)
Definition spell (m : string) : bytes := flat_map (fun c => ["a"%char; c]) (list_ascii_of_string m).
Definition px_cmds (j : json) : bytes := match j with JObj l => flat_map (fun c : string * json => spell (fst c) ++ ["b"%char]) l | _ => [] end.
Definition px_dumps (q : json) : bytes :=
  match q with JObj l => flat_map (fun m : string * json => spell (fst m) ++ "m"%char :: px_cmds (snd m)) l | _ => [] end.
Fixpoint tokens (b cur : bytes) : list (bool * string) :=
  match b with
  | "a"%char :: c :: b => tokens b (cur ++ [c])
  | "m"%char :: b => (true, string_of_list_ascii cur) :: tokens b []
  | "b"%char :: b => (false, string_of_list_ascii cur) :: tokens b []
  | _ => []
  end.
Definition group (l : list (bool * string)) : list string * list (string * list string) :=
  fold_right (fun (t : bool * string) (x : list string * list (string * list string)) => if fst t then ([], (snd t, fst x) :: snd x) else (snd t :: fst x, snd x)) ([], []) l.
Definition px_facts (s : nat) : device := fun k =>
  if String.eqb k "emeter" then None else Some (fun c => JObj [("name", JStr c)]).
Definition px_json (b : bytes) : option json :=
  Some (JObj (map (fun m : string * list string => (fst m, answer_of (px_facts 0 (fst m)) (JObj (map (fun c => (c, JNull)) (snd m))))) (snd (group (tokens b []))))).
Definition px_app (s : nat) (m : bytes) : nat * bytes := (Datatypes.S s, if (N.of_nat (List.length m) <? 2 ^ 32)%N then m else []).
Lemma px_fits : XorPeer_Spec.fits nat px_app.
Proof. intros s m. unfold px_app. cbn [snd]. destruct (N.ltb_spec (N.of_nat (List.length m)) (2 ^ 32)); [assumption|reflexivity]. Qed.
Lemma tokens_spell m e : forall cur rest, e = "b"%char \/ e = "m"%char -> 
  tokens (spell m ++ e :: rest) cur = (Ascii.eqb e "m", string_of_list_ascii (cur ++ list_ascii_of_string m)) :: tokens rest [].
Proof.
  unfold spell. induction (list_ascii_of_string m) as [|c l IH]; intros cur rest He.
  - cbn [flat_map List.app]. rewrite app_nil_r. destruct He as [-> | ->]; reflexivity.
  - cbn [flat_map List.app tokens]. rewrite IH by exact He. rewrite <- app_assoc. reflexivity.
Qed.
Lemma tokens_cmds l rest : tokens (px_cmds (JObj l) ++ rest) [] = map (fun c : string * json => (false, fst c)) l ++ tokens rest [].
Proof.
  unfold px_cmds. induction l as [|[c v] l IH]; [reflexivity|]. cbn [flat_map map fst]. rewrite <- !app_assoc. cbn [List.app].
  rewrite tokens_spell by now left. rewrite IH. cbn [List.app]. now rewrite string_of_list_ascii_of_string.
Qed.
Lemma group_cmds (l : list (string * json)) x : group (map (fun c : string * json => (false, fst c)) l ++ x) = (map fst l ++ fst (group x), snd (group x)).
Proof. induction l as [|[c v] l IH]; cbn [map List.app group fold_right fst snd]; [apply surjective_pairing|]. unfold group in IH. rewrite IH. reflexivity. Qed.
Lemma group_dumps l : (forall k v, In (k, v) l -> is_dict v) ->
  group (tokens (px_dumps (JObj l)) []) = ([], map (fun m : string * json => (fst m, match snd m with JObj d => map fst d | _ => [] end)) l).
Proof.
  unfold px_dumps. induction l as [|[k v] l IH]; intros H; [reflexivity|]. cbn [flat_map map fst snd]. rewrite <- app_assoc. cbn [List.app].
  destruct (H k v (or_introl eq_refl)) as [d ->]. rewrite tokens_spell by now right. rewrite tokens_cmds. change (Ascii.eqb "m" "m") with true. cbn [group fold_right fst snd].
  fold (group (map (fun c : string * json => (false, fst c)) d ++ tokens (flat_map (fun m : string * json => spell (fst m) ++ "m"%char :: px_cmds (snd m)) l) [])).
  rewrite group_cmds. unfold px_dumps in IH. rewrite IH by (intros k' v' Hi; apply (H k' v'); now right). cbn [fst snd List.app]. rewrite app_nil_r.
  now rewrite string_of_list_ascii_of_string.
Qed.
(** Questions within some modules are short. *)
Lemma spell_length m : List.length (spell m) = (2 * String.length m)%nat.
Proof. unfold spell. induction m as [|c m IH]; cbn [list_ascii_of_string flat_map List.app List.length String.length]; lia. Qed.
Lemma flat_length {A} (g : A -> bytes) n l : (forall x, In x l -> (List.length (g x) <= n)%nat) -> (List.length (flat_map g l) <= n * List.length l)%nat.
Proof.
  induction l as [|x l IH]; intros H; cbn [flat_map List.length]; [lia|]. rewrite app_length. pose proof (H x (or_introl eq_refl)).
  specialize (IH (fun y Hy => H y (or_intror Hy))). nia.
Qed.
Lemma keys_length {A} (d : dict A) names : dwf d -> (forall k v, In (k, v) d -> In k names) -> (List.length d <= List.length names)%nat.
Proof.
  intros W H. unfold dwf in W. replace (List.length d) with (List.length (dkeys d)) by apply map_length. apply NoDup_incl_length; [exact W|].
  intros k Hk. unfold dkeys in Hk. apply in_map_iff in Hk as ([k' v] & <- & Hi). exact (H _ _ Hi).
Qed.
Definition px_mods : list imodule :=
  [mkM "schedule" 256 ["get_rules"; "get_next_action"] true; mkM "emeter" 2048 ["get_realtime"; "get_daystat"] true;
   mkM "time" 256 ["get_time"; "get_timezone"] true; mkM "system" 256 [] true].
Definition px_names : list string := ["system"; "schedule"; "emeter"; "time"].
Definition px_words : list string := ["get_sysinfo"; "get_rules"; "get_next_action"; "get_realtime"; "get_daystat"; "get_time"; "get_timezone"].
Lemma px_short q : question q -> within px_mods q -> (List.length (px_dumps q) < 2000)%nat.
Proof.
  intros (W & (l & -> & S) & _) B. destruct (Iot_Proofs.jwf_dict _ W) as [Wd Wv].
  assert (K : forall k v, In (k, v) l -> In k px_names /\ forall c, present [c] v -> In c px_words).
  { intros k v Hi. assert (P : present [k] (JObj l)) by (unfold present; cbn [at_keys]; rewrite (In_dget _ _ _ Wd Hi); discriminate).
    destruct (B k P) as [B1 B2]. split.
    - destruct B1 as [-> | (m & [<-|[<-|[<-|[<-|[]]]]] & <-)]; cbn; auto 8.
    - intros c Pc. assert (P2 : present [k; c] (JObj l)) by (unfold present in *; cbn [at_keys] in *; rewrite (In_dget _ _ _ Wd Hi); exact Pc).
      destruct (B2 c P2) as [[_ ->] | (m & Hm & _ & Hc)]; [now left|].
      destruct Hm as [<-|[<-|[<-|[<-|[]]]]]; cbn in Hc |- *; intuition (subst; auto 10). }
  assert (G : forall w, In w (px_names ++ px_words) -> (String.length w <= 15)%nat).
  { intros w Hw. cbn in Hw. repeat (destruct Hw as [<-|Hw]; [cbn; lia|]). destruct Hw. }
  assert (C : (List.length l <= 4)%nat) by (apply (keys_length l px_names Wd); intros k v Hi; exact (proj1 (K k v Hi))).
  unfold px_dumps. pose proof (flat_length (fun m : string * json => spell (fst m) ++ "m"%char :: px_cmds (snd m)) 260 l) as F.
  assert (X : (List.length (flat_map (fun m : string * json => spell (fst m) ++ "m"%char :: px_cmds (snd m)) l) <= 260 * List.length l)%nat); [|lia].
  apply F. intros [k v] Hi. cbn [fst snd]. destruct (K k v Hi) as [K1 K2]. destruct (S k v Hi) as [d ->].
  rewrite !app_length, spell_length. cbn [List.length]. pose proof (G k ltac:(apply in_or_app; now left)).
  destruct (Iot_Proofs.jwf_dict _ (Wv k _ (In_dget _ _ _ Wd Hi))) as [Wdd _].
  assert (Kd : forall c x, In (c, x) d -> In c px_words) by (intros c x Hx; apply K2; unfold present; cbn [at_keys]; rewrite (In_dget _ _ _ Wdd Hx); discriminate).
  assert (Cd : (List.length d <= 7)%nat) by (exact (keys_length d px_words Wdd Kd)).
  assert (Y : (List.length (px_cmds (JObj d)) <= 31 * List.length d)%nat); [|lia].
  apply flat_length. intros [c x] Hx. cbn [fst]. rewrite app_length, spell_length. cbn [List.length]. pose proof (G c ltac:(apply in_or_app; right; exact (Kd c x Hx))). lia.
Qed.
Definition px_device script := direct_send (Xor_Model.connect_fate * Xor_Model.exec_fate * bool * bytes) nat _ _ plain (@Ok json) script px_app (XorPeer_Spec.understood px_json).
Lemma px_tells script : tells px_mods px_dumps (px_device script) (fun d => px_facts (fst d)).
Proof.
  intros d q Q B. exists (Datatypes.S (fst (script (snd d)) (fst d)), Datatypes.S (snd d)). split; [|reflexivity].
  unfold px_device, direct_send, plain, px_app, XorPeer_Spec.understood, px_json.
  destruct (N.ltb_spec (N.of_nat (List.length (px_dumps q))) (2 ^ 32)) as [_|X].
  2: { exfalso. pose proof (px_short q Q B). assert ((2000 < 2 ^ 32)%N) by reflexivity. lia. }
  destruct Q as (_ & (l & -> & S) & _). rewrite (group_dumps l S). cbn [snd bind]. f_equal. f_equal. f_equal. cbn [reply_to].
  rewrite map_map. apply map_ext_in. intros [k v] Hi. cbn [fst snd]. destruct (S k v Hi) as [cs ->].
  unfold answer_of, px_facts. destruct (String.eqb k "emeter"); [reflexivity|]. rewrite !map_map. reflexivity.
Qed.
Lemma px_ordinary : ordinary px_mods.
Proof. intros m [<-|[<-|[<-|[<-|[]]]]]; cbn; repeat split; try (intuition discriminate); repeat constructor; cbn; intuition discriminate. Qed.
Definition px_info : dict json := [("name", JStr "get_sysinfo")].
Definition px_new : lobj := mkL [] None [] 16384.
Definition px_init (s : json) : list imodule := px_mods.
Definition px_plan : list json := Eval vm_compute in
  match the_plan (informed px_new px_mods (JObj px_info)) with Ok l => l | Err _ => [] end.
Definition px_m1 : bytes := Eval vm_compute in px_dumps base.
Definition px_m2 : bytes := Eval vm_compute in px_dumps (nth 0 px_plan JNull).
Section ExTcp.
Import Xor_Model XorPeer_Spec.
Definition px_script (n : nat) : (nat -> nat) * (connect_fate * exec_fate * bool * bytes) :=
  match n with O => (fun s => s, (COk, XOk, true, px_m1)) | _ => (fun s => s, (COk, XOk, true, px_m2)) end.
Ltac px_send := eapply together_send; [vm_compute; reflexivity|vm_compute; reflexivity|].
Notation px_send := (stack_send _ _ nat _ _ (xor_client px_json) plain (@Ok json) px_script).
Example legacy_first_update_over_tcp_ex :
  fits nat px_app /\ xor_fresh px_json nat px_app (init, 5%nat) /\ informs (px_facts 5) px_info /\
  (ordinary (modules_then px_init px_new (JObj px_info)) /\ tells (modules_then px_init px_new (JObj px_info)) px_dumps (px_device px_script) (fun d => px_facts (fst d))) /\
  exists w' o' y os,
  iperform px_dumps px_send (stack_reset _ _ nat reset) (update_legacy px_init px_new IRet) (mkStack init 0 []) = (w', (o', Ok tt)) /\
  together px_json nat px_app (init, 5%nat) (xor_happenings (k_trace w')) y os /\ all_healthy nat (xor_happenings (k_trace w')) /\
  shows o' "time" "get_timezone" = Some (JObj [("name", JStr "get_timezone")]) /\
  shows o' "emeter" "err_code" = Some (JInt (-1)) /\ shows o' "emeter" "get_realtime" = None /\ snd y = 7%nat.
Proof.
  split; [exact px_fits|]. split; [exists 5%nat, [], []; constructor|]. split; [eexists; repeat split|]. split; [split; [exact px_ordinary|apply px_tells]|].
  do 4 eexists. split; [vm_compute; reflexivity|]. cbn [k_trace xor_happenings flat_map List.app]. split; [|split; [|split; [|split; [|split]]]].
  - apply together_device. px_send. apply together_device. px_send. apply together_nil.
  - repeat constructor.
  - reflexivity.
  - reflexivity.
  - reflexivity.
  - reflexivity.
Qed.
(** The next update does not ask for the module the device does not know. *)
Definition px_old : lobj := mkL [("system", [("get_sysinfo", JInt 1)]); ("emeter", [("err_code", JInt (-1)); ("err_msg", JStr "module not support")]); ("time", [("get_time", JInt 5)])]
  (Some (JInt 1)) px_mods 16384.
Definition px_plan2 : list json := Eval vm_compute in match the_plan px_old with Ok l => l | Err _ => [] end.
Definition px_m3 : bytes := Eval vm_compute in px_dumps (nth 0 px_plan2 JNull).
Definition px_script2 (n : nat) : (nat -> nat) * (connect_fate * exec_fate * bool * bytes) := (fun s => s, (COk, XOk, true, px_m3)).
Example legacy_update_over_tcp_ex :
  l_lu px_old <> [] /\ l_mods px_old <> [] /\ ordinary (l_mods px_old) /\ tells (l_mods px_old) px_dumps (px_device px_script2) (fun d => px_facts (fst d)) /\
  (wants px_old "time" "get_time" /\ ~ wants px_old "emeter" "get_realtime") /\
  exists w' o' y os,
  iperform px_dumps (stack_send _ _ nat _ _ (xor_client px_json) plain (@Ok json) px_script2) (stack_reset _ _ nat reset) (update_legacy px_init px_old IRet) (mkStack init 0 []) = (w', (o', Ok tt)) /\
  together px_json nat px_app (init, 5%nat) (xor_happenings (k_trace w')) y os /\ all_healthy nat (xor_happenings (k_trace w')) /\
  shows o' "time" "get_time" = Some (JObj [("name", JStr "get_time")]) /\ l_sys o' = Some (JObj px_info) /\ snd y = 6%nat.
Proof.
  split; [discriminate|]. split; [discriminate|]. split; [exact px_ordinary|]. split; [apply px_tells|]. split.
  { split; [right; exists (mkM "time" 256 ["get_time"; "get_timezone"] true); cbn; auto 8|].
    intros [[X _]|(m & _ & _ & _ & X)]; discriminate X. }
  do 4 eexists. split; [vm_compute; reflexivity|]. cbn [k_trace xor_happenings flat_map List.app]. split; [|split; [|split; [|split]]].
  - apply together_device. px_send. apply together_nil.
  - repeat constructor.
  - reflexivity.
  - reflexivity.
  - reflexivity.
Qed.
(** A command. *)
Definition px_m4 : bytes := Eval vm_compute in px_dumps (create_request "system" "set_relay_state" (Some (JObj [("state", JInt 1)])) None).
Definition px_script3 (n : nat) : (nat -> nat) * (connect_fate * exec_fate * bool * bytes) := (fun s => s, (COk, XOk, true, px_m4)).
Example legacy_command_over_tcp_ex : exists w' y os,
  iperform px_dumps (stack_send _ _ nat _ _ (xor_client px_json) plain (@Ok json) px_script3) (stack_reset _ _ nat reset)
    (legacy_command "system" "set_relay_state" (Some (JObj [("state", JInt 1)])) None IRet) (mkStack init 0 []) = (w', Ok (JObj [("name", JStr "set_relay_state")])) /\
  together px_json nat px_app (init, 5%nat) (xor_happenings (k_trace w')) y os /\ all_healthy nat (xor_happenings (k_trace w')) /\ snd y = 6%nat.
Proof.
  do 3 eexists. split; [vm_compute; reflexivity|]. cbn [k_trace xor_happenings flat_map List.app]. split; [|split].
  - apply together_device. px_send. apply together_nil.
  - repeat constructor.
  - reflexivity.
Qed.
End ExTcp.

(** Proofs about connection parameters, selection and connecting. *)
From Verif Require Import Base Base_Lemmas Py Factory_Model Factory_Spec.
Open Scope string_scope.
Open Scope list_scope.
Open Scope Z_scope.

(** ** Names *)
Lemma family_of_value f : family_of (JStr (family_value f)) = Some f.
Proof. destruct f; vm_compute; reflexivity. Qed.
Lemma enc_of_value e : enc_of (JStr (enc_value e)) = Some e.
Proof. destruct e; vm_compute; reflexivity. Qed.
Lemma family_of_inv v f : family_of v = Some f -> v = JStr (family_value f).
Proof.
  unfold family_of. destruct v; try discriminate. intro H. apply find_some in H. destruct H as [_ H].
  apply String.eqb_eq in H. now rewrite H.
Qed.
Lemma enc_of_inv v e : enc_of v = Some e -> v = JStr (enc_value e).
Proof.
  unfold enc_of. destruct v; try discriminate. intro H. apply find_some in H. destruct H as [_ H].
  apply String.eqb_eq in H. now rewrite H.
Qed.
Lemma known_family s : In s known_families <-> exists f, s = family_value f.
Proof.
  split.
  - cbn [In known_families]. intro H.
    repeat (destruct H as [<-|H]; [match goal with |- exists f, ?s = _ =>
      let r := eval vm_compute in (family_of (JStr s)) in match r with Some ?f => exists f; reflexivity end end|]).
    contradiction.
  - intros [f ->]. destruct f; vm_compute; tauto.
Qed.
Lemma known_encryption s : In s known_encryptions <-> exists e, s = enc_value e.
Proof.
  split.
  - cbn [In known_encryptions]. intro H.
    repeat (destruct H as [<-|H]; [match goal with |- exists f, ?s = _ =>
      let r := eval vm_compute in (enc_of (JStr s)) in match r with Some ?f => exists f; reflexivity end end|]).
    contradiction.
  - intros [f ->]. destruct f; vm_compute; tauto.
Qed.

(** ** Dictionaries of a configuration *)
Lemma params_round_trip p : params_from (JObj (params_dict p)) = Ok p.
Proof.
  destruct p as [f e l h po]. unfold params_from, params_dict. cbn [family_ enc_ login_version https http_port as_dict bind].
  destruct l as [l|], po as [po|];
    cbn [opt app get_req get_opt dget String.eqb Ascii.eqb Bool.eqb bind as_z as_bool]; unfold as_enum;
    rewrite family_of_value; cbn [bind]; rewrite enc_of_value; reflexivity.
Qed.

Definition restored (c : devconfig) : devconfig :=
  mkConf (host c) (match timeout c with Some t => Some t | None => Some DEFAULT_TIMEOUT end) (port_override c)
    (creds c) (creds_hash c) (batch_size c) (conn c) None (aes_keys c).
Lemma dget_opt {A} k k' (f : A -> json) o : dget k (opt k' f o) = if String.eqb k k' then option_map f o else None.
Proof. destruct o; cbn [opt dget option_map]; destruct (String.eqb k k'); reflexivity. Qed.

Lemma get_opt_dget {A} (f : json -> res A) (g : A -> json) dflt k d (o : option A) :
  dget k d = option_map g o -> (forall a, f (g a) = Ok a) -> (forall a, g a <> JNull) ->
  get_opt f dflt k d = Ok (match o with Some a => Some a | None => dflt end).
Proof.
  intros E Hf Hg. unfold get_opt. rewrite E. destruct o as [a|]; [|reflexivity]. cbn [option_map].
  pose proof (Hf a) as H1. pose proof (Hg a) as H2. destruct (g a); try congruence; rewrite H1; reflexivity.
Qed.
Lemma dget_app_opt k (d e : dict json) : dget k (d ++ e) = match dget k d with Some v => Some v | None => dget k e end.
Proof. induction d as [|[k' v] d IH]; [reflexivity|]. cbn [app dget]. destruct (String.eqb k k'); [reflexivity | exact IH]. Qed.
Ltac field c := unfold to_dict; rewrite !dget_app_opt, !dget_opt; cbn [dget String.eqb Ascii.eqb Bool.eqb];
  try reflexivity; match goal with |- match option_map ?g ?o with _ => _ end = _ => destruct o; reflexivity end.
Definition creds_json (up : string * string) : json := JObj [("username", JStr (fst up)); ("password", JStr (snd up))].
Definition keys_json (k : string * string) : json := JObj [("private", JStr (fst k)); ("public", JStr (snd k))].
Lemma f_host c : dget "host" (to_dict c) = Some (JStr (host c)). Proof. field c. Qed.
Lemma f_timeout c : dget "timeout" (to_dict c) = option_map JInt (timeout c). Proof. field c. Qed.
Lemma f_port c : dget "port_override" (to_dict c) = option_map JInt (port_override c). Proof. field c. Qed.
Lemma f_creds c : dget "credentials" (to_dict c) = option_map creds_json (creds c). Proof. field c. Qed.
Lemma f_hash c : dget "credentials_hash" (to_dict c) = option_map JStr (creds_hash c). Proof. field c. Qed.
Lemma f_batch c : dget "batch_size" (to_dict c) = option_map JInt (batch_size c). Proof. field c. Qed.
Lemma f_conn c : dget "connection_type" (to_dict c) = Some (JObj (params_dict (conn c))). Proof. field c. Qed.
Lemma f_keys c : dget "aes_keys" (to_dict c) = option_map keys_json (aes_keys c). Proof. field c. Qed.
Lemma config_round_trip_lemma c : from_dict (to_dict c) = Ok (restored c).
Proof.
  unfold from_dict, restored. unfold get_req at 1. rewrite f_host. cbn [as_str bind].
  rewrite (get_opt_dget as_z JInt _ _ _ _ (f_timeout c)) by (reflexivity || discriminate). cbn [bind].
  rewrite (get_opt_dget as_z JInt _ _ _ _ (f_port c)) by (reflexivity || discriminate). cbn [bind].
  rewrite (get_opt_dget creds_from creds_json _ _ _ _ (f_creds c)) by (try (intros []; reflexivity); discriminate). cbn [bind].
  rewrite (get_opt_dget as_str JStr _ _ _ _ (f_hash c)) by (reflexivity || discriminate). cbn [bind].
  rewrite (get_opt_dget as_z JInt _ _ _ _ (f_batch c)) by (reflexivity || discriminate). cbn [bind].
  unfold get_opt at 1. rewrite f_conn, params_round_trip. cbn [bind].
  rewrite (get_opt_dget _ keys_json _ _ _ _ (f_keys c)) by (try (intros []; reflexivity); discriminate). cbn [bind].
  destruct c as [h t po cr ch b ct cl k]. cbn. destruct t, po, cr, ch, b, k; reflexivity.
Qed.

(** ** Selection *)
Lemma protocol_table f e l h po strict :
  get_protocol (mkParams f e l h po) strict =
    if strict && negb (strict_ok f e) then None else expected_protocol f e h.
Proof. destruct f, e, h, strict; vm_compute; reflexivity. Qed.

(** ** Connecting *)
Lemma connect_with_ok w c p l l' d : connect_with w c p (l ++ [OCreate p]) = (l', Ok d) ->
  d_protocol d = p /\ d_host d = host c /\ exists tail, l' = l ++ tail /\ worked w d tail /\
  (p <> (IotProtocol, XorTransport) ->
     class_from_family (family_value (family_ (conn c))) (https (conn c)) false = Some (d_class d)).
Proof.
  unfold connect_with. intro H.
  assert (Hx : p = (IotProtocol, XorTransport) \/ p <> (IotProtocol, XorTransport)).
  { destruct p as [[] []]; (left; reflexivity) || (right; discriminate). }
  destruct Hx as [->|Hn].
  - unfold mbind, mlift, mret in H. destruct (w_query w) as [info|] eqn:Eq; [|discriminate].
    destruct (class_from_sys_info info) as [cls|] eqn:Ec; [|discriminate]. destruct (w_absorb w); [|discriminate].
    destruct (w_update w) as [[]|] eqn:Eu; [|discriminate]. injection H as <- <-. split; [reflexivity|]. split; [reflexivity|].
    exists [OCreate (IotProtocol, XorTransport); OQuery; OUpdate]. split; [now rewrite <- !app_assoc|].
    split; [|intro Hc; now elim Hc]. split; [exact Eu|]. left. split; [reflexivity|]. split; [|reflexivity].
    exists info. auto.
  - assert (H' : match class_from_family (family_value (family_ (conn c))) (https (conn c)) false with
      | Some cls => do! _ <- (fun l => (l ++ [OUpdate], w_update w)) ;; mret (mkDev cls (host c) p)
      | None => mfail KUnsupported end (l ++ [OCreate p]) = (l', Ok d)) by (destruct p as [[] []]; try exact H; now elim Hn).
    clear H. destruct (class_from_family _ _ _) as [cls|]; [|discriminate].
    unfold mbind, mret in H'. destruct (w_update w) as [[]|] eqn:Eu; [|discriminate]. injection H' as <- <-.
    split; [reflexivity|]. split; [reflexivity|].
    exists [OCreate p; OUpdate]. split; [now rewrite <- !app_assoc|]. split; [|reflexivity].
    split; [exact Eu|]. right. split; [exact Hn | reflexivity].
Qed.

(** A failure: nothing was closed or created by the attempt itself. *)
Lemma connect_with_ops w c p l : exists tail, fst (connect_with w c p l) = l ++ tail /\ closes tail = 0%nat /\ creates tail = 0%nat.
Proof.
  unfold connect_with.
  assert (Hu : forall cls, exists tail, fst (mbind (fun l => (l ++ [OUpdate], w_update w)) (fun _ => mret (mkDev cls (host c) p)) l) = l ++ tail
     /\ closes tail = 0%nat /\ creates tail = 0%nat).
  { intro cls. exists [OUpdate]. unfold mbind, mret. destruct (w_update w); repeat split. }
  assert (Hf : exists tail, fst (match class_from_family (family_value (family_ (conn c))) (https (conn c)) false with
      | Some cls => do! _ <- (fun l => (l ++ [OUpdate], w_update w)) ;; mret (mkDev cls (host c) p)
      | None => mfail KUnsupported end l) = l ++ tail /\ closes tail = 0%nat /\ creates tail = 0%nat).
  { destruct (class_from_family _ _ _); [apply Hu|]. exists []. now rewrite app_nil_r. }
  destruct p as [pr tr]. destruct pr; try exact Hf. destruct tr; try exact Hf. clear Hf.
  unfold mbind, mlift, mret. destruct (w_query w) as [info|]; [|exists [OQuery]; repeat split].
  destruct (class_from_sys_info info); [|exists [OQuery]; repeat split].
  destruct (w_absorb w); [|exists [OQuery]; repeat split].
  exists [OQuery; OUpdate]. destruct (w_update w); cbn [fst]; rewrite <- app_assoc; repeat split.
Qed.

(** ** Trying everything *)
Lemma key_eqb_eq a b : key_eqb a b = true <-> a = b.
Proof.
  destruct a as [p t c h], b as [p' t' c' h']. unfold key_eqb. cbn [k_protocol k_transport k_class k_https]. split.
  - intro H. repeat (apply andb_true_iff in H; destruct H as [H ?]). apply Bool.eqb_prop in H0. subst h'.
    destruct p, p'; try discriminate; destruct t, t'; try discriminate; destruct c, c'; try discriminate; reflexivity.
  - intro H. injection H as <- <- <- <-. rewrite Bool.eqb_reflx. destruct p, t, c; reflexivity.
Qed.
Lemma kset_keys {A} k (v : A) l : map fst (kset k v l) = if existsb (key_eqb k) (map fst l) then map fst l else map fst l ++ [k].
Proof.
  induction l as [|[k' v'] l IH]; [reflexivity|]. cbn [kset map fst existsb]. destruct (key_eqb k k'); [reflexivity|].
  cbn [map fst orb]. rewrite IH. destruct (existsb (key_eqb k) (map fst l)); reflexivity.
Qed.
Lemma kset_In {A} k (v : A) l k' v' : In (k', v') (kset k v l) -> (k' = k /\ v' = v) \/ (k' <> k /\ In (k', v') l) \/ In (k', v') l.
Proof.
  induction l as [|[a b] l IH]; cbn [kset In].
  - intros [H|[]]. injection H as <- <-. auto.
  - destruct (key_eqb k a) eqn:E; cbn [In].
    + apply key_eqb_eq in E. subst a. intros [H|H]; [injection H as <- <-; auto | auto].
    + intros [H|H]; [auto|]. destruct (IH H) as [G|[G|G]]; tauto.
Qed.
Lemma NoDup_kset {A} k (v : A) l : NoDup (map fst l) -> NoDup (map fst (kset k v l)).
Proof.
  intro H. rewrite kset_keys. destruct (existsb (key_eqb k) (map fst l)) eqn:E; [exact H|].
  assert (~ In k (map fst l)).
  { intro Hin. assert (existsb (key_eqb k) (map fst l) = true); [|congruence]. apply existsb_exists. exists k.
    split; [exact Hin | now apply key_eqb_eq]. }
  apply NoDup_rev in H. rewrite <- (rev_involutive (map fst l ++ [k])). apply NoDup_rev. rewrite rev_app_distr. cbn.
  constructor; [now rewrite <- in_rev | exact H].
Qed.
Lemma kset_same {A} k (v v' : A) l : kset k v' (kset k v l) = kset k v' l.
Proof.
  induction l as [|[a b] l IH]; cbn [kset].
  - destruct (key_eqb k k) eqn:E; [reflexivity|]. assert (key_eqb k k = true) by now apply key_eqb_eq. congruence.
  - destruct (key_eqb k a) eqn:E; cbn [kset]; rewrite E; [reflexivity | now rewrite IH].
Qed.

Definition entry_ok (families : list family) (kp : key * params) : Prop :=
  let (k, p) := kp in
  login_version p = Some 2 /\ http_port p = None /\ In (family_ p) families /\ https p = k_https k /\
  get_protocol p true = Some (k_protocol k, k_transport k) /\
  class_from_family (family_value (family_ p)) (https p) true = Some (k_class k).

(** One pair of login versions: the second replaces the first. *)
Lemma add_pair families acc f e h : In f families -> Forall (entry_ok families) acc ->
  let acc' := add_candidate (add_candidate acc (mkParams f e None h None)) (mkParams f e (Some 2) h None) in
  Forall (entry_ok families) acc' /\ (NoDup (map fst acc) -> NoDup (map fst acc')) /\
  (forall k, In k (map fst acc) -> In k (map fst acc')) /\
  (forall pr tr cls, expected_protocol f e h = Some (pr, tr) -> strict_ok f e = true ->
     class_from_family (family_value f) h true = Some cls -> In (mkKey pr tr cls h) (map fst acc')).
Proof.
  intros Hf Ha acc'. subst acc'. unfold add_candidate. cbn [family_ https]. rewrite !protocol_table. cbn [andb].
  destruct (strict_ok f e) eqn:Es; cbn [negb]; [|repeat split; auto; discriminate].
  destruct (expected_protocol f e h) as [[pr tr]|] eqn:Ee; [|repeat split; auto; discriminate].
  destruct (class_from_family (family_value f) h true) as [cls|] eqn:Ec; [|repeat split; auto; discriminate].
  rewrite kset_same. split; [|split; [apply NoDup_kset | split]].
  - apply Forall_forall. intros [k p] Hin. rewrite Forall_forall in Ha. apply kset_In in Hin.
    destruct Hin as [[-> ->]|[[_ Hin]|Hin]]; [|exact (Ha _ Hin)|exact (Ha _ Hin)].
    cbn [entry_ok login_version http_port family_ https k_https k_protocol k_transport k_class].
    rewrite protocol_table, Es. cbn [negb andb]. repeat split; assumption.
  - intros k Hk. rewrite kset_keys. destruct (existsb _ _); [exact Hk | apply in_or_app; auto].
  - intros pr' tr' cls' H1 _ H2. injection H1 as <- <-. injection H2 as <-. rewrite kset_keys.
    destruct (existsb (key_eqb (mkKey pr tr cls h)) (map fst acc)) eqn:E; [|apply in_or_app; right; left; reflexivity].
    apply existsb_exists in E. destruct E as (x & Hx & He). apply key_eqb_eq in He. congruence.
Qed.

Definition pairs (families : list family) : list (encryption * family * bool) :=
  flat_map (fun e => flat_map (fun f => map (fun h => (e, f, h)) [true; false]) families) all_enc.
Definition add_both (acc : list (key * params)) (x : encryption * family * bool) : list (key * params) :=
  let '(e, f, h) := x in
  add_candidate (add_candidate acc (mkParams f e None h None)) (mkParams f e (Some 2) h None).
Lemma fold_flat_map {A B C} (g : A -> list B) (step : C -> B -> C) : forall l acc,
  fold_left step (flat_map g l) acc = fold_left (fun a x => fold_left step (g x) a) l acc.
Proof. induction l as [|x l IH]; intro acc; [reflexivity|]. cbn [flat_map fold_left]. now rewrite fold_left_app, IH. Qed.
Lemma fold_ext {A B} (f g : A -> B -> A) : (forall a b, f a b = g a b) -> forall l acc, fold_left f l acc = fold_left g l acc.
Proof. intros H l. induction l as [|x l IH]; intro acc; [reflexivity|]. cbn. now rewrite H, IH. Qed.
Lemma candidates_pairs families : candidates families = fold_left add_both (pairs families) [].
Proof.
  unfold candidates, all_params, pairs. rewrite !fold_flat_map. apply fold_ext. intros acc e.
  rewrite !fold_flat_map. apply fold_ext. intros acc' f. reflexivity.
Qed.
Lemma candidates_ok families : Forall (entry_ok families) (candidates families) /\ NoDup (map fst (candidates families)) /\
  (forall e f h pr tr cls, In (e, f, h) (pairs families) -> expected_protocol f e h = Some (pr, tr) -> strict_ok f e = true ->
     class_from_family (family_value f) h true = Some cls -> In (mkKey pr tr cls h) (map fst (candidates families))).
Proof.
  rewrite candidates_pairs.
  assert (G : forall l acc, (forall e f h, In (e, f, h) l -> In f families) -> Forall (entry_ok families) acc -> NoDup (map fst acc) ->
    Forall (entry_ok families) (fold_left add_both l acc) /\ NoDup (map fst (fold_left add_both l acc)) /\
    (forall k, In k (map fst acc) -> In k (map fst (fold_left add_both l acc))) /\
    (forall e f h pr tr cls, In (e, f, h) l -> expected_protocol f e h = Some (pr, tr) -> strict_ok f e = true ->
     class_from_family (family_value f) h true = Some cls -> In (mkKey pr tr cls h) (map fst (fold_left add_both l acc)))).
  { induction l as [|[[e f] h] l IH]; intros acc Hl Ha Hn; [cbn; repeat split; auto; contradiction|].
    cbn [fold_left add_both].
    destruct (add_pair families acc f e h (Hl e f h (or_introl eq_refl)) Ha) as (H1 & H2 & H3 & H4).
    destruct (IH (add_both acc (e, f, h)) (fun e' f' h' Hin => Hl e' f' h' (or_intror Hin)) H1 (H2 Hn)) as (I1 & I2 & I3 & I4).
    split; [exact I1|]. split; [exact I2|]. split; [intros k Hk; apply I3, H3, Hk|].
    intros e' f' h' pr tr cls [Heq|Hin] E1 E2 E3; [|eapply I4; eassumption].
    injection Heq as <- <- <-. apply I3. eapply H4; eassumption. }
  destruct (G (pairs families) []) as (H1 & H2 & _ & H3).
  - intros e f h H. unfold pairs in H. apply in_flat_map in H. destruct H as (e' & _ & H). apply in_flat_map in H.
    destruct H as (f' & Hf & H). apply in_map_iff in H. destruct H as (h' & Heq & _). injection Heq as <- <- <-. exact Hf.
  - constructor.
  - constructor.
  - split; [exact H1|]. split; [exact H2|]. exact H3.
Qed.

(** The loop *)
Definition attempt_result (w : key -> world) (c0 : devconfig) (k : key) (p : params) : res device :=
  snd (connect_with (w k) (candidate_config c0 p) (k_protocol k, k_transport k) [OCreate (k_protocol k, k_transport k)]).
Lemma try_spec w c0 : forall cands trace0 trace out,
  try_candidates w c0 cands trace0 = (trace, out) ->
  exists tr tried rest, trace = trace0 ++ tr /\ cands = tried ++ rest /\ map a_key tr = map fst tried /\
    Forall (fun a => closes (a_ops a) = 1%nat /\ creates (a_ops a) = 1%nat /\ last (a_ops a) OQuery = OClose /\
                     hd OQuery (a_ops a) = OCreate (k_protocol (a_key a), k_transport (a_key a))) tr /\
    match out with
    | Ok None => rest = [] /\
        Forall (fun kp => exists e, attempt_result w c0 (fst kp) (snd kp) = Err e /\ is_exception e = true /\ w_close (w (fst kp)) = Ok tt) tried /\
        Forall (fun a => a_told a = Some false) tr
    | Ok (Some d) => exists pre k p, tried = pre ++ [(k, p)] /\ attempt_result w c0 k p = Ok d /\
        Forall (fun kp => exists e, attempt_result w c0 (fst kp) (snd kp) = Err e /\ is_exception e = true) pre /\
        map a_told tr = map (fun _ => Some false) pre ++ [Some true]
    | Err e => exists pre k p, tried = pre ++ [(k, p)] /\
        (attempt_result w c0 k p = Err e /\ is_exception e = false \/ w_close (w k) = Err e) /\
        Forall (fun kp => exists e, attempt_result w c0 (fst kp) (snd kp) = Err e /\ is_exception e = true) pre
    end.
Proof.
  induction cands as [|[k p] cands IH]; intros trace0 trace out H; cbn [try_candidates] in H.
  - injection H as <- <-. exists [], [], []. rewrite app_nil_r. repeat split; auto.
  - set (pt := (k_protocol k, k_transport k)) in *.
    assert (Hops : exists tail, fst (connect_with (w k) (candidate_config c0 p) pt [OCreate pt]) = OCreate pt :: tail /\ closes tail = 0%nat /\ creates tail = 0%nat)
      by (exact (connect_with_ops (w k) (candidate_config c0 p) pt [OCreate pt])).
    unfold attempt_result.
    destruct (connect_with (w k) (candidate_config c0 p) pt [OCreate pt]) as [ops r] eqn:E. cbn [fst] in Hops.
    destruct Hops as (tail & -> & Hcl & Hcr).
    assert (Ha : forall told, let a := mkAttempt k ((OCreate pt :: tail) ++ [OClose]) told in
       closes (a_ops a) = 1%nat /\ creates (a_ops a) = 1%nat /\ last (a_ops a) OQuery = OClose /\
       hd OQuery (a_ops a) = OCreate (k_protocol (a_key a), k_transport (a_key a))).
    { intro told. cbv zeta. cbn [a_ops a_key]. unfold closes, creates in *. rewrite !filter_app, !app_length.
      cbn [filter]. cbn [List.length]. rewrite Hcl, Hcr. repeat split. apply last_last. }
    assert (Hstop : forall told out0, (trace0 ++ [mkAttempt k ((OCreate pt :: tail) ++ [OClose]) told], out0) = (trace, out) ->
       trace = trace0 ++ [mkAttempt k ((OCreate pt :: tail) ++ [OClose]) told] /\ out = out0) by (intros told out0 Heq; injection Heq; auto).
    destruct r as [d|e].
    + destruct (w_close (w k)) as [u|e'] eqn:Ec; apply Hstop in H; destruct H as [-> ->].
      * eexists. exists [(k, p)], cands. split; [reflexivity|]. split; [reflexivity|]. split; [reflexivity|].
        split; [constructor; [apply Ha | constructor]|]. exists [], k, p. split; [reflexivity|]. split; [unfold attempt_result; fold pt; rewrite E; reflexivity|]. split; [constructor | reflexivity].
      * eexists. exists [(k, p)], cands. split; [reflexivity|]. split; [reflexivity|]. split; [reflexivity|].
        split; [constructor; [apply Ha | constructor]|]. exists [], k, p. split; [reflexivity|]. split; [auto | constructor].
    + destruct (w_close (w k)) as [u|e'] eqn:Ec.
      * destruct (is_exception e) eqn:Ei.
        -- apply IH in H. destruct H as (tr & tried & rest & -> & -> & Hk & Hf & Hout).
           exists (mkAttempt k ((OCreate pt :: tail) ++ [OClose]) (Some false) :: tr), ((k, p) :: tried), rest.
           split; [now rewrite <- app_assoc|]. split; [reflexivity|]. split; [cbn [map a_key fst]; now rewrite Hk|].
           split; [constructor; [apply Ha | exact Hf]|].
           assert (Hkp : exists e0, attempt_result w c0 (fst (k, p)) (snd (k, p)) = Err e0 /\ is_exception e0 = true).
           { exists e. unfold attempt_result. cbn [fst snd]. fold pt. rewrite E. auto. }
           destruct out as [[d|]|e0].
           ++ destruct Hout as (pre & k0 & p0 & -> & Hr & Hpre & Ht). exists ((k, p) :: pre), k0, p0.
              split; [reflexivity|]. split; [exact Hr|]. split; [constructor; assumption|]. cbn [map a_told app]. now rewrite Ht.
           ++ destruct Hout as (-> & Hpre & Ht). split; [reflexivity|]. split; constructor; auto. cbn [fst snd].
              exists e. unfold attempt_result. fold pt. rewrite E. cbn [snd]. destruct u. auto.
           ++ destruct Hout as (pre & k0 & p0 & -> & Hr & Hpre). exists ((k, p) :: pre), k0, p0.
              split; [reflexivity|]. split; [exact Hr|]. constructor; assumption.
        -- apply Hstop in H. destruct H as [-> ->]. eexists. exists [(k, p)], cands.
           split; [reflexivity|]. split; [reflexivity|]. split; [reflexivity|].
           split; [constructor; [apply Ha | constructor]|]. exists [], k, p. split; [reflexivity|].
           split; [left; unfold attempt_result; fold pt; rewrite E; auto | constructor].
      * apply Hstop in H. destruct H as [-> ->]. eexists. exists [(k, p)], cands.
        split; [reflexivity|]. split; [reflexivity|]. split; [reflexivity|].
        split; [constructor; [apply Ha | constructor]|]. exists [], k, p. split; [reflexivity|]. split; [auto | constructor].
Qed.

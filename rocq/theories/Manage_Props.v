(** C152: managing a device or one of its children. *)
From Verif Require Import Base Base_Lemmas Py Codes_Model Iot_Model Smart_Model Smart_Spec Smart_Proofs Child_Model Child_Spec Child_Proofs
  Crypto_Model Effect_Props Setup_Model Setup_Props Strip_Model Manage_Model Manage_Spec.
Open Scope string_scope.
Open Scope list_scope.
Open Scope Z_scope.

Lemma err_fine s : dget "err_code" s = None \/ dget "err_code" s = Some (JInt 0) -> err_code_bad (JObj s) = Ok false.
Proof. intros [H|H]; unfold err_code_bad; cbn; unfold dmem; rewrite H; cbn; unfold dindex; try rewrite H; reflexivity. Qed.
Lemma ddel_absent {A} k (d : dict A) : dget k d = None -> ddel k d = d.
Proof.
  induction d as [|[k' v] d IH]; cbn; [reflexivity|]. rewrite (String.eqb_sym k k'). destruct (String.eqb k' k); cbn; [discriminate|].
  intros H. now rewrite (IH H).
Qed.
Lemma helper_answers o service m x resp : is_legacy o -> answered o service m x resp -> query_helper service m (Ok (JObj resp)) = Ok x.
Proof.
  intros L H. assert (H' : exists s r, dget service resp = Some (JObj s) /\ dget "err_code" s = None /\ dget m s = Some (JObj r) /\
        (dget "err_code" r = None \/ dget "err_code" r = Some (JInt 0)) /\ x = JObj (ddel "err_code" r)) by (destruct o; first [exact H|destruct L]).
  destruct H' as (s & r & H1 & H2 & H3 & H4 & ->). unfold query_helper.
  cbn [jcontains]. unfold dmem. rewrite H1. cbn [bind negb jitem]. unfold dindex. rewrite H1. cbn [bind].
  rewrite (err_fine s (or_introl H2)). cbn [bind jcontains]. unfold dmem. rewrite H3. cbn [bind negb jitem]. unfold dindex. rewrite H3. cbn [bind].
  rewrite (err_fine r H4). cbn [bind jcontains]. unfold dmem. destruct H4 as [H4|H4]; rewrite H4; cbn [bind]; [|reflexivity].
  now rewrite (ddel_absent _ _ H4).
Qed.
Lemma dget_dict_of m x (d : dict json) : dget m d = Some x -> dget m (dict_of d) = Some (RJson x).
Proof. induction d as [|[k v] d IH]; cbn; [discriminate|]. destruct (String.eqb m k); [congruence|exact IH]. Qed.
Lemma seqb_same s : String.eqb s s = true. Proof. apply String.eqb_refl. Qed.

Section W.
Context {S : Type} (handle : S -> sent -> S * res (dict json)).
Notation world := (world S).

Lemma ask_answers o m p x resp s (w : world) : ~ is_legacy o -> handle (phys w) (addressed o "" m p) = (s, Ok resp) -> answered o "" m x resp ->
  exists d, ask S handle o (CDict [(m, p)]) w = (mkWorld s (seen w) (log w ++ [Sent (addressed o "" m p)]), Ok d) /\ dget m d = Some (RJson x).
Proof.
  intros L H A. destruct o; cbn in L; try (exfalso; tauto); unfold ask, mbind, query, mret, mlift.
  - change (Ask [(m, p)]) with (addressed Smart "" m p). rewrite H. exists (dict_of resp). split; [reflexivity|]. now apply dget_dict_of.
  - change (Ask (wrap_child id (CDict [(m, p)]))) with (addressed (Kid id) "" m p). rewrite H. destruct A as (rd & R & P & Q).
    assert (E : unwrap_child m resp = Ok [(m, RJson x)]).
    { pose proof (child_single_lemma (fun _ => Ok resp) id m p rd resp (AResult x) eq_refl R P) as C.
      rewrite (reports_result _ _ P) in C. exact (C Q). }
    cbn [method_and_params fst]. rewrite E. eexists. split; [reflexivity|]. cbn. now rewrite seqb_same.
  - change (Ask [(m, p)]) with (addressed Camera "" m p). rewrite H. exists (dict_of resp). split; [reflexivity|]. now apply dget_dict_of.
  - change (Ask (wrap_cam id [(m, p)])) with (addressed (CamKid id smart) "" m p). rewrite H. destruct A as (y & R & P).
    rewrite (cam_single_lemma (fun _ => Ok resp) id (fun _ _ => AResult x) m p resp y eq_refl R P).
    eexists. split; [reflexivity|]. cbn. now rewrite seqb_same.
Qed.
Lemma helper_sends o service m p x resp s (w : world) : is_legacy o -> handle (phys w) (addressed o service m p) = (s, Ok resp) -> answered o service m x resp ->
  helper S handle o service m (Some p) w = (mkWorld s (seen w) (log w ++ [Sent (addressed o service m p)]), Ok x).
Proof.
  intros L H A. assert (E : Ask (fields (create_request service m (Some p) (match o with Socket id => Some [id] | _ => None end))) = addressed o service m p)
    by (destruct o; cbn in L; try tauto; reflexivity).
  unfold helper, query. rewrite E, H. cbn [bind]. now rewrite (helper_answers o service m x resp L A).
Qed.

Lemma set_alias_sends o a s resp x (w : world) : handle (phys w) (rename_request o a) = (s, Ok resp) ->
  answered o (rename_service o) (rename_method o) x resp ->
  set_alias S handle o a w = (mkWorld s (seen w) (log w ++ [Sent (rename_request o a)]), Ok tt).
Proof.
  intros H A. unfold set_alias, rename_request in *. destruct o as [| |id| |id| |id [|]]; unfold ignore, mbind, mret.
  1: rewrite (helper_sends Plain "system" "set_dev_alias" (JObj [("alias", JStr a)]) x resp s w I H A); reflexivity.
  2: rewrite (helper_sends (Socket id) "system" "set_dev_alias" (JObj [("alias", JStr a)]) x resp s w I H A); reflexivity.
  1: rewrite (helper_sends Light "smartlife.iot.common.system" "set_dev_alias" (JObj [("alias", JStr a)]) x resp s w I H A); reflexivity.
  all: match goal with |- context [ask S handle ?o (CDict [(?m, ?p)]) ?w] =>
         destruct (ask_answers o m p x resp s w (fun z => z) H A) as (d & E & _); rewrite E; reflexivity end.
Qed.
End W.

Definition new_key (m : dict string) (k : string) : string := match dget k m with Some k' => k' | None => k end.
Lemma map_keys_get m d k src : dwf d -> (forall k' v, In (k', v) d -> new_key m k' = k <-> k' = src) ->
  dget k (map_keys m d) = dget src d.
Proof.
  intros W N. unfold map_keys.
  assert (G : forall l acc : dict json, (forall k' v, In (k', v) l -> new_key m k' = k <-> k' = src) -> NoDup (map fst l) ->
    dget k (fold_left (fun acc kv => dset (new_key m (fst kv)) (snd kv) acc) l acc) =
    match dget src l with Some v => Some v | None => dget k acc end).
  { induction l as [|[k' v] l IH]; intros acc Hn Hd; [reflexivity|]. cbn [fold_left fst snd].
    rewrite IH; [|intros; eapply Hn; right; eassumption|now inversion Hd].
    cbn [dget]. destruct (Hn k' v (or_introl eq_refl)) as [H1 H2]. destruct (String.eqb_spec src k') as [E|E].
    - rewrite (H2 (eq_sym E)). inversion Hd as [|? ? Hi Hd']; subst. destruct (dget k' l) eqn:G.
      + exfalso. apply Hi. apply dget_In in G. apply (in_map fst) in G. exact G.
      + apply dget_dset_same.
    - destruct (dget src l); [reflexivity|]. apply dget_dset_other. intros E'. apply E. symmetry. apply H1. now symmetry. }
  etransitivity; [exact (G d [] N W)|]. now destruct (dget src d).
Qed.
Lemma cam_alias d a : dwf d -> dget "device_alias" d = Some (JStr a) -> dget "alias" d = None ->
  dget "alias" (map_keys cam_mappings d) = Some (JStr a).
Proof.
  intros W H N. rewrite (map_keys_get _ _ _ "device_alias" W); [exact H|]. intros k v I. unfold new_key, cam_mappings. cbn [dget].
  repeat (match goal with |- context [String.eqb k ?l] => let E := fresh in destruct (String.eqb_spec k l) as [E|E]; [subst k; split; congruence|] end).
  split; [|congruence]. intros ->. apply In_dget in I; [congruence|exact W].
Qed.
Lemma camkid_alias d a : dwf d -> dget "alias" d = Some (JStr a) -> dget "alias" (map_keys camkid_mappings d) = Some (JStr a).
Proof.
  intros W H. rewrite (map_keys_get _ _ _ "alias" W); [exact H|]. intros k v I. unfold new_key, camkid_mappings. cbn [dget].
  repeat (match goal with |- context [String.eqb k ?l] => let E := fresh in destruct (String.eqb_spec k l) as [E|E]; [subst k; split; congruence|] end).
  reflexivity.
Qed.
Lemma nickname d a : is_text a -> a <> "" -> dget "nickname" d = Some (JStr (b64 a)) -> Setup_Model.alias d = Ok (Some a).
Proof. intros T N H. unfold Setup_Model.alias. rewrite H, (truthy_b64 a N), (decoded_text a T). reflexivity. Qed.
Lemma renamed_shown o a i i' : a_name o a -> renamed o a i i' -> alias o i' = Ok (JStr a).
Proof.
  intros A R. destruct o as [| |id| |id| |id [|]]; cbn in R; unfold alias.
  1,2: destruct R as [[W H] _]; cbn; destruct (own i'); [discriminate|]; rewrite H; reflexivity.
  1: destruct R as (_ & (d & E & W & H) & _); rewrite E; unfold dindex; now rewrite H.
  - destruct R as [H _]. destruct (A eq_refl) as [T N]. rewrite (nickname _ a T N H). reflexivity.
  - destruct R as (_ & (d & E & H) & _). rewrite E. destruct (A eq_refl) as [T N]. rewrite (nickname _ a T N H). reflexivity.
  - destruct R as ((W & H & N) & _). now rewrite (cam_alias _ _ W H N).
  - destruct R as (_ & (d & E & H) & _). rewrite E. destruct (A eq_refl) as [T N]. rewrite (nickname _ a T N H). reflexivity.
  - destruct R as (_ & (d & E & W & H) & _). rewrite E. now rewrite (camkid_alias _ _ W H).
Qed.
Lemma renamed_others o a i i' o' : renamed o a i i' -> place o' <> place o -> alias o' i' = alias o' i.
Proof.
  intros R D. unfold renamed in R. destruct (place o) as [id|] eqn:P.
  - destruct R as (E & _ & K). destruct (place o') as [id'|] eqn:P'.
    + assert (G : dget id' (kids i') = dget id' (kids i)) by (apply K; congruence).
      destruct o' as [| |x| |x| |x [|]]; cbn in P'; try discriminate; injection P' as ->; cbn; now rewrite G.
    + destruct o' as [| |x| |x| |x [|]]; cbn in P'; try discriminate; cbn; now rewrite E.
  - destruct R as [_ K]. destruct (place o') as [id'|] eqn:P'; [|congruence].
    destruct o' as [| |x| |x| |x [|]]; cbn in P'; try discriminate; cbn; now rewrite K.
Qed.

(** Renaming with the tool, the device or the child asked for: one request for just this object, then one
    update; the name shown is the new one, and every other object is called as before.  What is missing:
    names of SMART objects that are empty. *)
Theorem tool_rename_partial S handle read (w : world S) dev children kid opt index t a s :
  target dev children kid opt index = Ok t -> a_name t a -> takes handle read (phys w) t a s ->
  tool_rename S handle read dev children kid opt index a w =
    (mkWorld s (read s) (log w ++ [Sent (rename_request t a); Updated]), Ok (JStr a)) /\
  alias t (read s) = Ok (JStr a) /\
  forall o, place o <> place t -> alias o (read s) = alias o (read (phys w)).
Proof.
  intros T A (resp & x & H & An & R). split; [|split; [exact (renamed_shown _ _ _ _ A R)|intros o; exact (renamed_others _ _ _ _ o R)]].
  unfold tool_rename, rename_cmd. unfold mbind at 1, mlift at 1. rewrite T. unfold mbind.
  rewrite (set_alias_sends handle t a s resp x w H An). unfold update_all, name_of. cbn [phys seen log]. rewrite (renamed_shown _ _ _ _ A R), <- app_assoc. reflexivity.
Qed.
Print Assumptions tool_rename_partial.

(** In a program, renaming the device itself does the same. *)
Theorem api_rename_device_partial S handle read (w : world S) t a s :
  place t = None -> a_name t a -> takes handle read (phys w) t a s ->
  api_rename S handle read t a w = (mkWorld s (read s) (log w ++ [Sent (rename_request t a); Updated]), Ok (JStr a)).
Proof.
  intros P A (resp & x & H & An & R). unfold api_rename, mbind. rewrite (set_alias_sends handle t a s resp x w H An).
  replace (update S read t) with (update_all S read) by (destruct t; try discriminate P; reflexivity).
  unfold update_all, name_of. cbn [phys seen log]. rewrite (renamed_shown _ _ _ _ A R), <- app_assoc. reflexivity.
Qed.
Print Assumptions api_rename_device_partial.

(** Of a child, though, the old name is shown after the child's update, however the device obeyed. *)
Theorem api_rename_child_refuted S handle read (w : world S) t a s :
  place t <> None -> takes handle read (phys w) t a s ->
  exists w', api_rename S handle read t a w = (w', alias t (seen w)) /\ phys w' = s /\ seen w' = seen w.
Proof.
  intros P (resp & x & H & An & R). unfold api_rename, mbind. rewrite (set_alias_sends handle t a s resp x w H An).
  replace (update S read t) with (@mret (world S) unit tt) by (destruct t; try (exfalso; apply P; reflexivity); reflexivity).
  cbn. eexists. split; [reflexivity|]. split; reflexivity.
Qed.
Print Assumptions api_rename_child_refuted.

(** When the device cannot be reached or refuses, the command fails after that one request, without update. *)
Theorem rename_failed S handle read (w : world S) t a s e :
  handle (phys w) (rename_request t a) = (s, Err e) ->
  exists e', rename_cmd S handle read t a w = (mkWorld s (seen w) (log w ++ [Sent (rename_request t a)]), Err e').
Proof.
  intros H. unfold rename_cmd. unfold mbind at 1.
  assert (E : exists e', set_alias S handle t a w = (mkWorld s (seen w) (log w ++ [Sent (rename_request t a)]), Err e')).
  { destruct t as [| |id| |id| |id [|]]; unfold set_alias, ignore, mbind, mret, helper, ask, mbind, query.
    all: match goal with |- context [?f (phys ?v) ?q] => replace (f (phys v) q) with (s, @Err (dict json) e) by (symmetry; exact H) end.
    all: cbn [bind]; unfold query_helper; try (eexists; reflexivity).
    all: destruct (is_exception e); eexists; reflexivity. }
  destruct E as [e' E]. rewrite E. exists e'. reflexivity.
Qed.
Print Assumptions rename_failed.

Section Logs.
Context {S : Type} (handle : S -> sent -> S * res (dict json)).
Lemma ask_log o m p (w : world S) : ~ is_legacy o ->
  log (fst (ask S handle o (CDict [(m, p)]) w)) = log w ++ [Sent (addressed o "" m p)] /\
  phys (fst (ask S handle o (CDict [(m, p)]) w)) = fst (handle (phys w) (addressed o "" m p)) /\
  seen (fst (ask S handle o (CDict [(m, p)]) w)) = seen w.
Proof.
  intros L. destruct o; cbn in L; try (exfalso; tauto); unfold ask, mbind, query, mret, mlift.
  - change (Ask [(m, p)]) with (addressed Smart "" m p). destruct (handle (phys w) _) as [s [x|e]]; repeat split; reflexivity.
  - change (Ask (wrap_child id (CDict [(m, p)]))) with (addressed (Kid id) "" m p).
    destruct (handle (phys w) _) as [s [x|e]]; repeat split; reflexivity.
  - change (Ask [(m, p)]) with (addressed Camera "" m p). destruct (handle (phys w) _) as [s [x|e]]; repeat split; reflexivity.
  - change (Ask (wrap_cam id [(m, p)])) with (addressed (CamKid id smart) "" m p).
    destruct (handle (phys w) _) as [s [x|e]]; repeat split; reflexivity.
Qed.
Lemma helper_log o service m arg (w : world S) : is_legacy o ->
  let q := addressed o service m (match arg with Some p => p | None => JObj [] end) in
  log (fst (helper S handle o service m arg w)) = log w ++ [Sent q] /\
  phys (fst (helper S handle o service m arg w)) = fst (handle (phys w) q) /\
  seen (fst (helper S handle o service m arg w)) = seen w.
Proof.
  intros L q. assert (E : Ask (fields (create_request service m arg (match o with Socket id => Some [id] | _ => None end))) = q)
    by (subst q; destruct o; cbn in L; try tauto; reflexivity).
  unfold helper, query. rewrite E. destruct (handle (phys w) q) as [s r]; repeat split; reflexivity.
Qed.
Lemma ignore_fst {A} (m : M (world S) A) w : fst (ignore S m w) = fst (m w).
Proof. unfold ignore, mbind. destruct (m w) as [w' [x|e]]; reflexivity. Qed.
Lemma legacy_spec o : if legacy o then is_legacy o else ~ is_legacy o.
Proof. destruct o; cbn; tauto. Qed.
Lemma addressed_any o s m p : ~ is_legacy o -> addressed o s m p = addressed o "" m p.
Proof. destruct o; cbn; tauto. Qed.
Lemma answered_any o s m x r : ~ is_legacy o -> answered o s m x r = answered o "" m x r.
Proof. destruct o; cbn; tauto. Qed.
End Logs.

(** One request reached the device, and nothing else. *)
Definition just {S} (handle : S -> sent -> S * res (dict json)) (w : world S) (q : sent) (w' : world S) : Prop :=
  log w' = log w ++ [Sent q] /\ phys w' = fst (handle (phys w) q) /\ seen w' = seen w.

(** Rebooting asks just the object, once, whatever it answers. *)
Theorem reboot_addressed S handle o delay (w : world S) :
  just handle w (addressed o "system" (if legacy o then "reboot" else "device_reboot") (JObj [("delay", JInt delay)]))
       (fst (reboot S handle o delay w)).
Proof.
  unfold reboot, just. pose proof (legacy_spec o) as L. destruct (legacy o); rewrite ignore_fst.
  - exact (helper_log handle o "system" "reboot" (Some (JObj [("delay", JInt delay)])) w L).
  - rewrite (addressed_any o "system") by exact L. exact (ask_log handle o "device_reboot" (JObj [("delay", JInt delay)]) w L).
Qed.
Print Assumptions reboot_addressed.

(** So does resetting, except a child of a camera hub, which cannot be reset: the request is refused by the
    library before it is sent. *)
Theorem reset_addressed_partial S handle o (w : world S) : (forall id b, o <> CamKid id b) ->
  just handle w (reset_request o) (fst (factory_reset S handle o w)).
Proof.
  intros N. unfold factory_reset, just. pose proof (legacy_spec o) as L. destruct (legacy o) eqn:E; rewrite ignore_fst.
  - replace (reset_request o) with (addressed o "system" "reset" (JObj [])) by (destruct o; try discriminate E; reflexivity).
    exact (helper_log handle o "system" "reset" None w L).
  - destruct o; try discriminate E; try (exfalso; eapply N; reflexivity); unfold ask, mbind, query, mret, mlift.
    + change (AskName "device_reset") with (reset_request Smart). destruct (handle (phys w) _) as [s [x|e]]; repeat split; reflexivity.
    + change (Ask (wrap_child id (Child_Model.CName "device_reset"))) with (reset_request (Kid id)). destruct (handle (phys w) _) as [s [x|e]]; repeat split; reflexivity.
    + change (AskName "device_reset") with (reset_request Camera). destruct (handle (phys w) _) as [s [x|e]]; repeat split; reflexivity.
Qed.
Print Assumptions reset_addressed_partial.
Theorem reset_camera_child_refuted S handle id b (w : world S) : factory_reset S handle (CamKid id b) w = (w, Err KKasa).
Proof. destruct w. reflexivity. Qed.
Print Assumptions reset_camera_child_refuted.

Lemma params_legacy o lit : is_legacy o ->
  match (match lit with Some JNull | None => None | Some j => Some j end) with Some p => p | None => JObj [] end = params_of o lit.
Proof. destruct o, lit as [[]|]; cbn; tauto. Qed.
Lemma params_smart o lit : ~ is_legacy o ->
  match (match lit with Some JNull | None => None | Some j => Some j end) with Some p => p | None => JNull end = params_of o lit.
Proof. destruct o, lit as [[]|]; cbn; tauto. Qed.
Definition read_lit (lit : option json) : option (res json) := match lit with Some j => Some (Ok j) | None => None end.
Lemma lit_read lit : match read_lit lit with None => Ok None | Some r => let! j := r in Ok (match j with JNull => None | _ => Some j end) end =
  Ok (match lit with Some JNull | None => None | Some j => Some j end).
Proof. destruct lit as [[]|]; reflexivity. Qed.

(** A raw command passes on exactly the request, for just the object, and gives back exactly its answer. *)
Theorem raw_passes S handle o service m lit (w : world S) :
  let q := addressed o service m (params_of o lit) in
  just handle w q (fst (raw_cmd S handle o (Some service) m (read_lit lit) w)) /\
  forall resp x, snd (handle (phys w) q) = Ok resp -> answered o service m x resp ->
    exists a, snd (raw_cmd S handle o (Some service) m (read_lit lit) w) = Ok a /\ gives m x a.
Proof.
  intros q. unfold raw_cmd. unfold mbind at 1 3, mlift at 1 2. rewrite lit_read. unfold just. pose proof (legacy_spec o) as L. destruct (legacy o).
  - subst q. rewrite <- (params_legacy o lit L). set (arg := match lit with Some JNull | None => None | Some j => Some j end).
    pose proof (helper_log handle o service m arg w L) as H. cbv zeta in H. unfold mbind, mret. split.
    + destruct (helper S handle o service m arg w) as [w' [j|e]]; exact H.
    + intros resp x R A. assert (E : helper S handle o service m arg w = (fst (helper S handle o service m arg w), Ok x)).
      { assert (Q : Ask (fields (create_request service m arg (match o with Socket id => Some [id] | _ => None end))) =
                    addressed o service m (match arg with Some p => p | None => JObj [] end))
          by (clear - L; destruct o; cbn in L; try tauto; reflexivity).
        unfold helper, query. rewrite Q. destruct (handle (phys w) _) as [s r]. cbn in R. subst r. cbn [fst bind].
        now rewrite (helper_answers o service m x resp L A). }
      rewrite E. cbn. eexists. split; reflexivity.
  - subst q. rewrite <- (params_smart o lit L). set (p := match _ with Some j => j | None => JNull end).
    rewrite (addressed_any o service) by exact L. pose proof (ask_log handle o m p w L) as H. unfold mbind, mret. split.
    + destruct (ask S handle o (CDict [(m, p)]) w) as [w' [j|e]]; exact H.
    + intros resp x R A. rewrite (answered_any o service) in A by exact L.
      destruct (handle (phys w) (addressed o "" m p)) as [s r] eqn:Hh. cbn in R. subst r.
      destruct (ask_answers handle o m p x resp s w L Hh A) as (d & E & G). match goal with |- context [ask _ _ _ ?r _] => change r with (CDict [(m, p)]) end. rewrite E. cbn. exists (ADict d). split; [reflexivity|exact G].
Qed.
Print Assumptions raw_passes.
(** Parameters that cannot be read: nothing is sent.  Without the name of the service a legacy device gets a
    request for none, and the command fails whatever it answers. *)
Theorem raw_fails S handle o m (w : world S) :
  (forall module e, raw_cmd S handle o module m (Some (Err e)) w = (w, Err e)) /\
  (is_legacy o -> forall lit s r, handle (phys w) (addressed o "null" m (params_of o lit)) = (s, r) ->
     exists e, raw_cmd S handle o None m (read_lit lit) w = (mkWorld s (seen w) (log w ++ [Sent (addressed o "null" m (params_of o lit))]), Err e)).
Proof.
  split.
  - intros module e. destruct w. reflexivity.
  - intros L lit s r H. unfold raw_cmd. unfold mbind at 1, mlift at 1. rewrite lit_read.
    pose proof (legacy_spec o) as L'. destruct (legacy o); [|contradiction].
    set (arg := match lit with Some JNull | None => None | Some j => Some j end).
    assert (Q : Ask (fields (create_request "null" m arg (match o with Socket id => Some [id] | _ => None end))) =
                addressed o "null" m (params_of o lit)).
    { rewrite <- (params_legacy o lit L). subst arg. destruct o; cbn in L; try tauto; reflexivity. }
    unfold query. rewrite Q, H. destruct r as [x|e]; [eexists; reflexivity|]. destruct (is_exception e); eexists; reflexivity.
Qed.
Print Assumptions raw_fails.
(** For a child, the device is updated first, so that its children are known. *)
Theorem raw_child S handle read dev children kid opt index t service m lit (w : world S) :
  target dev children kid opt index = Ok t ->
  let w1 := if asked opt index then mkWorld (phys w) (read (phys w)) (log w ++ [Updated]) else w in
  tool_raw S handle read dev children kid opt index service m lit w = raw_cmd S handle t service m lit w1.
Proof.
  intros T. unfold tool_raw, mbind, mlift. destruct (asked opt index); cbn [update_all mret]; unfold update_all, mret; rewrite T; reflexivity.
Qed.
Print Assumptions raw_child.

(** Resetting and replacing credentials with the tool: nothing is sent without confirmation, nothing about
    credentials to a legacy device; confirmed, just the one request. *)
Theorem tool_confirms S handle dev (w : world S) time u p :
  (exists e, tool_reset S handle dev false w = (w, Err e)) /\
  (exists e, tool_credentials S handle dev false time u p w = (w, Err e)) /\
  (is_legacy dev -> forall yes, exists e, tool_credentials S handle dev yes time u p w = (w, Err e)) /\
  (~ is_legacy dev -> forall t, time = Some t ->
     just handle w (addressed dev "" "set_qs_info" (JObj [("account", JObj [("username", JStr (b64 u)); ("password", JStr (b64 p))]); ("time", t)]))
          (fst (tool_credentials S handle dev true time u p w))) /\
  ((forall id b, dev <> CamKid id b) -> just handle w (reset_request dev) (fst (tool_reset S handle dev true w))).
Proof.
  split; [destruct w; eexists; reflexivity|]. split; [|split; [|split]].
  - unfold tool_credentials. destruct (legacy dev); destruct w; eexists; reflexivity.
  - intros L yes. pose proof (legacy_spec dev) as L'. unfold tool_credentials. destruct (legacy dev); [destruct w; eexists; reflexivity|contradiction].
  - intros L t ->. pose proof (legacy_spec dev) as L'. unfold tool_credentials. destruct (legacy dev); [contradiction|]. cbn [negb].
    unfold just. rewrite ignore_fst. exact (ask_log handle dev "set_qs_info" _ w L).
  - intros N. exact (reset_addressed_partial S handle dev w N).
Qed.
Print Assumptions tool_confirms.

(** ** Instances: a device that keeps the information of itself and its children *)
Definition home : infos := mkInfos [("nickname", JStr (b64 "hub"))]
  [("A1", [("device_id", JStr "A1"); ("nickname", JStr (b64 "door"))]); ("B2", [("device_id", JStr "B2"); ("nickname", JStr (b64 "window"))])].
Definition strip : infos := mkInfos [("alias", JStr "strip")] [("00", [("id", JStr "00"); ("alias", JStr "lamp")]); ("01", [("id", JStr "01"); ("alias", JStr "fan")])].
Definition home' : infos := mkInfos (own home) (dset "B2" [("device_id", JStr "B2"); ("nickname", JStr (b64 "gate"))] (kids home)).
Example home_rename : takes (fun _ _ => (home',
      Ok [("control_child", JObj [("responseData", JObj [("error_code", JInt 0)])])])) (fun i => i) home (Kid "B2") "gate" home' /\
  a_name (Kid "B2") "gate" /\
  target Smart [mkDev "A1" (Some "door"); mkDev "B2" (Some "window")] Kid (CName "Window") None = Ok (Kid "B2") /\
  alias (Kid "B2") home = Ok (JStr "window") /\ alias (Kid "A1") home' = Ok (JStr "door").
Proof.
  split; [|split; [|split; [|split]]]; try (vm_compute; reflexivity).
  - eexists. exists JNull. split; [reflexivity|]. split.
    + exists [("error_code", JInt 0)]. split; [eexists; split; reflexivity|]. split; [split; [reflexivity|right; split; reflexivity]|now left].
    + split; [reflexivity|]. split; [eexists; split; reflexivity|]. intros id' N. now apply dget_dset_other.
  - intros _. split; [apply ascii_text; reflexivity|discriminate].
Qed.
Definition strip' : infos := mkInfos (own strip) (dset "01" [("id", JStr "01"); ("alias", JStr "heater")] (kids strip)).
Example strip_rename : takes (fun _ _ => (strip',
      Ok [("system", JObj [("set_dev_alias", JObj [("err_code", JInt 0)])])])) (fun i => i) strip (Socket "01") "heater" strip' /\
  target Plain [mkDev "00" (Some "lamp"); mkDev "01" (Some "fan")] Socket CNone (Some 1) = Ok (Socket "01") /\
  alias (Socket "01") strip = Ok (JStr "fan").
Proof.
  split; [|split]; try (vm_compute; reflexivity).
  eexists. exists (JObj []). split; [reflexivity|]. split.
  - eexists. eexists. split; [reflexivity|]. split; [reflexivity|]. split; [reflexivity|]. split; [now right|reflexivity].
  - split; [reflexivity|]. split.
    + eexists. split; [reflexivity|]. split; [|reflexivity]. repeat constructor; cbn; intuition discriminate.
    + intros id' N. now apply dget_dset_other.
Qed.
Example camera_renamed : renamed Camera "yard" (mkInfos [("device_alias", JStr "cam"); ("device_model", JStr "C210")] [])
                                               (mkInfos [("device_alias", JStr "yard"); ("device_model", JStr "C210")] []).
Proof. split; [|reflexivity]. split; [|split; reflexivity]. repeat constructor; cbn; intuition discriminate. Qed.

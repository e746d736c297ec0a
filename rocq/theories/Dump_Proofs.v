(** Proofs about the files for publication. *)
From Coq Require Import Lia DecimalString DecimalNat.
From Verif Require Import Base Base_Lemmas Py Redact_Model Redact_Spec Redact_Proofs Factory_Model Table_Model Dump_Model Dump_Spec.
Open Scope string_scope.
Open Scope list_scope.
Open Scope Z_scope.

Lemma prefix_app x : forall s, String.prefix x s = true -> exists b, s = (x ++ b)%string.
Proof.
  induction x as [|c x IH]; intros s H; [exists s; reflexivity|]. destruct s as [|d s]; [discriminate H|]. cbn in H.
  destruct (ascii_dec c d) as [->|]; [|discriminate H]. destruct (IH s H) as (b & ->). exists b. reflexivity.
Qed.
Lemma sin_contains x s : sin x s = true -> contains x s.
Proof.
  unfold sin. induction s as [|c s IH]; intros H.
  - destruct x; [exists "", ""; reflexivity|discriminate H].
  - cbn [String.index] in H. destruct (String.prefix x (String c s)) eqn:P.
    + destruct (prefix_app _ _ P) as (b & E). exists "", b. rewrite E. reflexivity.
    + destruct (String.index 0 x s); [|discriminate H]. destruct (IH eq_refl) as (a & b & ->). exists (String c a), b. reflexivity.
Qed.
Lemma smem_smap f c s : smem_char c (smap f s) = true -> exists d, smem_char d s = true /\ f d = c.
Proof.
  induction s as [|e s IH]; cbn; [discriminate|]. destruct (Ascii.eqb_spec c (f e)) as [E|]; cbn.
  - intros _. exists e. rewrite Ascii.eqb_refl. auto.
  - intros H. destruct (IH H) as (d & D & E). exists d. rewrite D, orb_true_r. auto.
Qed.
Lemma zeros_only s : only_zeros (zeros s).
Proof.
  intros c H W. apply wordlike_masked in W. destruct (smem_smap _ _ _ H) as (d & _ & E). destruct (word_char d) eqn:D; [now symmetry|]. subst c. congruence.
Qed.
Lemma zeros_id s : only_zeros s -> zeros s = s.
Proof.
  intros H. induction s as [|c s IH]; [reflexivity|]. unfold zeros in *. cbn [smap]. rewrite IH.
  - f_equal. destruct (word_char c) eqn:W; [|reflexivity]. symmetry. apply H; [cbn; now rewrite Ascii.eqb_refl|now apply masked_wordlike].
  - intros d D W. apply H; [cbn; now rewrite D, orb_true_r|exact W].
Qed.
Lemma to_zeros_only s : only_zeros s -> to_zeros (JStr s) = JStr s.
Proof. intros H. cbn. destruct (sin "REDACT" s); [|reflexivity]. now rewrite zeros_id. Qed.
Lemma sdrop_smap f n s : sdrop n (smap f s) = smap f (sdrop n s).
Proof. revert s. induction n as [|n IH]; intros [|c s]; cbn; auto. Qed.
Lemma sin_app x b : sin x (x ++ b) = true.
Proof.
  unfold sin. destruct x as [|c x]; [destruct b; reflexivity|]. cbn [append String.index].
  assert (P : String.prefix (String c x) (String c (x ++ b)) = true).
  { change (String c (x ++ b)) with (String c x ++ b)%string. generalize (String c x). induction s as [|d s IH]; [destruct b; reflexivity|]. cbn. now destruct (ascii_dec d d). }
  now rewrite P.
Qed.

Lemma sin_tail b : sin "REDACT" ("REDACTED_" ++ b) = true.
Proof. exact (sin_app "REDACT" ("ED_" ++ b)). Qed.

(** *** One value *)
(** What [scrub] gives, for a text that is not yet scrubbed and for other values *)
Lemma scrub_cases k f x : smem k ["ip"; "local_ip"] = false ->
  scrub k (Some f) x = Ok x /\ (exists s, x = JStr s /\ contains "SCRUBBED" s) \/ scrub k (Some f) x = (let! v := f x in Ok (to_zeros v)).
Proof.
  intros K. unfold scrub. rewrite K. destruct x; auto. destruct (sin "SCRUBBED" s) eqn:E; [|auto]. left. split; [reflexivity|]. exists s. split; [reflexivity|]. now apply sin_contains.
Qed.
Lemma hidden_by k f x : smem k ["ip"; "local_ip"] = false -> (forall v, f x = Ok v -> hidden k (to_zeros v)) ->
  hidden k (apply_redactor (Some (scrub k (Some f))) x).
Proof.
  intros K H. unfold apply_redactor. destruct (scrub_cases k f x K) as [(-> & S)| ->]; [apply HMarked; now right|].
  destruct (f x) as [v|e] eqn:E; [|apply HMarked; left; reflexivity]. cbn. now apply H.
Qed.
Lemma hide_const k c x : smem k ["ip"; "local_ip"] = false -> hidden k (to_zeros c) -> hidden k (apply_redactor (Some (scrub k (Some (const c)))) x).
Proof. intros K H. apply hidden_by; [exact K|]. intros v E. injection E as <-. exact H. Qed.
Lemma hide_const_if k c l x : smem k ["ip"; "local_ip"] = false -> dget k stand_ins = Some l -> In c l -> In "" l -> sin "REDACT" c = false ->
  hidden k (apply_redactor (Some (scrub k (Some (const_if c)))) x).
Proof.
  intros K D I I0 R. apply hidden_by; [exact K|]. intros v E. injection E as <-. cbn [to_zeros]. destruct (truthy x).
  - rewrite R. now apply (HName k l).
  - now apply (HName k l).
Qed.
Lemma hide_tail k x : smem k ["ip"; "local_ip"] = false -> In k ids -> hidden k (apply_redactor (Some (scrub k (Some keep_tail))) x).
Proof.
  intros K I. apply hidden_by; [exact K|]. intros v E. destruct x; try discriminate E. 
  replace v with (JStr ("REDACTED_" ++ sdrop 9 s)%string) by (unfold keep_tail, on_str in E; congruence). unfold to_zeros. rewrite sin_tail. apply HId; [exact I|apply zeros_only].
Qed.
Lemma hide_words k x : smem k ["ip"; "local_ip"] = false -> In k ids -> hidden k (apply_redactor (Some (scrub k (Some zero_words))) x).
Proof.
  intros K I. apply hidden_by; [exact K|]. intros v E. destruct x; try discriminate E. injection E as <-.
  rewrite to_zeros_only by apply zeros_only. apply HId; [exact I|apply zeros_only].
Qed.
Lemma stake_length n s : (String.length (stake n s) <= n)%nat.
Proof. revert s. induction n as [|n IH]; intros [|c s]; cbn; try lia. specialize (IH s). lia. Qed.
Lemma smem_sdrop c n : forall s, smem_char c (sdrop n s) = true -> smem_char c s = true.
Proof. induction n as [|n IH]; intros [|d s]; cbn; auto. intros H. rewrite (IH s H). apply orb_true_r. Qed.
Lemma sdrop_app c n : forall a b, (String.length a <= n)%nat -> smem_char c (sdrop n (a ++ b)) = true -> smem_char c b = true.
Proof.
  induction n as [|n IH]; intros [|d a] b L H; cbn in *; try lia; auto.
  - destruct b as [|e b]; [exact H|]. cbn. apply orb_true_iff. right. now apply smem_sdrop in H.
  - apply (IH a); [lia|exact H].
Qed.
Lemma mask_no_device m : no_device_part (mask_mac m).
Proof.
  intros c H. unfold mask_mac in H. destruct (Nat.eqb (String.length m) 12).
  - apply sdrop_app in H; [|pose proof (stake_length 6 m); lia]. cbn in H. rewrite !orb_true_iff in H.
    repeat destruct H as [H|H]; try discriminate H; apply Ascii.eqb_eq in H; subst; cbn; auto.
  - apply sdrop_app in H; [|apply stake_length].
    destruct (smem_char ":" m); cbn in H; rewrite !orb_true_iff in H;
      repeat destruct H as [H|H]; try discriminate H; apply Ascii.eqb_eq in H; subst; cbn; auto.
Qed.
Lemma hide_mac k x : smem k ["ip"; "local_ip"] = false -> In k ["mac"; "mic_mac"] -> hidden k (apply_redactor (Some (scrub k (Some mac_redactor))) x).
Proof.
  intros K I. apply hidden_by; [exact K|]. intros v E. destruct x; try discriminate E. injection E as <-. cbn [to_zeros].
  destruct (sin "REDACT" (mask_mac s)); apply HMac; auto using mask_no_device.
  intros c H. unfold zeros in H. rewrite sdrop_smap in H. destruct (smem_smap _ _ _ H) as (d & D & E). apply mask_no_device in D. cbn in D.
  destruct D as [<-|[<-|[<-|[]]]]; cbn in E; subst; cbn; auto.
Qed.
Lemma hide_ip k f x : smem k ["ip"; "local_ip"] = true -> hidden k (apply_redactor (Some (scrub k (Some f))) x).
Proof.
  intros K. unfold apply_redactor, scrub. rewrite K. cbn in K.
  destruct (String.eqb_spec k "ip") as [E|]; [subst; apply (HName _ ["127.0.0.123"]); cbn; auto|].
  destruct (String.eqb_spec k "local_ip") as [E|]; [subst; apply (HName _ ["127.0.0.123"]); cbn; auto|discriminate K].
Qed.
Lemma mapM_nth {A B} (f : nat -> A -> res B) : forall l n l', mapM f n l = Ok l' -> forall i y, nth_error l' i = Some y ->
  exists x, nth_error l i = Some x /\ f (n + i)%nat x = Ok y.
Proof.
  induction l as [|a l IH]; intros n l' H i y E; cbn in H.
  - injection H as <-. destruct i; discriminate E.
  - destruct (f n a) as [b|] eqn:F; [|discriminate H]. cbn in H. destruct (mapM f (S n) l) as [bs|] eqn:G; [|discriminate H]. injection H as <-.
    destruct i as [|i]; cbn in E.
    + injection E as <-. exists a. rewrite Nat.add_0_r. auto.
    + destruct (IH _ _ G i y E) as (x & X & Y). exists x. cbn. split; [exact X|]. now rewrite <- Nat.add_succ_comm.
Qed.
Lemma hide_areas x : hidden "area_list" (apply_redactor (Some (scrub "area_list" (Some mask_area_list))) x).
Proof.
  apply hidden_by; [reflexivity|]. intros v E. unfold mask_area_list in E. destruct (jiter x) as [l|]; [|discriminate E]. cbn [bind] in E.
  destruct (mapM mask_area 0 l) as [l'|] eqn:M; [|discriminate E]. injection E as <-. cbn [to_zeros]. apply HAreas. apply Forall_forall.
  intros a I. apply In_nth_error in I. destruct I as (i & I). destruct (mapM_nth _ _ _ _ M i a I) as (y & _ & F). cbn in F.
  destruct y as [| | | | | |d]; try discriminate F. injection F as <-. eexists. split; [reflexivity|]. intros n N.
  destruct (dget "name" d) as [m|] eqn:Dn; [|congruence]. destruct (truthy m) eqn:T.
  - rewrite dget_dset_same in N. injection N as <-. auto.
  - rewrite Dn in N. injection N as <-. auto.
Qed.
Lemma hide_sockets x : hidden "children" (apply_redactor (Some (scrub "children" (Some mask_children))) x).
Proof.
  apply hidden_by; [reflexivity|]. intros v E. unfold mask_children in E. destruct (jiter x) as [l|]; [|discriminate E]. cbn [bind] in E.
  destruct (mapM mask_child 0 l) as [l'|] eqn:M; [|discriminate E]. injection E as <-. cbn [to_zeros]. apply HSockets.
  intros i a I. destruct (mapM_nth _ _ _ _ M i a I) as (y & _ & F). cbn [Nat.add] in F. unfold mask_child in F.
  destruct y as [| | | | | |d]; try discriminate F. injection F as <-. do 2 eexists. split; [reflexivity|]. split; [reflexivity|].
  destruct (dget "alias" d) as [m|] eqn:Dn; [|split; [apply dget_dset_same|]].
  - destruct (truthy m) eqn:T; (split; [rewrite ?(dget_dset_other "id" "alias") by discriminate; apply dget_dset_same|]).
    + intros b N. rewrite dget_dset_same in N. injection N as <-. auto.
    + intros b N. rewrite dget_dset_other in N by discriminate. rewrite Dn in N. injection N as <-. auto.
  - intros b N. rewrite dget_dset_other in N by discriminate. congruence.
Qed.
Lemma to_zeros_obj d : to_zeros (JObj d) = JObj (map (fun kv => (fst kv, (fun _ => to_zeros) (fst kv) (snd kv))) d).
Proof. reflexivity. Qed.
Lemma hide_encrypt x : hidden "encrypt_info" (apply_redactor (Some (scrub "encrypt_info" (Some empty_encrypt_info))) x).
Proof.
  apply hidden_by; [reflexivity|]. intros v E. destruct x as [| | | | | |d]; try discriminate E. injection E as <-. rewrite to_zeros_obj.
  apply HKey; rewrite (dget_map_entry (fun _ => to_zeros)).
  - rewrite dget_dset_other by discriminate. rewrite dget_dset_same. reflexivity.
  - rewrite dget_dset_same. reflexivity.
Qed.
Lemma at_to_zeros : forall p v, at_path (map Key p) (to_zeros v) = option_map to_zeros (at_path (map Key p) v).
Proof.
  induction p as [|k p IH]; intros v; [reflexivity|]. destruct v; try reflexivity.
  - cbn [to_zeros]. destruct (sin "REDACT" s); reflexivity.
  - rewrite to_zeros_obj. cbn [map at_path]. rewrite (dget_map_entry (fun _ => to_zeros)). destruct (dget k d); [|reflexivity]. apply IH.
Qed.
Lemma hide_decrypted x : hidden "decrypted_data" (apply_redactor (Some (scrub "decrypted_data" (Some (fun v => Ok (redact_data decrypted_redactors v))))) x).
Proof.
  apply hidden_by; [reflexivity|]. intros v E. injection E as <-. destruct x as [| | | |s|l|d]; try (apply HOther; cbn; intros d; discriminate).
  - apply HOther. intros d. cbn. destruct (sin "REDACT" s); discriminate.
  - rewrite redact_obj, to_zeros_obj. apply HMore. rewrite <- to_zeros_obj, <- redact_obj. intros p k v C A. rewrite at_to_zeros in A.
    rewrite map_app in A. cbn [map] in A.
    assert (C' : clean decrypted_redactors (map Key p)).
    { intros k' I. apply C in I. cbn in I |- *. destruct (String.eqb k' "connect_ssid"); [discriminate I|]. destruct (String.eqb k' "device_id"); [discriminate I|].
      destruct (String.eqb k' "owner"); [discriminate I|reflexivity]. }
    assert (R : forall r, dget k decrypted_redactors = Some r -> exists z, v = to_zeros (if skipped z then z else apply_redactor r z)).
    { intros r R. destruct (at_path (map Key p ++ [Key k]) (JObj d)) as [z|] eqn:Z.
      - rewrite (redact_masks_lemma _ _ _ _ _ _ C' R Z) in A. cbn in A. injection A as <-. exists z. reflexivity.
      - exfalso. rewrite at_path_app in A, Z. rewrite at_redact in A by exact C'. destruct (at_path (map Key p) (JObj d)) as [z|]; [|discriminate A].
        destruct z as [| | | | | |e]; try discriminate A. rewrite redact_obj in A. cbn [at_path] in *. rewrite (dget_map_entry (entry _)) in A.
        destruct (dget k e); [discriminate Z|discriminate A]. }
    assert (B : forall z, skipped z = true -> blank (to_zeros z)) by (intros z Sz; apply skipped_blank in Sz; destruct Sz as [->| ->]; [left|right]; reflexivity).
    split.
    + intros ->. destruct (R _ eq_refl) as (z & ->). destruct (skipped z) eqn:Sz; [left; auto|]. cbn. destruct (truthy z); [right; reflexivity|left; right; reflexivity].
    + intros K. assert (Rk : dget k decrypted_redactors = Some (Some keep_tail)) by (destruct K as [->| ->]; reflexivity).
      destruct (R _ Rk) as (z & ->). destruct (skipped z) eqn:Sz; [left; auto|]. right. cbn [apply_redactor].
      destruct z; try (eexists; split; [reflexivity|apply zeros_only]).
Qed.

Lemma wrap_get t k : dget k (wrap_redactors t) = option_map (fun r => Some (scrub k r)) (dget k t).
Proof. unfold wrap_redactors. rewrite (dget_map_entry (fun k r => Some (scrub k r))). now destruct (dget k t). Qed.
Lemma table_hides t k r x : In t [smart_redactors; iot_redactors; new_discovery_redactors] -> dget k t = Some r -> hidden k (apply_redactor (Some (scrub k r)) x).
Proof.
  intros T D. apply dget_In in D.
  assert (G : In (k, r) smart_redactors \/ In (k, r) iot_redactors \/ In (k, r) new_discovery_redactors) by (cbn [In] in T; intuition congruence).
  clear T D. unfold smart_redactors, iot_redactors, new_discovery_redactors in G. cbn [In] in G.
  repeat match goal with H : _ \/ _ |- _ => destruct H as [H|H] end; try contradiction; injection G as <- <-;
    first [ apply hide_tail; [reflexivity|cbn; tauto]
          | apply hide_const; [reflexivity|apply HPlace; cbn; tauto]
          | apply hide_const; [reflexivity|eapply HName; [reflexivity|cbn; tauto]]
          | eapply hide_const_if; [reflexivity|reflexivity|cbn; tauto|cbn; tauto|reflexivity]
          | apply hide_words; [reflexivity|cbn; tauto]
          | apply hide_mac; [reflexivity|cbn; tauto]
          | apply hide_ip; reflexivity
          | apply hide_areas | apply hide_sockets | apply hide_encrypt | apply hide_decrypted ].
Qed.
Lemma clean_wrap t p : clean t p -> clean (wrap_redactors t) p.
Proof. intros C k I. rewrite wrap_get, (C k I). reflexivity. Qed.
Lemma redact_publishable t but v : In t [smart_redactors; iot_redactors; new_discovery_redactors] -> publishable t but (redact_data (wrap_redactors t) v).
Proof.
  intros T p k x C K _ A. destruct (dget k t) as [r|] eqn:R; [|congruence].
  assert (R' : dget k (wrap_redactors t) = Some (Some (scrub k r))) by now rewrite wrap_get, R.
  destruct (at_path (p ++ [Key k]) v) as [z|] eqn:Z.
  - rewrite (redact_masks_lemma _ _ _ _ _ _ (clean_wrap t p C) R' Z) in A. injection A as <-. destruct (skipped z) eqn:S.
    + apply HBlank. now apply skipped_blank.
    + now apply (table_hides t).
  - exfalso. rewrite at_path_app in A, Z. rewrite at_redact in A by now apply clean_wrap. destruct (at_path p v) as [z|]; [|discriminate A].
    destruct z as [| | | | | |e]; try discriminate A. rewrite redact_obj in A. cbn [at_path] in *. rewrite (dget_map_entry (entry _)) in A.
    destruct (dget k e); [discriminate Z|discriminate A].
Qed.

(** *** Changing one entry of what may be published *)
Lemma pub_dset t but k v d : publishable t but (JObj d) -> In k but \/ (dget k t = None /\ publishable t [] v) -> publishable t but (JObj (dset k v d)).
Proof.
  intros H K p k0 x C T B A. destruct p as [|[q|i] p]; [| |discriminate A].
  - cbn in A. rewrite dget_dset in A. destruct (String.eqb_spec k0 k) as [E|].
    + subst. destruct K as [K|[K _]]; [|congruence]. destruct (B k eq_refl K).
    + apply (H [] k0 x C T B). exact A.
  - cbn [app at_path] in A. rewrite dget_dset in A. destruct (String.eqb_spec q k) as [E|].
    + subst. destruct K as [K|[_ K]]; [destruct (B k eq_refl K)|]. apply (K p k0 x); auto. intros k' I. apply C. now right.
    + apply (H (Key q :: p) k0 x C T B). exact A.
Qed.
Lemma pub_sub t but v p x : publishable t but v -> clean t p -> p <> [] -> (forall k, hd_error p = Some (Key k) -> ~ In k but) -> at_path p v = Some x -> publishable t [] x.
Proof.
  intros H C N B A q k y Cq T _ Y. apply (H (p ++ q) k y).
  - intros k' I. apply in_app_iff in I. destruct I as [I|I]; auto.
  - exact T.
  - intros t0. destruct p as [|a p]; [congruence|]. cbn. intros E. injection E as ->. apply B. reflexivity.
  - rewrite <- app_assoc, at_path_app, A. exact Y.
Qed.
Lemma redacted_obj t d : JObj (redacted t d) = redact_data (wrap_redactors t) (JObj d).
Proof. unfold redacted. rewrite redact_obj. reflexivity. Qed.
Lemma pub_weaken t but v : publishable t [] v -> publishable t but v.
Proof. intros H p k x C T _. apply (H p k x C T). intros t0 _ []. Qed.

(** *** What is kept *)
Lemma kept_refl t b v : kept t b v v.
Proof. intros p x _ _ _ A. exact A. Qed.
Lemma kept_trans t b v v' v'' : kept t b v v' -> kept t b v' v'' -> kept t b v v''.
Proof. intros H H' p x C B L A. eauto. Qed.
Lemma kept_weaken t b v v' : kept t [] v v' -> kept t b v v'.
Proof. intros H p x C _ L A. apply H; auto. Qed.
Lemma kept_dset t b k v d : (dget k t <> None \/ In k b \/ exists w, dget k d = Some w /\ kept t [] w v) -> kept t b (JObj d) (JObj (dset k v d)).
Proof.
  intros H p x C B L A. destruct p as [|[q|i] p]; [| |discriminate A].
  - injection A as <-. destruct L as [_ L]. now destruct (L d).
  - cbn in *. rewrite dget_dset. destruct (String.eqb_spec q k) as [E|]; [|exact A]. subst.
    destruct H as [H|[H|(w & W & H)]].
    + exfalso. apply H, C. now left.
    + destruct (B k eq_refl H).
    + rewrite W in A. apply H; auto. intros k' I. apply C. now right.
Qed.
Lemma kept_arr t l l' : Forall2 (kept t []) l l' -> kept t [] (JArr l) (JArr l').
Proof.
  intros H p x C B L A. destruct p as [|[q|i] p]; [|discriminate A|].
  - injection A as <-. destruct L as [L _]. now destruct (L l).
  - assert (Cp : clean t p) by (intros k' I; apply C; now right). clear C B. cbn in *. revert i A.
    induction H as [|a a' l l' Ha Hl IH]; intros i A; [destruct i; discriminate A|].
    destruct i as [|i]; cbn in *; [|auto]. apply Ha; auto.
Qed.
Lemma kept_redact t v : kept t [] v (redact_data (wrap_redactors t) v).
Proof.
  intros p x C _ [La Lo] A. rewrite at_redact by now apply clean_wrap. rewrite A. destruct x; try reflexivity; exfalso; [now apply (La l)|now apply (Lo d)].
Qed.

(** *** The ids of the children *)
Lemma string_of_nat_inj a b : string_of_nat a = string_of_nat b -> a = b.
Proof.
  intros H. unfold string_of_nat in H.
  assert (E : NilZero.uint_of_string (NilZero.string_of_uint (Nat.to_uint a)) = NilZero.uint_of_string (NilZero.string_of_uint (Nat.to_uint b))) by now rewrite H.
  assert (U : forall n, NilZero.uint_of_string (NilZero.string_of_uint (Nat.to_uint n)) = Some (Nat.to_uint n)).
  { intros n. apply NilZero.usu. intros Z. assert (Z' := Z). apply (f_equal Nat.of_uint) in Z'. rewrite Unsigned.of_to in Z'. cbn in Z'. subst. discriminate Z. }
  rewrite !U in E. injection E as E. now apply Unsigned.to_uint_inj.
Qed.
Lemma stand_in_inj a b : stand_in_id a = stand_in_id b -> a = b.
Proof.
  unfold stand_in_id. intros H.
  assert (A : forall p x y : string, (p ++ x = p ++ y)%string -> x = y) by (induction p as [|c p IH]; cbn; intros x y E; [exact E|injection E; auto]).
  apply A, string_of_nat_inj in H. lia.
Qed.
Lemma id_map_get : forall l n i id, dget i (id_map_from n l) = Some id -> exists j, nth_error l j = Some i /\ id = stand_in_id (n + j)%nat.
Proof.
  induction l as [|a l IH]; intros n i id H; [discriminate H|]. cbn [id_map_from] in H.
  assert (T : dget i (id_map_from (S n) l) = Some id -> exists j, nth_error (a :: l) j = Some i /\ id = stand_in_id (n + j)).
  { intros T. destruct (IH _ _ _ T) as (j & J & ->). exists (S j). split; [exact J|]. f_equal. lia. }
  destruct (String.eqb_spec a ""); [auto|]. cbn in H. destruct (String.eqb_spec i a) as [E|]; [|auto]. injection H as <-. exists 0%nat. subst. rewrite Nat.add_0_r. auto.
Qed.
Lemma id_map_has : forall l n j i, NoDup l -> nth_error l j = Some i -> i <> "" -> dget i (id_map_from n l) = Some (stand_in_id (n + j)%nat).
Proof.
  induction l as [|a l IH]; intros n j i N J I; [destruct j; discriminate J|]. inversion N as [|? ? Na Nl]; subst. cbn [id_map_from].
  destruct j as [|j]; cbn in J.
  - injection J as ->. destruct (String.eqb_spec i ""); [congruence|]. cbn. rewrite String.eqb_refl, Nat.add_0_r. reflexivity.
  - replace (n + S j)%nat with (S n + j)%nat by lia. destruct (String.eqb_spec a ""); [now apply IH|]. cbn [dget].
    destruct (String.eqb_spec i a) as [E|]; [|now apply IH]. exfalso. subst. apply nth_error_In in J. contradiction.
Qed.
Lemma stand_in_scrubbed n : sin "SCRUBBED" (stand_in_id n) = true.
Proof. exact (sin_app "SCRUBBED" ("_CHILD_DEVICE_ID_" ++ string_of_nat (S n))). Qed.

Lemma map_res_nth {A B} (f : A -> res B) : forall l l', map_res f l = Ok l' -> Forall2 (fun a b => f a = Ok b) l l'.
Proof.
  induction l as [|a l IH]; intros l' H; cbn in H; [injection H as <-; constructor|].
  destruct (f a) as [b|] eqn:F; [|discriminate H]. cbn in H. destruct (map_res f l) as [m|] eqn:G; [|discriminate H]. injection H as <-. constructor; auto.
Qed.
Lemma scrub_list_shape f method key main main' : scrub_list f method key main = Ok main' ->
  exists r l l', dget method main = Some (JObj r) /\ dget key r = Some (JArr l) /\ Forall2 (fun a b => f a = Ok b) l l' /\
    main' = dset method (JObj (dset key (JArr l') r)) main.
Proof.
  unfold scrub_list, dindex. destruct (dget method main) as [r|] eqn:M; [|discriminate]. cbn [bind]. destruct r as [| | | | | |r]; try discriminate. cbn [jitem].
  unfold dindex. destruct (dget key r) as [l|] eqn:K; [|discriminate]. cbn [bind]. destruct l as [| | | | |l|]; try discriminate.
  destruct (map_res f l) as [l'|] eqn:F; [|discriminate]. cbn [bind]. intros H. injection H as <-. exists r, l, l'. repeat split; auto using map_res_nth.
  cbn [put]. rewrite K. reflexivity.
Qed.
Lemma scrub_list_kept t f method key main main' : (forall a b, f a = Ok b -> kept t [] a b) -> scrub_list f method key main = Ok main' ->
  kept t [] (JObj main) (JObj main').
Proof.
  intros F H. destruct (scrub_list_shape _ _ _ _ _ H) as (r & l & l' & M & K & L & ->).
  apply kept_dset. right. right. exists (JObj r). split; [exact M|]. apply kept_dset. right. right. exists (JArr l). split; [exact K|].
  apply kept_arr. clear - L F. induction L; constructor; auto.
Qed.
Lemma scrub_entry_shape m a b : scrub_entry m a = Ok b -> exists d i id, a = JObj d /\ dget "device_id" d = Some (JStr i) /\ dget i m = Some id /\ b = JObj (dset "device_id" (JStr id) d).
Proof.
  unfold scrub_entry. destruct a as [| | | | | |d]; try discriminate. cbn [jitem]. unfold dindex. destruct (dget "device_id" d) as [v|] eqn:D; [|discriminate]. cbn [bind].
  destruct v as [| | | |i| |]; try discriminate. cbn [lookup]. unfold dindex. destruct (dget i m) as [id|] eqn:I; [|discriminate]. cbn [bind]. intros H. injection H as <-.
  exists d, i, id. repeat split; auto. cbn [put]. now rewrite D.
Qed.
Lemma scrub_entry_kept m a b : scrub_entry m a = Ok b -> kept smart_redactors [] a b.
Proof.
  intros H. destruct (scrub_entry_shape _ _ _ H) as (d & i & id & -> & _ & _ & ->). apply kept_dset. left. discriminate.
Qed.
Lemma truthy_null : truthy JNull = false. Proof. reflexivity. Qed.
Lemma scrub_cam_entry_shape m a b : scrub_cam_entry m a = Ok b ->
  b = a \/ exists d k i id, a = JObj d /\ (k = "device_id" \/ k = "dev_id") /\ dget k d = Some (JStr i) /\ i <> "" /\ dget i m = Some id /\ b = JObj (dset k (JStr id) d).
Proof.
  unfold scrub_cam_entry. destruct a as [| | | | | |d]; try discriminate. cbn [jget bind].
  assert (Q : forall k v, match dget k d with Some x => x | None => JNull end = v -> truthy v = true -> forall b, (let! id := lookup m v in Ok (put [k] (JStr id) (JObj d))) = Ok b ->
          exists i id, dget k d = Some (JStr i) /\ i <> "" /\ dget i m = Some id /\ b = JObj (dset k (JStr id) d)).
  { intros k v V T b' H. destruct (dget k d) as [w|] eqn:D; [|subst; discriminate T]. subst w. destruct v as [| | | |i| |]; try discriminate H. cbn [lookup] in H. unfold dindex in H.
    destruct (dget i m) as [id|] eqn:I; [|discriminate H]. cbn [bind] in H. injection H as <-. exists i, id. repeat split; auto.
    - intros ->. discriminate T.
    - cbn [put]. now rewrite D. }
  destruct (truthy (match dget "device_id" d with Some x => x | None => JNull end)) eqn:T.
  - intros H. right. destruct (Q "device_id" _ eq_refl T _ H) as (i & id & A1 & A2 & A3 & A4). exists d, "device_id", i, id. repeat split; auto.
  - destruct (truthy (match dget "dev_id" d with Some x => x | None => JNull end)) eqn:T'.
    + intros H. right. destruct (Q "dev_id" _ eq_refl T' _ H) as (i & id & A1 & A2 & A3 & A4). exists d, "dev_id", i, id. repeat split; auto.
    + intros H. injection H as <-. left. reflexivity.
Qed.
Lemma scrub_cam_entry_kept m a b : scrub_cam_entry m a = Ok b -> kept smart_redactors [] a b.
Proof.
  intros H. destruct (scrub_cam_entry_shape _ _ _ H) as [->|(d & k & i & id & -> & K & _ & _ & _ & ->)]; [apply kept_refl|]. apply kept_dset. left. destruct K as [->| ->]; discriminate.
Qed.
(** The four lists *)
Lemma scrub_main_steps m main main' : scrub_main m main = Ok main' ->
  exists mid,
    ((exists gc, dget "get_child_device_component_list" main = Some gc /\ truthy gc = true) /\
       (exists m1, scrub_list (scrub_entry m) "get_child_device_component_list" "child_component_list" main = Ok m1 /\
                   scrub_list (scrub_entry m) "get_child_device_list" "child_device_list" m1 = Ok mid)
     \/ mid = main /\ forall gc, dget "get_child_device_component_list" main = Some gc -> truthy gc = false) /\
    ((exists gc, dget "getChildDeviceComponentList" mid = Some gc /\ truthy gc = true) /\
       (exists m1, scrub_list (scrub_entry m) "getChildDeviceComponentList" "child_component_list" mid = Ok m1 /\
                   scrub_list (scrub_cam_entry m) "getChildDeviceList" "child_device_list" m1 = Ok main')
     \/ main' = mid /\ forall gc, dget "getChildDeviceComponentList" mid = Some gc -> truthy gc = false).
Proof.
  unfold scrub_main. intros H.
  match type of H with bind ?X _ = _ => destruct X as [mid|] eqn:E; [|discriminate H] end. cbn [bind] in H. exists mid. split.
  - destruct (dget "get_child_device_component_list" main) as [gc|]; [|injection E as <-; right; split; [reflexivity|discriminate]].
    destruct (truthy gc) eqn:T; [|injection E as <-; right; split; [reflexivity|intros g G; now injection G as <-]].
    destruct (scrub_list (scrub_entry m) "get_child_device_component_list" "child_component_list" main) as [m1|]; [|discriminate E]. left. split; [eauto|]. exists m1. auto.
  - destruct (dget "getChildDeviceComponentList" mid) as [gc|]; [|injection H as <-; right; split; [reflexivity|discriminate]].
    destruct (truthy gc) eqn:T; [|injection H as <-; right; split; [reflexivity|intros g G; now injection G as <-]].
    destruct (scrub_list (scrub_entry m) "getChildDeviceComponentList" "child_component_list" mid) as [m1|]; [|discriminate H]. left. split; [eauto|]. exists m1. auto.
Qed.
Lemma scrub_main_kept m main main' : scrub_main m main = Ok main' -> kept smart_redactors [] (JObj main) (JObj main').
Proof.
  intros H. destruct (scrub_main_steps _ _ _ H) as (mid & A & B). apply (kept_trans _ _ _ (JObj mid)).
  - destruct A as [(_ & m1 & X & Y)|[-> _]]; [|apply kept_refl].
    eapply kept_trans; [eapply scrub_list_kept; [|exact X]|eapply scrub_list_kept; [|exact Y]]; apply scrub_entry_kept.
  - destruct B as [(_ & m1 & X & Y)|[-> _]]; [|apply kept_refl].
    eapply kept_trans; [eapply scrub_list_kept; [|exact X]; apply scrub_entry_kept|eapply scrub_list_kept; [|exact Y]; apply scrub_cam_entry_kept].
Qed.
Lemma scrub_list_other f method key main main' k : scrub_list f method key main = Ok main' -> k <> method -> dget k main' = dget k main.
Proof. intros H N. destruct (scrub_list_shape _ _ _ _ _ H) as (r & l & l' & _ & _ & _ & ->). now rewrite dget_dset_other. Qed.
Lemma scrub_main_other m main main' k : scrub_main m main = Ok main' ->
  ~ In k ["get_child_device_component_list"; "get_child_device_list"; "getChildDeviceComponentList"; "getChildDeviceList"] -> dget k main' = dget k main.
Proof.
  intros H N. cbn in N. destruct (scrub_main_steps _ _ _ H) as (mid & A & B). transitivity (dget k mid).
  - destruct B as [(_ & m1 & X & Y)|[-> _]]; [|reflexivity]. rewrite (scrub_list_other _ _ _ _ _ k Y), (scrub_list_other _ _ _ _ _ k X); auto; intros E; subst; tauto.
  - destruct A as [(_ & m1 & X & Y)|[-> _]]; [|reflexivity]. rewrite (scrub_list_other _ _ _ _ _ k Y), (scrub_list_other _ _ _ _ _ k X); auto; intros E; subst; tauto.
Qed.

(** *** The answers of the children *)
Lemma get_or_empty_shape k x v : get_or_empty k x = Ok v -> exists d, x = JObj d /\ (dget k d = Some v \/ dget k d = None /\ v = JObj []).
Proof. destruct x as [| | | | | |d]; try discriminate. cbn. intros H. injection H as <-. exists d. split; [reflexivity|]. destruct (dget k d); auto. Qed.
Lemma scrub_response_kept id r r' : scrub_response id r = Ok r' -> kept smart_redactors [] (JObj r) (JObj r') /\ (forall k, dget k r = None -> dget k r' = None).
Proof.
  unfold scrub_response. destruct (match dget "get_device_info" r with Some i => jcontains "device_id" i | None => Ok false end) as [found|]; [|discriminate]. cbn [bind].
  destruct found.
  - destruct (dget "get_device_info" r) as [i|] eqn:G; [|discriminate]. destruct i as [| | | | | |i]; try discriminate. intros H. injection H as <-. split; [|intros k N; rewrite dget_dset; destruct (String.eqb_spec k "get_device_info"); [congruence|exact N]].
    apply kept_dset. right. right. exists (JObj i). split; [exact G|]. apply kept_dset. left. discriminate.
  - destruct (get_or_empty "getDeviceInfo" (JObj r)) as [a|] eqn:A; [|discriminate]. cbn [bind]. destruct (get_or_empty "device_info" a) as [b|] eqn:B; [|discriminate]. cbn [bind].
    destruct (jget "basic_info" b) as [basic|] eqn:C; [|discriminate]. cbn [bind].
    destruct (truthy basic) eqn:T; [|intros H; injection H as <-; split; [apply kept_refl|auto]].
    destruct (jcontains "dev_id" basic) as [f|] eqn:F; [|discriminate]. cbn [bind]. destruct f; [|intros H; injection H as <-; split; [apply kept_refl|auto]].
    destruct basic as [| | | | | |basic]; try discriminate.
    destruct (get_or_empty_shape _ _ _ A) as (d0 & E0 & A'). injection E0 as <-.
    destruct (get_or_empty_shape _ _ _ B) as (a0 & -> & B').
    destruct b as [| | | | | |b]; try discriminate C. cbn in C. destruct (dget "basic_info" b) as [bi|] eqn:D; [|injection C as C; discriminate C]. injection C as ->.
    destruct B' as [B'|[_ B']]; [|injection B' as ->; discriminate D].
    destruct A' as [A'|[_ A']]; [|injection A' as ->; discriminate B'].
    cbn [jcontains] in F. injection F as F. unfold dmem in F. destruct (dget "dev_id" basic) as [di|] eqn:DI; [|discriminate F].
    cbn [put]. rewrite A', B', D, DI. intros H. injection H as <-. split; [|intros k N; rewrite dget_dset; destruct (String.eqb_spec k "getDeviceInfo"); [congruence|exact N]].
    apply kept_dset. right. right. exists (JObj a0). split; [exact A'|]. apply kept_dset. right. right. exists (JObj b). split; [exact B'|].
    apply kept_dset. right. right. exists (JObj basic). split; [exact D|]. apply kept_dset. left. discriminate.
Qed.
Lemma scrub_response_id id r r' v : scrub_response id r = Ok r' -> at_path [Key "get_device_info"; Key "device_id"] (JObj r) = Some v ->
  at_path [Key "get_device_info"; Key "device_id"] (JObj r') = Some (JStr id).
Proof.
  unfold scrub_response. cbn [at_path]. destruct (dget "get_device_info" r) as [i|] eqn:G; [|discriminate]. destruct i as [| | | | | |i]; try discriminate.
  destruct (dget "device_id" i) as [w|] eqn:D; [|discriminate]. intros H _. cbn [jcontains bind] in H. unfold dmem in H. rewrite D in H. injection H as <-.
  rewrite dget_dset_same. now rewrite dget_dset_same.
Qed.
Lemma scrub_responses_all m : forall l l', scrub_responses m l = Ok l' ->
  Forall2 (fun a b => fst a = fst b /\ exists id, dget (fst a) m = Some id /\ scrub_response id (snd a) = Ok (snd b)) l l'.
Proof.
  induction l as [|[i r] l IH]; intros l' H; cbn [scrub_responses] in H; [injection H as <-; constructor|].
  unfold dindex in H. destruct (dget i m) as [id|] eqn:I; [|discriminate H]. cbn [bind] in H.
  destruct (scrub_response id r) as [r'|] eqn:R; [|discriminate H]. cbn [bind] in H.
  match type of H with bind ?X _ = _ => destruct X as [l1|] eqn:E; [|discriminate H] end. injection H as <-.
  constructor; [cbn; eauto|]. now apply IH.
Qed.

(** *** The models *)
Lemma leaf_str s : leaf (JStr s). Proof. split; intros; discriminate. Qed.
Lemma model_clean : clean smart_redactors smart_model.
Proof. intros k H. cbn in H. destruct H as [E|[E|[]]]; injection E as <-; reflexivity. Qed.
Lemma camera_clean : clean smart_redactors camera_model.
Proof. intros k H. cbn in H. destruct H as [E|[E|[E|[E|[]]]]]; injection E as <-; reflexivity. Qed.
Lemma model_kept d d' m : kept smart_redactors [] (JObj d) (JObj d') -> (dget "get_device_info" d = None -> dget "get_device_info" d' = None) -> model_is d m -> model_is d' m.
Proof.
  intros K N (M & [H|(G & H)]); split; auto.
  - left. apply K; auto using model_clean, leaf_str.
  - right. split; [auto|]. apply K; auto using camera_clean, leaf_str.
Qed.
Lemma model_redacted d m : model_is d m -> model_is (redacted smart_redactors d) m.
Proof.
  apply model_kept; rewrite ?redacted_obj; [apply kept_redact|].
  intros N. assert (E := at_redact (wrap_redactors smart_redactors) [Key "get_device_info"] (JObj d)). rewrite <- redacted_obj in E. cbn [at_path] in E.
  rewrite N in E. destruct (dget "get_device_info" (redacted smart_redactors d)); [|reflexivity]. exfalso. discriminate E.
  intros k [X|[]]. injection X as <-. reflexivity.
Qed.
Lemma truthy_str m : m <> "" -> truthy (JStr m) = true.
Proof. destruct m; [congruence|reflexivity]. Qed.
Lemma at2 a b d v : at_path [Key a; Key b] (JObj d) = Some v -> exists x, dget a d = Some (JObj x) /\ dget b x = Some v.
Proof. cbn. destruct (dget a d) as [[| | | | | |x]|]; try discriminate. destruct (dget b x) eqn:E; [|discriminate]. intros H. injection H as <-. eauto. Qed.
Lemma camera_path d m : at_path camera_model (JObj d) = Some (JStr m) ->
  (let! gi := get_or_empty "getDeviceInfo" (JObj d) in let! gi := get_or_empty "device_info" gi in let! gi := get_or_empty "basic_info" gi in jget "device_model" gi) = Ok (JStr m).
Proof.
  unfold camera_model. cbn. destruct (dget "getDeviceInfo" d) as [[| | | | | |x]|]; try discriminate. cbn.
  destruct (dget "device_info" x) as [[| | | | | |y]|]; try discriminate. cbn. destruct (dget "basic_info" y) as [[| | | | | |z]|]; try discriminate. cbn.
  destruct (dget "device_model" z); [|discriminate]. intros H. now injection H as ->.
Qed.
Lemma parent_model_is d m : model_is d m -> parent_model d = Ok (JStr m).
Proof.
  intros (M & [H|(G & H)]); unfold parent_model.
  - destruct (at2 _ _ _ _ H) as (x & A & B). cbn [get_or_empty]. rewrite A. cbn [bind jget]. rewrite B. cbn [bind]. now rewrite truthy_str.
  - cbn [get_or_empty]. rewrite G. cbn [bind jget dget truthy]. pose proof (camera_path _ _ H) as C. cbn [get_or_empty] in C.
    destruct (match dget "getDeviceInfo" d with Some v => v | None => JObj [] end) as [| | | | | |a]; try discriminate C. cbn [bind get_or_empty] in *.
    destruct (match dget "device_info" a with Some v => v | None => JObj [] end) as [| | | | | |b]; try discriminate C. cbn [bind get_or_empty] in *.
    destruct (match dget "basic_info" b with Some v => v | None => JObj [] end) as [| | | | | |e]; try discriminate C. cbn [bind] in *. rewrite C. cbn [bind]. now rewrite truthy_str.
Qed.
Lemma other_is a b : a <> "" -> b <> "" -> other_model (JStr a) (JStr b) = negb (String.eqb a b).
Proof. intros A B. unfold other_model. rewrite !truthy_str by assumption. reflexivity. Qed.

(** *** The files *)
Section Files.
Variable smart_name cam_name : dict json -> option (res json) -> res string.
Variable cam_child_name : dict json -> res string.
Let cfiles := child_files smart_name cam_child_name.
Definition but : list string := ["discovery_result"; "child_devices"].
Definition pubd : fixture -> Prop := fun f => publishable smart_redactors [] (f_data f).

Lemma child_files_pub m infos : (forall i v, dget i infos = Some v -> publishable smart_redactors [] v) ->
  forall children final files final' files', cfiles m infos children final files = Ok (final', files') ->
  publishable smart_redactors but (JObj final) -> Forall pubd files -> publishable smart_redactors but (JObj final') /\ Forall pubd files'.
Proof.
  intros Hi. induction children as [|[i r] l IH]; intros final files final' files' H F P; unfold cfiles in *; cbn [child_files] in H; [injection H as <- <-; auto|].
  unfold dindex in H. destruct (dget i m) as [id|]; [|discriminate H]. cbn [bind] in H. destruct (parent_model final) as [pm|]; [|discriminate H]. cbn [bind] in H.
  destruct (get_or_empty "get_device_info" (JObj r)) as [gi|]; [|discriminate H]. cbn [bind] in H. destruct (jget "model" gi) as [mo|]; [|discriminate H]. cbn [bind] in H.
  destruct (other_model mo pm).
  - destruct (smart_name (redacted smart_redactors r) None) as [nm|]; [|discriminate H]. cbn [bind] in H. apply (IH _ _ _ _ H F). apply Forall_app. split; [exact P|].
    constructor; [|constructor]. unfold pubd. cbn [f_data]. rewrite redacted_obj. apply redact_publishable. cbn. tauto.
  - destruct (get_or_empty "getDeviceInfo" (JObj r)) as [g1|]; [|discriminate H]. cbn [bind] in H. destruct (get_or_empty "device_info" g1) as [g2|]; [|discriminate H]. cbn [bind] in H.
    destruct (get_or_empty "basic_info" g2) as [g3|]; [|discriminate H]. cbn [bind] in H. destruct (jget "device_model" g3) as [mo'|]; [|discriminate H]. cbn [bind] in H.
    destruct (other_model mo' pm).
    + destruct (dget id infos) as [info|] eqn:I; [|discriminate H]. cbn [bind] in H.
      destruct (cam_child_name (dset "child_info_from_parent" info (redacted smart_redactors r))) as [nm|]; [|discriminate H]. cbn [bind] in H. apply (IH _ _ _ _ H F). apply Forall_app. split; [exact P|].
      constructor; [|constructor]. unfold pubd. cbn [f_data]. apply pub_dset; [rewrite redacted_obj; apply redact_publishable; cbn; tauto|]. right. split; [reflexivity|]. now apply (Hi id).
    + apply (IH _ _ _ _ H); [|exact P]. apply pub_dset; [exact F|]. left. cbn. tauto.
Qed.
Lemma infos_pub final infos : publishable smart_redactors [] (JObj final) -> infos_on_parent final = Ok infos ->
  forall i v, dget i infos = Some v -> publishable smart_redactors [] v /\ at_path [Key "device_id"] v = Some (JStr i).
Proof.
  intros P. unfold infos_on_parent. destruct (dget "getChildDeviceList" final) as [g|] eqn:G; [|intros H; injection H as <-; discriminate].
  destruct (truthy g); [|intros H; injection H as <-; discriminate].
  destruct g as [| | | | | |g]; try discriminate. cbn [jitem]. unfold dindex. destruct (dget "child_device_list" g) as [l|] eqn:L; [|discriminate]. cbn [bind].
  destruct (jiter l) as [xs|] eqn:J; [|discriminate]. cbn [bind].
  assert (Px : forall x, In x xs -> publishable smart_redactors [] x).
  { intros x I. assert (Q : (exists n, at_path [Key "getChildDeviceList"; Key "child_device_list"; Idx n] (JObj final) = Some x) \/ exists s, x = JStr s).
    { destruct l as [| | | |s|l|d]; try discriminate J; injection J as <-.
      - right. apply in_map_iff in I. destruct I as (c & <- & _). eauto.
      - left. apply In_nth_error in I. destruct I as (n & I). exists n. cbn. rewrite G, L, I. reflexivity.
      - right. apply in_map_iff in I. destruct I as (c & <- & _). eauto. }
    destruct Q as [(n & Q)|(s & ->)].
    - refine (pub_sub _ _ _ _ _ P _ _ _ Q); [|discriminate|auto].
      intros k H. cbn in H. destruct H as [E|[E|[E|[]]]]; [injection E as <-; reflexivity|injection E as <-; reflexivity|discriminate E].
    - intros p k y _ _ _ A. destruct p as [|[]]; discriminate A. }
  clear J L G P l g final.
  set (f := fun acc info => let! acc := acc in let! id := jitem "device_id" info in match id with JStr s => Ok (dset s info acc) | _ => Err PyTypeError end).
  assert (Inv : forall xs, (forall x, In x xs -> publishable smart_redactors [] x) -> forall acc : dict json,
            (forall i v, dget i acc = Some v -> publishable smart_redactors [] v /\ at_path [Key "device_id"] v = Some (JStr i)) ->
            fold_left f xs (Ok acc) = Ok infos -> forall i v, dget i infos = Some v -> publishable smart_redactors [] v /\ at_path [Key "device_id"] v = Some (JStr i)).
  { clear xs Px. induction xs as [|x xs IH]; intros Px acc Ha H; cbn [fold_left] in H; [injection H as <-; exact Ha|].
    assert (Fe : forall e ys, fold_left f ys (Err e) = Err e) by (intros e; induction ys; cbn; auto).
    destruct (f (Ok acc) x) as [acc'|e] eqn:Fx; [|rewrite Fe in H; discriminate H].
    unfold f in Fx. cbn [bind] in Fx. destruct x as [| | | | | |d]; try discriminate Fx. cbn [jitem] in Fx. unfold dindex in Fx.
    destruct (dget "device_id" d) as [v0|] eqn:D; [|discriminate Fx]. cbn [bind] in Fx. destruct v0 as [| | | |s| |]; try discriminate Fx. injection Fx as <-.
    apply (IH (fun x I => Px x (or_intror I)) (dset s (JObj d) acc)); [|exact H].
    intros i v E. rewrite dget_dset in E. destruct (String.eqb_spec i s) as [Q|]; [|auto]. injection E as <-. subst. split; [apply Px; now left|]. cbn. now rewrite D. }
  intros H. apply (Inv xs Px [] (fun i v E => False_ind _ (eq_ind None (fun o => match o with Some _ => False | None => True end) I (Some v) E)) H).
Qed.

Definition file_of (infos : dict json) (id : string) (r : dict json) (f : fixture) : Prop :=
  f_data f = JObj (redacted smart_redactors r) \/
  exists info, dget id infos = Some info /\ f_data f = JObj (dset "child_info_from_parent" info (redacted smart_redactors r)).
Lemma child_files_apart m infos pm : forall children final files final' files', cfiles m infos children final files = Ok (final', files') ->
  model_is final pm -> (forall i r, In (i, r) children -> exists mo, model_is r mo /\ mo <> pm) ->
  final' = final /\ exists fs, files' = files ++ fs /\ Forall2 (fun c f => exists id, dget (fst c) m = Some id /\ file_of infos id (snd c) f) children fs.
Proof.
  induction children as [|[i r] l IH]; intros final files final' files' H Pm Ch; unfold cfiles in *; cbn [child_files] in H.
  - injection H as <- <-. split; [reflexivity|]. exists []. rewrite app_nil_r. auto.
  - destruct (Ch i r (or_introl eq_refl)) as (mo & Mo & Ne). pose proof (parent_model_is _ _ Pm) as Ep. destruct Pm as (Pn & Pm).
    unfold dindex in H. destruct (dget i m) as [id|] eqn:Im; [|discriminate H]. cbn [bind] in H. rewrite Ep in H. cbn [bind] in H.
    assert (Step : forall nm d fo su, child_files smart_name cam_child_name m infos l final (files ++ [mkFix nm fo d su]) = Ok (final', files') -> file_of infos id r (mkFix nm fo d su) ->
              final' = final /\ exists fs, files' = files ++ fs /\ Forall2 (fun c f => exists id, dget (fst c) m = Some id /\ file_of infos id (snd c) f) ((i, r) :: l) fs).
    { intros nm d fo su H' Fo. destruct (IH _ _ _ _ H' (conj Pn Pm) (fun i r I => Ch i r (or_intror I))) as (-> & fs & -> & A). split; [reflexivity|].
      exists (mkFix nm fo d su :: fs). rewrite <- app_assoc. split; [reflexivity|]. constructor; [|exact A]. exists id. auto. }
    destruct Mo as (Mn & [Mo|(G & Mo)]).
    + destruct (at2 _ _ _ _ Mo) as (x & A & B). cbn [get_or_empty] in H. rewrite A in H. cbn [bind jget] in H. rewrite B in H. cbn [bind] in H.
      rewrite other_is in H by assumption. destruct (String.eqb_spec mo pm) as [E|]; [congruence|]. cbn [negb] in H.
      destruct (smart_name (redacted smart_redactors r) None) as [nm|]; [|discriminate H]. cbn [bind] in H. apply (Step _ _ _ _ H). left. reflexivity.
    + cbn [get_or_empty] in H. rewrite G in H. cbn [bind jget dget] in H. unfold other_model at 1 in H. cbn [truthy andb] in H.
      pose proof (camera_path _ _ Mo) as C. cbn [get_or_empty] in C.
      destruct (match dget "getDeviceInfo" r with Some v => v | None => JObj [] end) as [| | | | | |a]; try discriminate C. cbn [bind get_or_empty] in *.
      destruct (match dget "device_info" a with Some v => v | None => JObj [] end) as [| | | | | |b]; try discriminate C. cbn [bind get_or_empty] in *.
      destruct (match dget "basic_info" b with Some v => v | None => JObj [] end) as [| | | | | |e]; try discriminate C. cbn [bind] in *. rewrite C in H. cbn [bind] in H.
      rewrite other_is in H by assumption. destruct (String.eqb_spec mo pm) as [E|]; [congruence|]. cbn [negb] in H.
      destruct (dget id infos) as [info|] eqn:I; [|discriminate H]. cbn [bind] in H.
      destruct (cam_child_name (dset "child_info_from_parent" info (redacted smart_redactors r))) as [nm|]; [|discriminate H]. cbn [bind] in H.
      apply (Step _ _ _ _ H). right. exists info. auto.
Qed.
Lemma child_files_other m infos k : k <> "child_devices" -> forall children final files final' files', cfiles m infos children final files = Ok (final', files') ->
  dget k final' = dget k final.
Proof.
  intros K. induction children as [|[i r] l IH]; intros final files final' files' H; unfold cfiles in *; cbn [child_files] in H; [now injection H as <- _|].
  unfold dindex in H. destruct (dget i m) as [id|]; [|discriminate H]. cbn [bind] in H. destruct (parent_model final) as [pm|]; [|discriminate H]. cbn [bind] in H.
  destruct (get_or_empty "get_device_info" (JObj r)) as [gi|]; [|discriminate H]. cbn [bind] in H. destruct (jget "model" gi) as [mo|]; [|discriminate H]. cbn [bind] in H.
  destruct (other_model mo pm).
  - destruct (smart_name (redacted smart_redactors r) None) as [nm|]; [|discriminate H]. cbn [bind] in H. apply (IH _ _ _ _ H).
  - destruct (get_or_empty "getDeviceInfo" (JObj r)) as [g1|]; [|discriminate H]. cbn [bind] in H. destruct (get_or_empty "device_info" g1) as [g2|]; [|discriminate H]. cbn [bind] in H.
    destruct (get_or_empty "basic_info" g2) as [g3|]; [|discriminate H]. cbn [bind] in H. destruct (jget "device_model" g3) as [mo'|]; [|discriminate H]. cbn [bind] in H.
    destruct (other_model mo' pm).
    + destruct (dget id infos) as [info|] eqn:I; [|discriminate H]. cbn [bind] in H.
      destruct (cam_child_name (dset "child_info_from_parent" info (redacted smart_redactors r))) as [nm|]; [|discriminate H]. cbn [bind] in H. apply (IH _ _ _ _ H).
    + rewrite (IH _ _ _ _ H). apply dget_dset_other. exact K.
Qed.
Let sfiles := smart_files smart_name cam_name cam_child_name.
Lemma smart_files_steps final children disc files : sfiles final children disc = Ok files ->
  exists ch fin infos fin2 rest main,
    scrub_responses (id_map_from 0 (dkeys children)) children = Ok ch /\ scrub_main (id_map_from 0 (dkeys children)) final = Ok fin /\
    infos_on_parent (redacted smart_redactors fin) = Ok infos /\
    cfiles (id_map_from 0 (dkeys children)) infos ch (redacted smart_redactors fin) [] = Ok (fin2, rest) /\ files = main :: rest /\
    (f_data main = JObj fin2 /\ (disc = None \/ disc = Some []) \/
     exists e l, disc = Some (e :: l) /\ f_data main = JObj (dset "discovery_result" (JObj (redacted new_discovery_redactors (e :: l))) fin2)).
Proof.
  unfold sfiles, smart_files. intros H.
  destruct (scrub_responses _ children) as [ch|] eqn:A; [|discriminate H]. cbn [bind] in H.
  destruct (scrub_main _ final) as [fin|] eqn:B; [|discriminate H]. cbn [bind] in H.
  destruct (infos_on_parent _) as [infos|] eqn:C; [|discriminate H]. cbn [bind] in H.
  match type of H with bind ?X _ = _ => destruct X as [[fin2 rest]|] eqn:D; [|discriminate H] end. cbn [bind] in H.
  exists ch, fin, infos, fin2, rest.
  match type of H with bind ?X _ = _ => destruct X as [[fin3 model]|] eqn:E; [|discriminate H] end. cbn [bind] in H.
  assert (M : exists main, f_data main = JObj fin3 /\ files = main :: rest).
  { destruct (dmem "get_device_info" fin3).
    - destruct (smart_name fin3 model) as [nm|]; [|discriminate H]. injection H as <-. eexists. split; [|reflexivity]. reflexivity.
    - destruct (cam_name fin3 model) as [nm|]; [|discriminate H]. injection H as <-. eexists. split; [|reflexivity]. reflexivity. }
  destruct M as (main & M & ->). exists main. repeat split; auto.
  destruct disc as [[|e l]|]; [injection E as <- _; auto| |injection E as <- _; auto].
  destruct (dindex "result" (e :: l)); [|discriminate E]. injection E as <- _. right. exists e, l. auto.
Qed.

(** **** May be published *)
Lemma files_pub final children disc files : sfiles final children disc = Ok files ->
  exists main rest, files = main :: rest /\ publishable smart_redactors but (f_data main) /\ Forall pubd rest /\
    forall x, (forall w, at_path [Key "discovery_result"] (JObj final) <> Some w) -> at_path [Key "discovery_result"] (f_data main) = Some x -> publishable new_discovery_redactors [] x.
Proof.
  intros H. destruct (smart_files_steps _ _ _ _ H) as (ch & fin & infos & fin2 & rest & main & A & B & C & D & -> & E). exists main, rest. split; [reflexivity|].
  assert (P0 : publishable smart_redactors [] (JObj (redacted smart_redactors fin))) by (rewrite redacted_obj; apply redact_publishable; cbn; tauto).
  destruct (child_files_pub _ infos (fun i v G => proj1 (infos_pub _ _ P0 C i v G)) _ _ _ _ _ D (pub_weaken _ _ _ P0) (Forall_nil _)) as (P & R).
  split; [|split; [exact R|]].
  - destruct E as [(-> & _)|(e & l & _ & ->)]; [exact P|]. apply pub_dset; [exact P|]. left. now left.
  - intros x N X. destruct E as [(E & _)|(e & l & _ & E)]; rewrite E in X; cbn [at_path] in X.
    + rewrite (child_files_other _ _ "discovery_result" ltac:(discriminate) _ _ _ _ _ D) in X.
      assert (Q : dget "discovery_result" (redacted smart_redactors fin) = None); [|rewrite Q in X; discriminate X].
      pose proof (at_redact (wrap_redactors smart_redactors) [Key "discovery_result"] (JObj fin)) as Y. rewrite <- redacted_obj in Y. cbn [at_path] in Y.
      rewrite (scrub_main_other _ _ _ "discovery_result" B) in Y by (cbn; intuition discriminate).
      cbn in N. destruct (dget "discovery_result" final) as [w|]; [now destruct (N w)|].
      destruct (dget "discovery_result" (redacted smart_redactors fin)); [|reflexivity]. discriminate Y. intros k [Z|[]]. injection Z as <-. reflexivity.
    + rewrite dget_dset_same in X. replace x with (JObj (redacted new_discovery_redactors (e :: l))) by congruence. rewrite redacted_obj. apply redact_publishable. cbn. tauto.
Qed.
(** **** Children of other models *)
Lemma Forall2_scrubbed m l l' : Forall2 (fun a b : string * dict json => fst a = fst b /\ exists id, dget (fst a) m = Some id /\ scrub_response id (snd a) = Ok (snd b)) l l' ->
  forall pm, (forall i r, In (i, r) l -> exists mo, model_is r mo /\ mo <> pm) -> forall i r, In (i, r) l' -> exists mo, model_is r mo /\ mo <> pm.
Proof.
  intros F pm H. induction F as [|[a b] [a' b'] l l' (E & id & _ & S) F IH]; intros i r I; [destruct I|]. destruct I as [I|I].
  - injection I as <- <-. destruct (H a b (or_introl eq_refl)) as (mo & M & N). exists mo. split; [|exact N]. cbn in S. destruct (scrub_response_kept _ _ _ S) as (K & G). apply (model_kept b); auto.
  - exact (IH (fun i0 r0 I0 => H i0 r0 (or_intror I0)) i r I).
Qed.
Lemma files_apart final children disc files pm : sfiles final children disc = Ok files -> model_is final pm ->
  (forall i r, In (i, r) children -> exists mo, model_is r mo /\ mo <> pm) ->
  exists fin infos rest main, scrub_main (id_map_from 0 (dkeys children)) final = Ok fin /\ infos_on_parent (redacted smart_redactors fin) = Ok infos /\ files = main :: rest /\
    (f_data main = JObj (redacted smart_redactors fin) \/ exists e l, disc = Some (e :: l) /\ f_data main = JObj (dset "discovery_result" (JObj (redacted new_discovery_redactors (e :: l))) (redacted smart_redactors fin))) /\
    Forall2 (fun c f => exists id r, dget (fst c) (id_map_from 0 (dkeys children)) = Some id /\ scrub_response id (snd c) = Ok r /\ file_of infos id r f) children rest.
Proof.
  intros H Pm Ch. destruct (smart_files_steps _ _ _ _ H) as (ch & fin & infos & fin2 & rest & main & A & B & C & D & -> & E).
  apply scrub_responses_all in A.
  assert (Pf : model_is (redacted smart_redactors fin) pm).
  { apply model_redacted. apply (model_kept final); [now apply scrub_main_kept in B| |exact Pm]. rewrite (scrub_main_other _ _ _ "get_device_info" B) by (cbn; intuition discriminate). auto. }
  destruct (child_files_apart _ _ pm _ _ _ _ _ D Pf (Forall2_scrubbed _ _ _ A pm Ch)) as (-> & fs & -> & F). exists fin, infos, fs, main. repeat split; auto.
  - destruct E as [(E & _)|(e & l & E1 & E2)]; [auto|right; eauto].
  - clear - A F. revert A F. generalize (id_map_from 0 (dkeys children)). intros m A. revert fs. induction A as [|a b l l' (E & id & I & S) A IH]; intros fs F; inversion F as [|? f ? fs' (id' & I' & Fo) F']; subst; constructor; auto.
    exists id', (snd b). rewrite <- E in I'. assert (id' = id) by congruence. subst id'. auto.
Qed.
End Files.

(** *** The ids that are shown *)
Lemma scrub_list_id f m method key main main' n i :
  (forall a b d, f a = Ok b -> a = JObj d -> dget "device_id" d = Some (JStr i) -> exists id, dget i m = Some id /\ b = JObj (dset "device_id" (JStr id) d)) ->
  scrub_list f method key main = Ok main' ->
  at_path [Key method; Key key; Idx n; Key "device_id"] (JObj main) = Some (JStr i) ->
  exists id, dget i m = Some id /\ at_path [Key method; Key key; Idx n; Key "device_id"] (JObj main') = Some (JStr id).
Proof.
  intros F H A. destruct (scrub_list_shape _ _ _ _ _ H) as (r & l & l' & M & K & L & ->). cbn [at_path] in *. rewrite M, K in A. rewrite dget_dset_same, dget_dset_same.
  clear - F A L. revert n A. induction L as [|a b l l' E L IH]; intros n A; [destruct n; discriminate A|]. destruct n as [|n]; cbn [nth_error] in *; [|auto].
  destruct a as [| | | | | |d]; try discriminate A. destruct (dget "device_id" d) as [v|] eqn:D; [|discriminate A]. injection A as ->.
  destruct (F _ _ d E eq_refl D) as (id & I & ->). exists id. split; [exact I|]. now rewrite dget_dset_same.
Qed.
Lemma entry_id m i a b d : scrub_entry m a = Ok b -> a = JObj d -> dget "device_id" d = Some (JStr i) -> exists id, dget i m = Some id /\ b = JObj (dset "device_id" (JStr id) d).
Proof.
  intros H E D. destruct (scrub_entry_shape _ _ _ H) as (d' & i' & id & -> & D' & I & ->). injection E as ->. assert (i' = i) by congruence. subst. eauto.
Qed.
Lemma cam_entry_id m i a b d : i <> "" -> scrub_cam_entry m a = Ok b -> a = JObj d -> dget "device_id" d = Some (JStr i) -> exists id, dget i m = Some id /\ b = JObj (dset "device_id" (JStr id) d).
Proof.
  intros N H -> D. unfold scrub_cam_entry in H. cbn [jget bind] in H. rewrite D in H. rewrite truthy_str in H by exact N. cbn [lookup] in H. unfold dindex in H.
  destruct (dget i m) as [id|]; [|discriminate H]. cbn [bind] in H. injection H as <-. exists id. split; [reflexivity|]. cbn [put]. now rewrite D.
Qed.
Lemma scrub_main_id m main main' c p n i gc : scrub_main m main = Ok main' -> In (c, p) listings -> dget c main = Some gc -> truthy gc = true -> i <> "" ->
  at_path (p ++ [Idx n; Key "device_id"]) (JObj main) = Some (JStr i) ->
  exists id, dget i m = Some id /\ at_path (p ++ [Idx n; Key "device_id"]) (JObj main') = Some (JStr id).
Proof.
  intros H P G T N A. destruct (scrub_main_steps _ _ _ H) as (mid & X & Y).
  assert (Oth : forall k q f me ke d d', scrub_list f me ke d = Ok d' -> k <> me -> at_path (Key k :: q) (JObj d') = at_path (Key k :: q) (JObj d)).
  { intros k q f me ke d d' S K. cbn [at_path]. now rewrite (scrub_list_other _ _ _ _ _ k S K). }
  unfold listings in P. cbn [In] in P. destruct P as [P|[P|[P|[P|[]]]]]; injection P as <- <-; cbn [app] in *.
  - destruct X as [(_ & m1 & X1 & X2)|[_ X]]; [|rewrite (X _ G) in T; discriminate T].
    destruct (scrub_list_id _ m _ _ _ _ n i (entry_id m i) X1 A) as (id & I & A1). exists id. split; [exact I|].
    assert (A2 : at_path [Key "get_child_device_component_list"; Key "child_component_list"; Idx n; Key "device_id"] (JObj mid) = Some (JStr id)) by (rewrite (Oth _ _ _ _ _ _ _ X2); [exact A1|discriminate]).
    destruct Y as [(_ & m2 & Y1 & Y2)|[-> _]]; [|exact A2]. rewrite (Oth _ _ _ _ _ _ _ Y2) by discriminate. rewrite (Oth _ _ _ _ _ _ _ Y1) by discriminate. exact A2.
  - destruct X as [(_ & m1 & X1 & X2)|[_ X]]; [|rewrite (X _ G) in T; discriminate T].
    rewrite <- (Oth _ _ _ _ _ _ _ X1) in A by discriminate.
    destruct (scrub_list_id _ m _ _ _ _ n i (entry_id m i) X2 A) as (id & I & A2). exists id. split; [exact I|].
    destruct Y as [(_ & m2 & Y1 & Y2)|[-> _]]; [|exact A2]. rewrite (Oth _ _ _ _ _ _ _ Y2) by discriminate. rewrite (Oth _ _ _ _ _ _ _ Y1) by discriminate. exact A2.
  - assert (Gm : dget "getChildDeviceComponentList" mid = Some gc).
    { destruct X as [(_ & m1 & X1 & X2)|[-> _]]; [|exact G]. rewrite (scrub_list_other _ _ _ _ _ _ X2) by discriminate. rewrite (scrub_list_other _ _ _ _ _ _ X1) by discriminate. exact G. }
    assert (Am : at_path [Key "getChildDeviceComponentList"; Key "child_component_list"; Idx n; Key "device_id"] (JObj mid) = Some (JStr i)).
    { cbn [at_path] in *. rewrite Gm. rewrite G in A. exact A. }
    destruct Y as [(_ & m2 & Y1 & Y2)|[_ Y]]; [|rewrite (Y _ Gm) in T; discriminate T].
    destruct (scrub_list_id _ m _ _ _ _ n i (entry_id m i) Y1 Am) as (id & I & A2). exists id. split; [exact I|]. rewrite (Oth _ _ _ _ _ _ _ Y2) by discriminate. exact A2.
  - assert (Gm : dget "getChildDeviceComponentList" mid = Some gc).
    { destruct X as [(_ & m1 & X1 & X2)|[-> _]]; [|exact G]. rewrite (scrub_list_other _ _ _ _ _ _ X2) by discriminate. rewrite (scrub_list_other _ _ _ _ _ _ X1) by discriminate. exact G. }
    assert (Am : at_path [Key "getChildDeviceList"; Key "child_device_list"; Idx n; Key "device_id"] (JObj mid) = Some (JStr i)).
    { destruct X as [(_ & m1 & X1 & X2)|[-> _]]; [|exact A]. rewrite (Oth _ _ _ _ _ _ _ X2) by discriminate. rewrite (Oth _ _ _ _ _ _ _ X1) by discriminate. exact A. }
    destruct Y as [(_ & m2 & Y1 & Y2)|[_ Y]]; [|rewrite (Y _ Gm) in T; discriminate T].
    rewrite <- (Oth _ _ _ _ _ _ _ Y1) in Am by discriminate.
    apply (scrub_list_id _ m _ _ _ _ n i (fun a b d => cam_entry_id m i a b d N) Y2 Am).
Qed.
Lemma redact_stand_in p n v : clean smart_redactors p -> at_path (p ++ [Key "device_id"]) v = Some (JStr (stand_in_id n)) ->
  at_path (p ++ [Key "device_id"]) (redact_data (wrap_redactors smart_redactors) v) = Some (JStr (stand_in_id n)).
Proof.
  intros C A. rewrite (redact_masks_lemma _ p "device_id" (Some (scrub "device_id" (Some keep_tail))) _ _ (clean_wrap _ _ C) eq_refl A).
  destruct (skipped (JStr (stand_in_id n))); [reflexivity|]. unfold apply_redactor, scrub. rewrite stand_in_scrubbed. reflexivity.
Qed.
Lemma listings_clean c p n : In (c, p) listings -> clean smart_redactors (p ++ [Idx n]) /\ exists q, In (hd_error p) [Some (Key "get_child_device_component_list"); Some (Key "get_child_device_list"); Some (Key "getChildDeviceComponentList"); Some (Key "getChildDeviceList")] /\ hd_error p = Some (Key q).
Proof.
  intros I. unfold listings in I. cbn [In] in I. destruct I as [I|[I|[I|[I|[]]]]]; injection I as <- <-; (split; [|eexists; split; [cbn; tauto|reflexivity]]);
    intros k K; cbn in K; destruct K as [K|[K|[K|[]]]]; try discriminate K; injection K as <-; reflexivity.
Qed.

(** *** Legacy devices *)
Lemma dset_same {A} k (v : A) : forall d, dget k d = Some v -> dset k v d = d.
Proof.
  induction d as [|[k0 v0] d IH]; cbn; [discriminate|]. destruct (String.eqb_spec k k0) as [E|]; intros H; [injection H as ->; now subst|]. now rewrite IH.
Qed.
Lemma put_same : forall p v x, at_path (map Key p) x = Some v -> put p v x = x.
Proof.
  induction p as [|k p IH]; intros v x H; cbn in H; [now injection H as ->|]. destruct x as [| | | | | |d]; try discriminate H. cbn.
  destruct (dget k d) as [y|] eqn:D; [|discriminate H]. rewrite (IH _ _ H). now rewrite dset_same.
Qed.
Lemma sockets_same l : (forall i c, nth_error l i = Some c -> socket_hidden i c) -> forall l', mapM legacy_child 0 l = Ok l' -> l' = l.
Proof.
  intros H. assert (G : forall l n, (forall i c, nth_error l i = Some c -> socket_hidden (n + i) c) -> forall l', mapM legacy_child n l = Ok l' -> l' = l).
  { clear l H. induction l as [|c l IH]; intros n H l' E; cbn [mapM] in E; [now injection E as <-|].
    destruct (H 0%nat c eq_refl) as (d & k & -> & -> & D & _). unfold legacy_child at 1, dmem in E. rewrite D in E. cbn [bind] in E.
    destruct (mapM legacy_child (S n) l) as [l1|] eqn:M; [|discriminate E]. injection E as <-. f_equal.
    - rewrite Nat.add_0_r in D. now rewrite dset_same.
    - apply (IH (S n)); [|exact M]. intros i c I. replace (S n + i)%nat with (n + S i)%nat by lia. now apply H. }
  apply (G l 0%nat). exact H.
Qed.
Lemma hidden_children l : hidden "children" (JArr l) -> forall i c, nth_error l i = Some c -> socket_hidden i c.
Proof.
  intros H. inversion H; subst; try assumption; exfalso;
    match goal with B : blank _ |- _ => destruct B; discriminate | M : marked _ |- _ => destruct M as [M|(s & M & _)]; discriminate M end.
Qed.
Lemma legacy_children_same d d' : legacy_children (redacted iot_redactors d) = Ok d' -> d' = redacted iot_redactors d.
Proof.
  unfold legacy_children. intros H.
  destruct (get_or_empty "system" _) as [s|] eqn:S; [|discriminate H]. cbn [bind] in H. destruct (get_or_empty "get_sysinfo" s) as [y|] eqn:Y; [|discriminate H]. cbn [bind] in H.
  destruct (jget "children" y) as [c|] eqn:C; [|discriminate H]. cbn [bind] in H. destruct (truthy c) eqn:T; [|now injection H as <-].
  destruct c as [| | | | |l|]; try discriminate H. destruct (mapM legacy_child 0 l) as [l'|] eqn:M; [|discriminate H]. cbn [bind] in H.
  destruct (get_or_empty_shape _ _ _ S) as (d0 & E0 & S'). injection E0 as <-. destruct (get_or_empty_shape _ _ _ Y) as (s0 & -> & Y').
  destruct y as [| | | | | |y]; try discriminate C. cbn in C. destruct (dget "children" y) as [c|] eqn:D; [|discriminate C]. injection C as ->.
  destruct Y' as [Y'|[_ Y']]; [|injection Y' as ->; discriminate D]. destruct S' as [S'|[_ S']]; [|injection S' as ->; discriminate Y'].
  assert (A : at_path ([Key "system"; Key "get_sysinfo"] ++ [Key "children"]) (JObj (redacted iot_redactors d)) = Some (JArr l)) by (cbn [app at_path]; now rewrite S', Y', D).
  assert (Hd : hidden "children" (JArr l)).
  { rewrite redacted_obj in A.
    refine (redact_publishable iot_redactors [] (JObj d) _ [Key "system"; Key "get_sysinfo"] "children" _ _ _ _ A); [cbn; tauto| |discriminate|auto].
    intros k K. cbn in K. destruct K as [K|[K|[]]]; injection K as <-; reflexivity. }
  rewrite (sockets_same l (hidden_children l Hd) l' M) in H. rewrite put_same in H by exact A. now injection H as <-.
Qed.
Section Legacy.
Variable str : json -> string.
Variable W : Type.
Variable ask : W -> dict json -> W * res (dict json).
Let lfile := legacy_file str W ask.
Lemma legacy_steps disc w w' f : lfile disc w = (w', Ok f) -> exists d sys sysinfo model,
  (f_data f = JObj (redacted iot_redactors d) /\ (forall e l, disc = Some (e :: l) -> dget "system" (e :: l) <> None) \/
   exists e l, disc = Some (e :: l) /\ f_data f = JObj (dset "discovery_result" (JObj (redacted new_discovery_redactors (e :: l))) (redacted iot_redactors d))) /\
  dget "system" (redacted iot_redactors d) = Some sys /\ jitem "get_sysinfo" sys = Ok sysinfo /\ jitem "model" sysinfo = Ok model /\
  (exists successes w1 w2, legacy_try W ask legacy_items [] w = (w1, Ok successes) /\
     let q := fold_left (fun d s => match s with (m, t, _) => put2 m t (JObj []) d end) successes [] in
     (ask w1 q = (w2, Ok d) \/ exists e, ask w1 q = (w2, Err e) /\ d = fold_left (fun d s => match s with (m, t, info) => put2 m t (JObj info) d end) successes [])).
Proof.
  unfold lfile, legacy_file. intros H. destruct (legacy_try W ask legacy_items [] w) as (w1, [successes|]) eqn:T; [|discriminate H].
  set (q := fold_left (fun d s => match s with (m, t, _) => put2 m t (JObj []) d end) successes []) in *.
  set (sg := fold_left (fun d s => match s with (m, t, info) => put2 m t (JObj info) d end) successes []) in *.
  assert (G : exists d w2, (ask w1 q = (w2, Ok d) \/ exists e, ask w1 q = (w2, Err e) /\ d = sg) /\
     (match ask w1 q with (w, Ok r) => (w, Ok r) | (w, Err e) => if is_exception e then (w, Ok sg) else (w, Err e) end) = (w2, Ok d)).
  { destruct (ask w1 q) as (w2, [r|e]) eqn:A; [exists r, w2; auto|]. destruct (is_exception e) eqn:X; [|discriminate H]. exists sg, w2. split; [right; exists e; auto|reflexivity]. }
  destruct G as (d & w2 & G & E). rewrite E in H. apply (f_equal snd) in H. cbn [snd] in H.
  destruct (legacy_children (redacted iot_redactors d)) as [d'|] eqn:L; [|discriminate H]. cbn [bind] in H. apply legacy_children_same in L. subst d'.
  set (fin := match disc with Some (e :: l) => _ | _ => _ end) in H.
  destruct (dindex "system" fin) as [sys|] eqn:S; [|discriminate H]. cbn [bind] in H. destruct (jitem "get_sysinfo" sys) as [si|] eqn:I; [|discriminate H]. cbn [bind] in H.
  destruct (jitem "model" si) as [mo|] eqn:M; [|discriminate H]. cbn [bind] in H. destruct (jitem "hw_ver" si) as [hw|]; [|discriminate H]. cbn [bind] in H.
  destruct (jitem "sw_ver" si) as [sw|]; [|discriminate H]. cbn [bind] in H. destruct sw; try discriminate H.
  apply (f_equal (fun r => match r with Ok g => f_data g | Err _ => JNull end)) in H. cbn [f_data] in H. rewrite <- H. clear H.
  exists d, sys, si, mo. split; [|split; [|split; [exact I|split; [exact M|]]]].
  - unfold fin. destruct disc as [[|e l]|]; [left; split; [reflexivity|discriminate]| |left; split; [reflexivity|discriminate]].
    remember (dget "system" (e :: l)) as o eqn:O. destruct (truthy match o with Some v => v | None => JNull end) eqn:Tr.
    + left. split; [reflexivity|]. intros e0 l0 E0 N0. assert (El : e :: l = e0 :: l0) by congruence. rewrite <- El in N0. rewrite N0 in O. subst o. discriminate Tr.
    + right. eauto.
  - unfold dindex in S. destruct (dget "system" fin) as [y|] eqn:Y; [|discriminate S]. injection S as <-. unfold fin in Y.
    destruct disc as [[|e l]|]; auto. destruct (truthy _) in Y; [exact Y|]. rewrite dget_dset_other in Y by discriminate. exact Y.
  - exists successes, w1, w2. auto.
Qed.
Lemma legacy_pub disc w w' f : lfile disc w = (w', Ok f) -> publishable iot_redactors ["discovery_result"] (f_data f) /\
  forall e l x, disc = Some (e :: l) -> dget "system" (e :: l) = None -> at_path [Key "discovery_result"] (f_data f) = Some x -> publishable new_discovery_redactors [] x.
Proof.
  intros H. split.
  - destruct (legacy_steps _ _ _ _ H) as (d & _ & _ & _ & D & _).
    assert (P : publishable iot_redactors ["discovery_result"] (JObj (redacted iot_redactors d))) by (rewrite redacted_obj; apply redact_publishable; cbn; tauto).
    destruct D as [(-> & _)|(e & l & _ & ->)]; [exact P|]. apply pub_dset; [exact P|]. left. now left.
  - intros e l x E N X. destruct (legacy_steps _ _ _ _ H) as (d & _ & _ & _ & D & _). destruct D as [(_ & D)|(e' & l' & E' & D)]; [now destruct (D e l E)|].
    assert (El : e' :: l' = e :: l) by congruence. rewrite El in D. rewrite D in X. cbn [at_path] in X. rewrite dget_dset_same in X.
    replace x with (JObj (redacted new_discovery_redactors (e :: l))) by congruence. rewrite redacted_obj. apply redact_publishable. cbn. tauto.
Qed.
(** The answers that are kept in case the combined query fails *)
Lemma legacy_try_all (P : dict json -> Prop) : (forall w m t w' info, ask w [(m, JObj [(t, JObj [])])] = (w', Ok info) -> P info) ->
  forall items acc w w' s, legacy_try W ask items acc w = (w', Ok s) -> (forall m t info, In (m, t, info) acc -> P info) -> forall m t info, In (m, t, info) s -> P info.
Proof.
  intros Hp. induction items as [|[m t] items IH]; intros acc w w' s H Ha; cbn [legacy_try] in H; [injection H as _ <-; exact Ha|].
  destruct (ask w [(m, JObj [(t, JObj [])])]) as (w1, [info|e]) eqn:A; cbn [bind] in H.
  - destruct (dindex m info) as [resp|e] eqn:D; cbn [bind] in H.
    + destruct (jcontains "err_msg" resp) as [[|]|]; [exact (IH _ _ _ _ H Ha)| |discriminate H]. apply (IH _ _ _ _ H). intros m0 t0 i0 I. apply in_app_iff in I.
      destruct I as [I|[I|[]]]; [eauto|]. injection I as <- <- <-. apply (Hp _ _ _ _ _ A).
    + destruct (is_exception e); [exact (IH _ _ _ _ H Ha)|discriminate H].
  - destruct (is_exception e); [exact (IH _ _ _ _ H Ha)|discriminate H].
Qed.
Lemma put2_at (P : json -> Prop) m t v (d : dict json) : P v -> (forall a b x, at_path [Key a; Key b] (JObj d) = Some x -> P x) ->
  forall a b x, at_path [Key a; Key b] (JObj (put2 m t v d)) = Some x -> P x.
Proof.
  intros Pv H a b x A. destruct (at2 _ _ _ _ A) as (y & Y & X). unfold put2 in Y. rewrite dget_dset in Y. destruct (String.eqb_spec a m) as [E|].
  - injection Y as <-. rewrite dget_dset in X. destruct (String.eqb_spec b t); [now injection X as <-|]. subst.
    destruct (dget m d) as [[| | | | | |z]|] eqn:D; try discriminate X. apply (H m b). cbn. now rewrite D, X.
  - apply (H a b). cbn. now rewrite Y, X.
Qed.
Lemma legacy_from_one disc w w' f :
  (forall w m t w' info, ask w [(m, JObj [(t, JObj [])])] = (w', Ok info) -> dget "model" info = None) ->
  lfile disc w = (w', Ok f) ->
  exists w1 q w2 d, ask w1 q = (w2, Ok d) /\
    (f_data f = JObj (redacted iot_redactors d) \/ exists r, f_data f = JObj (dset "discovery_result" r (redacted iot_redactors d))).
Proof.
  intros Hm H. destruct (legacy_steps _ _ _ _ H) as (d & sys & si & mo & Fd & S & I & M & s & w1 & w2 & T & Q). cbn zeta in Q.
  destruct Q as [Q|(e' & _ & D)].
  { do 4 eexists. split; [exact Q|]. destruct Fd as [(Fd & _)|(e & l & _ & Fd)]; [now left|right; eauto]. }
  exfalso. clear Fd.
  assert (Pall := legacy_try_all (fun info => dget "model" info = None) Hm _ _ _ _ _ T (fun m t info I => False_ind _ I)).
  assert (Inv : forall s, (forall m t info, In (m, t, info) s -> dget "model" info = None) -> forall acc : dict json,
     (forall a b x, at_path [Key a; Key b] (JObj acc) = Some x -> exists i, x = JObj i /\ dget "model" i = None) ->
     forall a b x, at_path [Key a; Key b] (JObj (fold_left (fun d s => match s with (m, t, info) => put2 m t (JObj info) d end) s acc)) = Some x -> exists i, x = JObj i /\ dget "model" i = None).
  { clear. induction s as [|[[m t] info] s IH]; intros Ha acc Hacc; [exact Hacc|]. cbn [fold_left]. apply IH; [intros m0 t0 i0 I; apply (Ha m0 t0); now right|].
    apply (put2_at (fun x => exists i, x = JObj i /\ dget "model" i = None)); [|exact Hacc]. exists info. split; [reflexivity|]. apply (Ha m t). now left. }
  assert (E := at_redact (wrap_redactors iot_redactors) [Key "system"; Key "get_sysinfo"] (JObj d)). rewrite <- redacted_obj in E.
  assert (A : at_path [Key "system"; Key "get_sysinfo"] (JObj (redacted iot_redactors d)) = Some si).
  { cbn [at_path]. rewrite S. destruct sys as [| | | | | |sys]; try discriminate I. cbn [jitem] in I. unfold dindex in I. destruct (dget "get_sysinfo" sys); [|discriminate I]. now injection I as ->. }
  rewrite A in E. destruct (at_path [Key "system"; Key "get_sysinfo"] (JObj d)) as [x|] eqn:X; [|discriminate E; intros k K; cbn in K; destruct K as [K|[K|[]]]; injection K as <-; reflexivity].
  rewrite D in X. destruct (Inv _ Pall [] ltac:(intros; discriminate) _ _ _ X) as (i & -> & N).
  assert (Es : Some si = Some (redact_data (wrap_redactors iot_redactors) (JObj i))) by (apply E; intros k K; cbn in K; destruct K as [K|[K|[]]]; injection K as <-; reflexivity).
  rewrite redact_obj in Es. assert (Esi : si = JObj (map (fun kv => (fst kv, entry (wrap_redactors iot_redactors) (fst kv) (snd kv))) i)) by congruence. rewrite Esi in M. cbn [jitem] in M. unfold dindex in M. rewrite (dget_map_entry (entry _)), N in M. discriminate M.
Qed.
End Legacy.

(** *** Asking a device whose answers do not change *)
Lemma slices_concat {A} step : (1 <= step)%nat -> forall fuel (l : list A), (List.length l <= fuel)%nat -> List.concat (slices fuel step l) = l.
Proof.
  intros S. induction fuel as [|f IH]; intros l L; [destruct l; [reflexivity|cbn in L; lia]|]. destruct l as [|a l]; [reflexivity|].
  cbn [slices List.concat]. rewrite IH; [apply firstn_skipn|]. destruct step as [|s]; [lia|]. cbn [skipn]. rewrite skipn_length. cbn in L. lia.
Qed.
Lemma dset_new {A} k (v : A) : forall d, ~ In k (dkeys d) -> dset k v d = d ++ [(k, v)].
Proof.
  induction d as [|[k0 v0] d IH]; intros N; [reflexivity|]. cbn in *. destruct (String.eqb_spec k k0); [subst; tauto|]. f_equal. apply IH. tauto.
Qed.
Lemma dupdate_new {A} : forall (e d : dict A), NoDup (dkeys (d ++ e)) -> dupdate d e = d ++ e.
Proof.
  unfold dupdate. induction e as [|[k v] e IH]; intros d N; cbn [fold_left]; [now rewrite app_nil_r|].
  cbn [fst snd]. rewrite dset_new.
  - rewrite IH; rewrite <- app_assoc; [reflexivity|]. exact N.
  - unfold dkeys in N. rewrite map_app in N. cbn in N. apply NoDup_remove_2 in N. rewrite in_app_iff in N. tauto.
Qed.
Lemma NoDup_front {A} : forall a b : list A, NoDup (a ++ b) -> NoDup a.
Proof. induction a as [|x a IH]; intros b N; [constructor|]. inversion N as [|? ? Nx Na]; subst. constructor; [|eauto]. intros I. apply Nx, in_app_iff. now left. Qed.
Lemma answers_keys ans c r : dkeys (answers_of ans c r) = dkeys r.
Proof. unfold dkeys, answers_of. rewrite map_map. reflexivity. Qed.
Lemma dget_answers ans c k r : dget k (answers_of ans c r) = match dget k r with Some p => Some (match ans c k p with Some v => v | None => JNull end) | None => None end.
Proof. unfold answers_of. rewrite (dget_map_entry (fun k p => match ans c k p with Some v => v | None => JNull end)). reflexivity. Qed.

Section Asking.
Variable W : Type.
Variable ask : W -> string -> dict json -> W * res (dict json).
Variable ans : string -> string -> json -> option json.
Hypothesis St : steady ask ans.

Lemma ask_all_steady c : forall l acc w, (forall k p, In (k, p) (List.concat l) -> ans c k p <> None) -> NoDup (dkeys (acc ++ List.concat l)) ->
  exists w', ask_all W ask c l acc w = (w', Ok (acc ++ answers_of ans c (List.concat l))).
Proof.
  induction l as [|r l IH]; intros acc w A N; cbn [ask_all List.concat]; [exists w; cbn; now rewrite app_nil_r|].
  destruct (proj1 St w c r) as (w1 & E); [intros k p I; apply A; cbn; apply in_app_iff; now left|]. rewrite E.
  cbn [List.concat] in N. unfold dkeys in N. rewrite !map_app in N.
  assert (Na : dupdate acc (answers_of ans c r) = acc ++ answers_of ans c r).
  { apply dupdate_new. unfold dkeys. rewrite map_app. fold (dkeys (answers_of ans c r)). rewrite answers_keys. unfold dkeys.
    rewrite app_assoc in N. now apply NoDup_front in N. }
  rewrite Na. destruct (IH (acc ++ answers_of ans c r) w1) as (w2 & E2).
  - intros k p I. apply A. cbn. apply in_app_iff. now right.
  - unfold dkeys. rewrite !map_app. fold (dkeys (answers_of ans c r)). rewrite answers_keys. unfold dkeys. now rewrite <- app_assoc.
  - exists w2. rewrite E2. f_equal. f_equal. rewrite <- app_assoc. f_equal. unfold answers_of. now rewrite map_app.
Qed.
Lemma make_requests_steady b c r w : 1 <= b -> dwf r -> (forall k p, In (k, p) r -> ans c k p <> None) -> exists w', make_requests W ask b c r w = (w', Ok (answers_of ans c r)).
Proof.
  intros B D A. unfold make_requests. destruct (Z.eqb_spec b 0); [lia|]. destruct (Z.ltb_spec b 0); [lia|].
  assert (C : List.concat (slices (List.length r) (Z.to_nat b) r) = r) by (apply slices_concat; lia).
  destruct (ask_all_steady c (slices (List.length r) (Z.to_nat b) r) [] w) as (w' & E); rewrite ?C; auto.
  rewrite E, C. exists w'. reflexivity.
Qed.
Definition answered (c : scall) : Prop := ans (s_child c) (s_key c) (s_params c) <> None.
Definition multi (c : scall) : bool := s_multi c && negb (String.eqb (s_key c) "").
(** What is written about one device *)
Definition answer (c : scall) : json := match ans (s_child c) (s_key c) (s_params c) with Some v => v | None => JNull end.
Definition expected (child : string) (calls : list scall) : dict json :=
  fold_left (fun d c => dset (s_module c) (JObj [(s_key c, match ans child (s_key c) (s_params c) with Some v => v | None => JNull end)]) d) (filter (fun c => negb (s_multi c)) calls)
            (answers_of ans child (multiple_requests calls)).
Lemma multiple_inv : forall calls (acc : dict json), dwf acc -> 
  let d := fold_left (fun d c => if s_multi c && negb (String.eqb (s_key c) "") then dset (s_key c) (s_params c) d else d) calls acc in
  dwf d /\ forall k p, In (k, p) d -> In (k, p) acc \/ exists c, In c calls /\ multi c = true /\ s_key c = k /\ s_params c = p.
Proof.
  induction calls as [|c calls IH]; intros acc Wa; cbn [fold_left]; [split; auto|]. fold (multi c).
  destruct (multi c) eqn:M.
  - destruct (IH (dset (s_key c) (s_params c) acc)) as (Wd & H); [now apply dwf_dset|]. split; [exact Wd|]. intros k p I. destruct (H k p I) as [J|(c' & J & J')].
    + assert (G : dget k (dset (s_key c) (s_params c) acc) = Some p) by (apply In_dget; [now apply dwf_dset|exact J]). rewrite dget_dset in G.
      destruct (String.eqb_spec k (s_key c)) as [E|]; [|left; now apply dget_In]. right. exists c. injection G as G. cbn. repeat split; auto.
    + right. exists c'. cbn. tauto.
  - destruct (IH acc Wa) as (Wd & H). split; [exact Wd|]. intros k p I. destruct (H k p I) as [J|(c' & J & J')]; [now left|]. right. exists c'. cbn. tauto.
Qed.
Lemma multiple_wf calls : dwf (multiple_requests calls).
Proof. apply (multiple_inv calls []). constructor. Qed.
Lemma multiple_in calls k p : In (k, p) (multiple_requests calls) -> exists c, In c calls /\ multi c = true /\ s_key c = k /\ s_params c = p.
Proof. intros I. destruct (proj2 (multiple_inv calls [] (NoDup_nil _)) k p I) as [[]|H]. exact H. Qed.
Lemma multiple_has calls c : In c calls -> multi c = true -> exists p, dget (s_key c) (multiple_requests calls) = Some p.
Proof.
  intros I M. assert (G : forall calls (acc : dict json), (In c calls \/ exists p, dget (s_key c) acc = Some p) ->
    exists p, dget (s_key c) (fold_left (fun d c => if s_multi c && negb (String.eqb (s_key c) "") then dset (s_key c) (s_params c) d else d) calls acc) = Some p).
  { clear I. induction calls0 as [|a l IH]; intros acc H; cbn [fold_left]; [destruct H as [[]|H]; exact H|]. apply IH.
    destruct H as [[->|H]|(p & H)]; [right| left; exact H|right].
    - fold (multi c). rewrite M. exists (s_params c). apply dget_dset_same.
    - destruct (s_multi a && negb (String.eqb (s_key a) "")); [|eauto]. rewrite dget_dset. destruct (String.eqb (s_key c) (s_key a)); eauto. }
  apply (G calls []). now left.
Qed.
Lemma single_steady b child : 1 <= b -> forall calls final w, (forall c, In c calls -> ans child (s_key c) (s_params c) <> None) ->
  exists w', single_calls W ask b child calls final w = (w', Ok (fold_left (fun d c => dset (s_module c) (JObj [(s_key c, match ans child (s_key c) (s_params c) with Some v => v | None => JNull end)]) d) calls final)).
Proof.
  intros B. induction calls as [|c calls IH]; intros final w A; cbn [single_calls fold_left]; [exists w; reflexivity|].
  destruct (make_requests_steady b child [(s_key c, s_params c)] w B) as (w1 & E).
  - constructor; [intros []|constructor].
  - intros k p [I|[]]. injection I as <- <-. apply A. now left.
  - rewrite E. cbn [answers_of map fst snd]. apply IH. intros c' I. apply A. now right.
Qed.
Lemma final_steady b child calls w : 1 <= b -> (forall c, In c calls -> ans child (s_key c) (s_params c) <> None) ->
  exists w', make_final_calls W ask b child calls w = (w', Ok (expected child calls)).
Proof.
  intros B A. unfold make_final_calls.
  destruct (make_requests_steady b child (multiple_requests calls) w B (multiple_wf calls)) as (w1 & E).
  - intros k p I. destruct (multiple_in _ _ _ I) as (c & J & _ & <- & <-). auto.
  - rewrite E. apply (single_steady b child B). intros c I. apply filter_In in I. now apply A.
Qed.
Lemma try_steady : forall calls succ w, exists w', try_calls W ask calls succ w =
  (w', Ok (succ ++ filter (fun c => match ans (s_child c) (s_key c) (s_params c) with Some _ => true | None => false end) calls)).
Proof.
  induction calls as [|c calls IH]; intros succ w; cbn [try_calls filter]; [exists w; now rewrite app_nil_r|].
  destruct (ans (s_child c) (s_key c) (s_params c)) as [v|] eqn:A.
  - destruct (proj1 St w (s_child c) [(s_key c, s_params c)]) as (w1 & E); [intros k p [I|[]]; injection I as <- <-; congruence|].
    rewrite E. cbn [answers_of map]. destruct (IH (succ ++ [c]) w1) as (w2 & E2). exists w2. rewrite E2. now rewrite <- app_assoc.
  - destruct (proj2 St w _ _ _ A) as (w1 & e & E & X & N). rewrite E. destruct (IH succ w1) as (w2 & E2). exists w2.
    destruct e; try (rewrite X; exact E2); try discriminate X. exfalso. exact (N _ eq_refl).
Qed.
Lemma device_requests_get : forall l acc c, dget c (fold_left (fun d s => dset (s_child s) ((match dget (s_child s) d with Some l => l | None => [] end) ++ [s]) d) l acc)
  = match (match dget c acc with Some l0 => l0 | None => [] end) ++ filter (fun s => String.eqb (s_child s) c) l with
    | [] => dget c acc
    | l1 => Some l1
    end.
Proof.
  induction l as [|s l IH]; intros acc c; cbn [fold_left filter].
  - rewrite app_nil_r. destruct (dget c acc) as [[|a l]|]; reflexivity.
  - rewrite IH. rewrite dget_dset, String.eqb_sym. destruct (String.eqb_spec c (s_child s)) as [E|].
    + subst c. rewrite String.eqb_refl, <- app_assoc. cbn [app]. destruct (match dget (s_child s) acc with Some l0 => l0 | None => [] end); reflexivity.
    + destruct (String.eqb_spec (s_child s) c); [congruence|]. reflexivity.
Qed.
Lemma device_requests_wf : forall l acc, dwf acc -> dwf (fold_left (fun d s => dset (s_child s) ((match dget (s_child s) d with Some l => l | None => [] end) ++ [s]) d) l acc).
Proof. induction l as [|s l IH]; intros acc H; cbn [fold_left]; [exact H|]. apply IH. now apply dwf_dset. Qed.
Lemma child_calls_steady b : 1 <= b -> forall l acc w, NoDup (dkeys l) -> (forall c calls, In (c, calls) l -> forall s, In s calls -> ans c (s_key s) (s_params s) <> None) ->
  exists w' ch, child_calls W ask b l acc w = (w', Ok ch) /\
    (forall c, ~ In c (dkeys l) -> dget c ch = dget c acc) /\ (forall c calls, In (c, calls) l -> c <> "" -> dget c ch = Some (expected c calls)) /\
    ch = fold_left (fun a e => if String.eqb (fst e) "" then a else dset (fst e) (expected (fst e) (snd e)) a) l acc.
Proof.
  intros B. induction l as [|[c calls] l IH]; intros acc w N A; cbn [child_calls fold_left fst snd].
  - exists w, acc. repeat split; auto. intros c calls [].
  - cbn in N. inversion N as [|? ? Nc Nl]; subst.
    assert (A' : forall c0 calls0, In (c0, calls0) l -> forall s, In s calls0 -> ans c0 (s_key s) (s_params s) <> None) by (intros c0 calls0 I; apply A; now right).
    destruct (String.eqb_spec c "") as [E|E].
    + destruct (IH acc w Nl A') as (w' & ch & E1 & H1 & H2 & H3). exists w', ch. split; [exact E1|]. split; [|split; [|exact H3]].
      * intros c0 I. apply H1. cbn in I. tauto.
      * intros c0 calls0 [I|I] Z; [injection I as <- <-; congruence|eauto].
    + destruct (final_steady b c calls w B (A c calls (or_introl eq_refl))) as (w1 & F). rewrite F.
      destruct (IH (dset c (expected c calls) acc) w1 Nl A') as (w' & ch & E1 & H1 & H2 & H3). exists w', ch. split; [exact E1|]. split; [|split; [|exact H3]].
      * intros c0 I. cbn in I. rewrite H1 by tauto. apply dget_dset_other. intros ->. tauto.
      * intros c0 calls0 [I|I] Z; [|eauto]. injection I as <- <-. rewrite H1 by exact Nc. apply dget_dset_same.
Qed.
(** All of it *)
Definition good (tests succ : list scall) : list scall :=
  succ ++ filter (fun c => match ans (s_child c) (s_key c) (s_params c) with Some _ => true | None => false end) tests.
Lemma collect_steady b tests succ w : 1 <= b -> (forall c, In c succ -> answered c) -> (exists c, In c (good tests succ) /\ s_child c = "") ->
  exists w' ch, collect W ask b tests succ w = (w', Ok (expected "" (filter (fun s => String.eqb (s_child s) "") (good tests succ)), ch)) /\
    (forall c, In c (good tests succ) -> s_child c <> "" -> dget (s_child c) ch = Some (expected (s_child c) (filter (fun s => String.eqb (s_child s) (s_child c)) (good tests succ)))) /\
    ch = fold_left (fun a e => if String.eqb (fst e) "" then a else dset (fst e) (expected (fst e) (snd e)) a) (device_requests (good tests succ)) [].
Proof.
  intros B Su (c0 & I0 & C0). unfold collect. destruct (try_steady tests succ w) as (w1 & T). rewrite T. fold (good tests succ). set (g := good tests succ) in *.
  assert (Ag : forall c, In c g -> answered c).
  { intros c I. unfold g, good in I. apply in_app_iff in I. destruct I as [I|I]; [auto|]. apply filter_In in I. destruct I as (_ & I). unfold answered. destruct (ans _ _ _); [discriminate|discriminate I]. }
  assert (Get : forall c l, dget c (device_requests g) = Some l -> l = filter (fun s => String.eqb (s_child s) c) g).
  { intros c l D. unfold device_requests in D. rewrite device_requests_get in D. cbn [dget app] in D. destruct (filter (fun s => String.eqb (s_child s) c) g); [discriminate D|now injection D as <-]. }
  assert (Has : forall c, In c g -> dget (s_child c) (device_requests g) = Some (filter (fun s => String.eqb (s_child s) (s_child c)) g)).
  { intros c I. unfold device_requests. rewrite device_requests_get. cbn [dget app]. destruct (filter (fun s => String.eqb (s_child s) (s_child c)) g) eqn:F; [|reflexivity].
    exfalso. assert (Fi : In c (filter (fun s => String.eqb (s_child s) (s_child c)) g)) by (apply filter_In; split; [exact I|apply String.eqb_refl]). rewrite F in Fi. destruct Fi. }
  assert (An : forall c l, dget c (device_requests g) = Some l -> forall s, In s l -> ans c (s_key s) (s_params s) <> None).
  { intros c l D s I. rewrite (Get c l D) in I. apply filter_In in I. destruct I as (I & E). apply String.eqb_eq in E. subst c. exact (Ag s I). }
  assert (Wf : dwf (device_requests g)) by (apply device_requests_wf; constructor).
  pose proof (Has c0 I0) as H0. rewrite C0 in H0. rewrite H0. destruct (final_steady b "" _ w1 B (An _ _ H0)) as (w2 & F). rewrite F.
  destruct (child_calls_steady b B (device_requests g) [] w2 Wf) as (w3 & ch & E & _ & H2 & H3).
  - intros c calls I. apply An. now apply In_dget.
  - rewrite E. exists w3, ch. split; [reflexivity|]. split; [|exact H3]. intros c I N. apply H2; [|exact N]. apply dget_In. now apply Has.
Qed.
(** What is in it *)
Lemma expected_multi child calls c v : In c calls -> multi c = true -> ans child (s_key c) (s_params c) = Some v ->
  (forall c', In c' calls -> (multi c' = true -> s_key c' = s_key c -> s_params c' = s_params c) /\ (s_multi c' = false -> s_module c' <> s_key c)) ->
  dget (s_key c) (expected child calls) = Some v.
Proof.
  intros I M A H. unfold expected.
  assert (G : forall l (acc : dict json), (forall c', In c' l -> s_module c' <> s_key c) ->
    dget (s_key c) (fold_left (fun d c => dset (s_module c) (JObj [(s_key c, match ans child (s_key c) (s_params c) with Some v => v | None => JNull end)]) d) l acc) = dget (s_key c) acc).
  { induction l as [|a l IH]; intros acc L; cbn [fold_left]; [reflexivity|]. rewrite IH by (intros c' J; apply L; now right). apply dget_dset_other. intros E. apply (L a (or_introl eq_refl)). now symmetry. }
  rewrite G.
  - rewrite dget_answers. destruct (multiple_has calls c I M) as (p & P). rewrite P. destruct (multiple_in calls (s_key c) p (dget_In _ _ _ P)) as (c' & I' & M' & K' & P').
    rewrite <- P', (proj1 (H c' I') M' K'), A. reflexivity.
  - intros c' J. apply filter_In in J. destruct J as (J & Z). apply (proj2 (H c' J)). destruct (s_multi c'); [discriminate Z|reflexivity].
Qed.
Lemma expected_single child calls c v : In c calls -> s_multi c = false -> ans child (s_key c) (s_params c) = Some v ->
  (forall c', In c' calls -> s_multi c' = false -> s_module c' = s_module c -> s_key c' = s_key c /\ s_params c' = s_params c) ->
  dget (s_module c) (expected child calls) = Some (JObj [(s_key c, v)]).
Proof.
  intros I M A H. unfold expected.
  set (f := fun (d : dict json) c => dset (s_module c) (JObj [(s_key c, match ans child (s_key c) (s_params c) with Some v => v | None => JNull end)]) d).
  assert (G : forall l (acc : dict json), (forall c', In c' l -> s_module c' = s_module c -> s_key c' = s_key c /\ s_params c' = s_params c) ->
    In c l \/ dget (s_module c) acc = Some (JObj [(s_key c, v)]) -> dget (s_module c) (fold_left f l acc) = Some (JObj [(s_key c, v)])).
  { induction l as [|a l IH]; intros acc L D; cbn [fold_left]; [destruct D as [[]|D]; exact D|]. apply IH; [intros c' J; apply L; now right|].
    assert (Q : s_module a = s_module c -> dget (s_module c) (f acc a) = Some (JObj [(s_key c, v)])).
    { intros E. destruct (L a (or_introl eq_refl) E) as (K & P). unfold f. rewrite E, K, P, A. apply dget_dset_same. }
    destruct D as [[->|D]|D]; [right; auto|now left|]. right. destruct (String.eqb_spec (s_module a) (s_module c)) as [E|E]; [auto|]. unfold f. rewrite dget_dset_other by congruence. exact D. }
  apply G.
  - intros c' J. apply filter_In in J. destruct J as (J & Z). apply H; [exact J|]. destruct (s_multi c'); [discriminate Z|reflexivity].
  - left. apply filter_In. rewrite M. auto.
Qed.
Lemma expected_only child calls k v : dget k (expected child calls) = Some v ->
  exists c, In c calls /\ (s_key c = k /\ v = match ans child (s_key c) (s_params c) with Some v => v | None => JNull end \/
                           s_module c = k /\ v = JObj [(s_key c, match ans child (s_key c) (s_params c) with Some v => v | None => JNull end)]).
Proof.
  unfold expected. intros D.
  assert (G : forall l (acc : dict json), dget k (fold_left (fun d c => dset (s_module c) (JObj [(s_key c, match ans child (s_key c) (s_params c) with Some v => v | None => JNull end)]) d) l acc) = Some v ->
     dget k acc = Some v \/ exists c, In c l /\ s_module c = k /\ v = JObj [(s_key c, match ans child (s_key c) (s_params c) with Some v => v | None => JNull end)]).
  { induction l as [|a l IH]; intros acc H; cbn [fold_left] in H; [now left|]. destruct (IH _ H) as [H1|(c & I & E)]; [|right; exists c; cbn; tauto].
    rewrite dget_dset in H1. destruct (String.eqb_spec k (s_module a)); [|now left]. right. exists a. injection H1 as <-. cbn. auto. }
  destruct (G _ _ D) as [H|(c & I & E)].
  - rewrite dget_answers in H. destruct (dget k (multiple_requests calls)) as [p|] eqn:P; [|discriminate H]. destruct (multiple_in calls k p (dget_In _ _ _ P)) as (c & I & _ & <- & <-).
    exists c. split; [exact I|]. left. split; [reflexivity|]. now injection H as <-.
  - apply filter_In in I. exists c. tauto.
Qed.
End Asking.

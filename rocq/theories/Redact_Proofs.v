(** Proofs about redaction. *)
From Coq Require Import Lia.
From Verif Require Import Base Base_Lemmas Py Redact_Model Redact_Spec.
Open Scope string_scope.

(** What happens to one entry. *)
Definition entry (tbl : redactors) (key : string) (value : json) : json :=
  if skipped value then value
  else match dget key tbl with
       | Some r => apply_redactor r value
       | None => redact_data tbl value
       end.

Lemma redact_obj tbl d :
  redact_data tbl (JObj d) = JObj (map (fun kv => (fst kv, entry tbl (fst kv) (snd kv))) d).
Proof.
  cbn [redact_data]. f_equal. apply map_ext. intros [k v]. cbn [fst snd]. unfold entry.
  f_equal. destruct (skipped v); [reflexivity|]. destruct (dget k tbl); [reflexivity|].
  destruct v; reflexivity.
Qed.

Lemma redact_arr tbl l : redact_data tbl (JArr l) = JArr (map (redact_data tbl) l).
Proof. reflexivity. Qed.

Lemma dget_map_entry {A B} (f : string -> A -> B) k (d : dict A) :
  dget k (map (fun kv => (fst kv, f (fst kv) (snd kv))) d)
  = match dget k d with Some x => Some (f k x) | None => None end.
Proof.
  induction d as [|[k' v] d IH]; [reflexivity|]. cbn [map fst snd dget].
  destruct (String.eqb_spec k k'); [subst; reflexivity | exact IH].
Qed.

Lemma skipped_blank v : skipped v = true <-> blank v.
Proof.
  unfold blank. split.
  - destruct v; cbn; try discriminate; [auto|]. intro H. apply String.eqb_eq in H. subst. auto.
  - intros [->| ->]; reflexivity.
Qed.

Lemma skipped_redact tbl v : skipped v = true -> redact_data tbl v = v.
Proof. rewrite skipped_blank. intros [->| ->]; reflexivity. Qed.

Lemma at_redact tbl p : forall v, clean tbl p ->
  at_path p (redact_data tbl v)
  = match at_path p v with Some x => Some (redact_data tbl x) | None => None end.
Proof.
  induction p as [|[k|i] p IH]; intros v Hc; [reflexivity| |].
  - assert (Hk : dget k tbl = None) by (apply Hc; left; reflexivity).
    assert (Hc' : clean tbl p) by (intros k' H; apply Hc; right; exact H).
    destruct v; try reflexivity. rewrite redact_obj. cbn [at_path].
    rewrite (dget_map_entry (entry tbl)). destruct (dget k d) as [x|]; [|reflexivity].
    rewrite <- (IH x Hc'). unfold entry. rewrite Hk.
    destruct (skipped x) eqn:E; [rewrite (skipped_redact tbl x E)|]; reflexivity.
  - assert (Hc' : clean tbl p) by (intros k' H; apply Hc; right; exact H).
    destruct v; try reflexivity. rewrite redact_arr. cbn [at_path].
    rewrite nth_error_map. destruct (nth_error l i); [|reflexivity]. cbn. apply IH, Hc'.
Qed.

Lemma shape_redact tbl v : shape_of (redact_data tbl v) = shape_of v.
Proof.
  destruct v; try reflexivity.
  - rewrite redact_arr. cbn. rewrite map_length. reflexivity.
  - rewrite redact_obj. cbn. unfold dkeys. rewrite map_map. reflexivity.
Qed.

Lemma redact_keeps_rest_lemma tbl p v x :
  clean tbl p -> at_path p v = Some x ->
  exists y, at_path p (redact_data tbl v) = Some y /\ shape_of y = shape_of x.
Proof.
  intros Hc Hx. rewrite at_redact, Hx by exact Hc. eexists; split; [reflexivity|].
  apply shape_redact.
Qed.

Lemma redact_adds_nothing_lemma tbl p v :
  clean tbl p -> at_path p v = None -> at_path p (redact_data tbl v) = None.
Proof. intros Hc Hx. rewrite at_redact, Hx by exact Hc. reflexivity. Qed.

Lemma at_path_app p q v :
  at_path (p ++ q)%list v = match at_path p v with Some x => at_path q x | None => None end.
Proof.
  revert v; induction p as [|[k|i] p IH]; intro v; [reflexivity| |];
    cbn [app at_path]; destruct v; try reflexivity.
  - destruct (dget k d); [apply IH | reflexivity].
  - destruct (nth_error l i); [apply IH | reflexivity].
Qed.

Lemma redact_masks_lemma tbl p k r v x :
  clean tbl p -> dget k tbl = Some r -> at_path (p ++ [Key k])%list v = Some x ->
  at_path (p ++ [Key k])%list (redact_data tbl v)
  = Some (if skipped x then x else apply_redactor r x).
Proof.
  intros Hc Hk. rewrite !at_path_app, at_redact by exact Hc.
  destruct (at_path p v) as [w|]; [|discriminate].
  destruct w; try discriminate. rewrite redact_obj. cbn [at_path].
  rewrite (dget_map_entry (entry tbl)). destruct (dget k d) as [z|]; [|discriminate].
  intro H. injection H as ->. f_equal. unfold entry. rewrite Hk. reflexivity.
Qed.

Lemma redact_hides_lemma tbl (alike : string -> json -> json -> Prop) :
  (forall k r x y, dget k tbl = Some r -> alike k x y -> apply_redactor r x = apply_redactor r y) ->
  forall v v', differ_only_in_secrets tbl alike v v' -> redact_data tbl v = redact_data tbl v'.
Proof.
  intro Halike. induction v using json_ind'; intros v' Hd; inversion Hd; subst; try reflexivity.
  - rewrite !redact_arr. f_equal.
    match goal with H2 : Forall2 _ _ _ |- _ => revert l' Hd H2 end.
    induction H as [|a l Ha Hl IHl]; intros l' Hd H2; inversion H2; subst; [reflexivity|].
    cbn [map]. f_equal; [apply Ha; assumption|]. apply IHl; [constructor|]; assumption.
  - rewrite !redact_obj. f_equal.
    match goal with H2 : Forall2 _ _ _ |- _ => revert d' Hd H2 end.
    induction H as [|[k a] l Ha Hl IHl]; intros d' Hd H2; inversion H2 as [|? [k' b] ? ? Hh ? ]; subst;
      [reflexivity|].
    cbn [fst snd] in Hh. destruct Hh as [<- Hh]. cbn [map fst snd].
    f_equal; [|apply IHl; [constructor|]; assumption]. f_equal.
    destruct Hh as [-> | [[Hk Hh]|(Hk & Hba & Hbb & Hal)]]; [reflexivity| |].
    + pose proof (Ha _ Hh) as E. cbn [snd] in E. unfold entry. rewrite Hk.
      destruct (skipped a) eqn:Ea; destruct (skipped b) eqn:Eb; try exact E.
      * rewrite <- (skipped_redact tbl a Ea), <- (skipped_redact tbl b Eb). exact E.
      * rewrite <- (skipped_redact tbl a Ea). exact E.
      * rewrite <- (skipped_redact tbl b Eb). exact E.
    + unfold entry. rewrite <- skipped_blank in Hba, Hbb.
      destruct (skipped a); [tauto|]. destruct (skipped b); [tauto|].
      destruct (dget k tbl) as [r|] eqn:Er; [|tauto]. eapply Halike; eassumption.
Qed.

(** ** Strings *)
Lemma slen_app a b : String.length (a ++ b) = String.length a + String.length b.
Proof. induction a; cbn; auto. Qed.
Lemma stake_app n a b : String.length a = n -> stake n (a ++ b) = a.
Proof. intros <-. induction a; cbn; [destruct b; reflexivity|]. now rewrite IHa. Qed.
Lemma smem_char_app c a b : smem_char c (a ++ b) = smem_char c a || smem_char c b.
Proof. induction a; cbn; [reflexivity|]. now rewrite IHa, orb_assoc. Qed.
Lemma sapp_assoc (a b c : string) : (a ++ b) ++ c = a ++ (b ++ c).
Proof. induction a; cbn; [reflexivity|]. now rewrite IHa. Qed.

Lemma octet_no_colon s : octet s -> smem_char ":" s = false.
Proof.
  intros [_ H]. destruct (smem_char ":" s) eqn:E; [|reflexivity]. exfalso. exact (H _ E eq_refl).
Qed.

Lemma mask_mac_lemma f v d : octets v -> octets d -> known_delim f ->
  mask_mac (mac_text f v d) = mac_text f v ("00", "00", "00").
Proof.
  destruct v as [[a b] c], d as [[x y] z]. intros (Ha & Hb & Hc) (Hx & Hy & Hz) Hf.
  pose proof (octet_no_colon _ Ha) as Ca. pose proof (octet_no_colon _ Hb) as Cb.
  pose proof (octet_no_colon _ Hc) as Cc. pose proof (octet_no_colon _ Hx) as Cx.
  pose proof (octet_no_colon _ Hy) as Cy. pose proof (octet_no_colon _ Hz) as Cz.
  destruct Ha as [Ha _], Hb as [Hb _], Hc as [Hc _], Hx as [Hx _], Hy as [Hy _], Hz as [Hz _].
  destruct f as [|dl]; unfold mask_mac, mac_text; cbv zeta.
  - rewrite !slen_app, Ha, Hb, Hc, Hx, Hy, Hz.
    cbn [Nat.add Nat.eqb].
    replace (a ++ b ++ c ++ x ++ y ++ z) with ((a ++ b ++ c) ++ (x ++ y ++ z))
      by now rewrite !sapp_assoc.
    rewrite stake_app by (rewrite !slen_app; lia). now rewrite !sapp_assoc.
  - set (s := String dl "").
    assert (Hs : String.length s = 1) by reflexivity.
    rewrite !slen_app, Ha, Hb, Hc, Hx, Hy, Hz, Hs. cbn [Nat.add Nat.eqb].
    replace (a ++ s ++ b ++ s ++ c ++ s ++ x ++ s ++ y ++ s ++ z)
      with ((a ++ s ++ b ++ s ++ c) ++ (s ++ x ++ s ++ y ++ s ++ z)) by now rewrite !sapp_assoc.
    rewrite stake_app by (rewrite !slen_app; lia).
    rewrite !smem_char_app, Ca, Cb, Cc, Cx, Cy, Cz.
    destruct Hf as [-> | ->]; subst s; cbn [smem_char orb]; rewrite !sapp_assoc; reflexivity.
Qed.

(** What the mask can depend on, whatever the text. *)
Lemma mask_mac_depends_lemma m m' :
  Nat.eqb (String.length m) 12 = Nat.eqb (String.length m') 12 ->
  smem_char ":" m = smem_char ":" m' ->
  stake 8 m = stake 8 m' -> mask_mac m = mask_mac m'.
Proof.
  intros Hl Hc Hp. unfold mask_mac. rewrite Hl, Hc, Hp.
  destruct (Nat.eqb (String.length m') 12); [|reflexivity].
  assert (T : forall s, stake 6 s = stake 6 (stake 8 s)).
  { intro s. do 6 (destruct s as [|? s]; [reflexivity|]; cbn). reflexivity. }
  now rewrite (T m), (T m'), Hp.
Qed.

(** ** The tables *)
Lemma keep_tail_lemma x y :
  sdrop 9 x = sdrop 9 y -> apply_redactor (Some keep_tail) (JStr x) = apply_redactor (Some keep_tail) (JStr y).
Proof. cbn. now intros ->. Qed.

Lemma smart_hidden_lemma k r x y :
  dget k smart_redactors = Some r -> any_secret smart_hidden k x y ->
  apply_redactor r x = apply_redactor r y.
Proof.
  intros Hr [Hk Ht]. unfold smart_hidden in Hk. cbn [In] in Hk.
  repeat (destruct Hk as [<-|Hk]; [injection Hr as <-; cbn -[truthy]; rewrite ?Ht; reflexivity|]).
  contradiction.
Qed.

Lemma iot_hidden_lemma k r x y :
  dget k iot_redactors = Some r -> any_secret iot_hidden k x y ->
  apply_redactor r x = apply_redactor r y.
Proof.
  intros Hr [Hk Ht]. unfold iot_hidden in Hk. cbn [In] in Hk.
  repeat (destruct Hk as [<-|Hk]; [injection Hr as <-; cbn -[truthy]; rewrite ?Ht; reflexivity|]).
  contradiction.
Qed.

(** The characters masked are the letters, digits and underscore, and all beyond ASCII. *)
Lemma wordlike_masked c : wordlike c -> word_char c = true.
Proof.
  intros [H|H].
  - cbn in H. repeat (destruct H as [<-|H]; [reflexivity|]). contradiction.
  - unfold word_char. apply N.leb_le in H. rewrite H. now rewrite !orb_true_r.
Qed.
Lemma masked_wordlike c : word_char c = true -> wordlike c.
Proof.
  assert (G : implb (word_char c) (existsb (Ascii.eqb c) (list_ascii_of_string "abcdefghijklmnopqrstuvwxyzABCDEFGHIJKLMNOPQRSTUVWXYZ0123456789_")
                                   || (128 <=? N_of_ascii c)%N) = true).
  { destruct c as [[] [] [] [] [] [] [] []]; reflexivity. }
  intro H. rewrite H in G. cbn [implb] in G. apply orb_true_iff in G. destruct G as [G|G]; [left|right; now apply N.leb_le].
  apply existsb_exists in G. destruct G as (d & Hd & E). apply Ascii.eqb_eq in E. now subst d.
Qed.

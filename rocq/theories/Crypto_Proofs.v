(** Facts about padding, CBC, integers and base64. *)
From Verif Require Import Base Base_Lemmas Crypto_Model.
From Verif Require Xor_Proofs.

(** ** Padding *)
Lemma byte_of_nat n : n <= 16 -> N.to_nat (bval (ascii_of_N (N.of_nat n))) = n.
Proof.
  intro H. unfold bval. rewrite N_ascii_embedding; [apply Nat2N.id|].
  change 256%N with (N.of_nat 256). lia.
Qed.

Lemma last_app_repeat (m : bytes) x n d : 0 < n -> last (m ++ repeat x n) d = x.
Proof.
  intro H. destruct n as [|n]; [lia|]. replace (S n) with (n + 1) by lia.
  rewrite repeat_app, app_assoc. apply last_last.
Qed.

Lemma pad_len_bounds (m : bytes) : 1 <= block - Nat.modulo (length m) block <= 16.
Proof. pose proof (Nat.mod_upper_bound (length m) block). unfold block in *. lia. Qed.

Lemma pad_whole m : Nat.modulo (length (pkcs7_pad m)) block = 0.
Proof.
  unfold pkcs7_pad. rewrite app_length, repeat_length.
  pose proof (Nat.div_mod_eq (length m) block) as E.
  pose proof (Nat.mod_upper_bound (length m) block ltac:(discriminate)) as B.
  assert (H : length m + (block - Nat.modulo (length m) block) = (S (Nat.div (length m) block)) * block) by lia.
  rewrite H. apply Nat.mod_mul. discriminate.
Qed.

Lemma unpad_pad m : pkcs7_unpad (pkcs7_pad m) = Ok m.
Proof.
  unfold pkcs7_unpad. rewrite pad_whole. pose proof (pad_len_bounds m) as B.
  unfold pkcs7_pad. set (n := block - Nat.modulo (length m) block) in *.
  rewrite last_app_repeat by lia. rewrite byte_of_nat by lia.
  rewrite app_length, repeat_length.
  replace (length m + n - n) with (length m) by lia.
  replace (Nat.eqb (length m + n) 0) with false by (symmetry; apply Nat.eqb_neq; lia).
  cbn [orb negb Nat.eqb].
  replace (Nat.leb 1 n) with true by (symmetry; apply Nat.leb_le; lia).
  replace (Nat.leb n block) with true by (symmetry; apply Nat.leb_le; unfold block; lia).
  cbn [andb]. rewrite skipn_app, skipn_all, Nat.sub_diag. cbn [app skipn].
  rewrite firstn_app, firstn_all, Nat.sub_diag. cbn [firstn]. rewrite app_nil_r.
  replace (forallb _ _) with true; [reflexivity|].
  symmetry. apply forallb_forall. intros x Hx. apply repeat_spec in Hx. subst x. apply Ascii.eqb_refl.
Qed.

Lemma forallb_repeat (x : ascii) l : forallb (fun b => Ascii.eqb b x) l = true -> l = repeat x (length l).
Proof.
  induction l as [|y l IH]; [reflexivity|]. cbn [forallb length repeat]. intro H.
  apply andb_prop in H. destruct H as [H1 H2]. apply Ascii.eqb_eq in H1. subst. now rewrite <- IH.
Qed.

Lemma pad_unpad d m : pkcs7_unpad d = Ok m -> d = pkcs7_pad m.
Proof.
  unfold pkcs7_unpad.
  destruct (Nat.eqb (length d) 0 || negb (Nat.eqb (Nat.modulo (length d) block) 0)) eqn:E1; [discriminate|].
  apply orb_false_elim in E1. destruct E1 as [E0 Em]. apply negb_false_iff, Nat.eqb_eq in Em.
  apply Nat.eqb_neq in E0.
  set (x := last d Ascii.zero). set (p := N.to_nat (bval x)).
  destruct (Nat.leb 1 p && Nat.leb p block && _) eqn:E2; [|discriminate].
  apply andb_prop in E2. destruct E2 as [E2 E3]. apply andb_prop in E2. destruct E2 as [E1 E2].
  apply Nat.leb_le in E1, E2. intro H. injection H as <-.
  assert (Hd : p <= length d).
  { pose proof (Nat.div_mod_eq (length d) block) as E. unfold block in *.
    destruct (Nat.div (length d) 16); lia. }
  apply forallb_repeat in E3. rewrite skipn_length in E3.
  replace (length d - (length d - p)) with p in E3 by lia.
  unfold pkcs7_pad. rewrite firstn_length. replace (Nat.min (length d - p) (length d)) with (length d - p) by lia.
  assert (Hn : block - Nat.modulo (length d - p) block = p).
  { pose proof (Nat.div_mod_eq (length d) block) as E. rewrite Em in E.
    assert (D : length d - p = (block - p) + (Nat.div (length d) block - 1) * block).
    { unfold block in *. destruct (Nat.div (length d) 16); lia. }
    rewrite D, Nat.mod_add by discriminate. rewrite Nat.mod_small by (unfold block in *; lia).
    unfold block in *. lia. }
  rewrite Hn. rewrite <- (firstn_skipn (length d - p) d) at 1. f_equal. rewrite E3.
  f_equal. unfold p. rewrite N2Nat.id. symmetry. apply ascii_N_embedding.
Qed.

Lemma pad_injective m m' : pkcs7_pad m = pkcs7_pad m' -> m = m'.
Proof. intro H. pose proof (unpad_pad m) as E. rewrite H, unpad_pad in E. congruence. Qed.

(** ** CBC *)
Lemma bxor_cancel k b : bxor k (bxor k b) = b.
Proof. exact (Xor_Proofs.bxor_cancel k b). Qed.

Lemma xor_bytes_cancel : forall a b, length a = length b -> xor_bytes a (xor_bytes a b) = b.
Proof.
  induction a as [|x a IH]; intros [|y b] H; cbn in *; try discriminate; [reflexivity|].
  rewrite bxor_cancel, IH by lia. reflexivity.
Qed.
Lemma xor_bytes_length : forall a b, length a = length b -> length (xor_bytes a b) = length a.
Proof.
  induction a as [|x a IH]; intros [|y b] H; cbn in *; try discriminate; [reflexivity|].
  rewrite IH by lia. reflexivity.
Qed.

Lemma chunks_whole : forall n fuel d, length d = n * block -> length d <= fuel ->
  concat (chunks fuel d) = d /\ Forall (fun b => length b = block) (chunks fuel d).
Proof.
  induction n as [|n IH]; intros fuel d Hl Hf.
  - destruct d; [|discriminate]. destruct fuel; cbn; auto.
  - destruct d as [|x d]; [discriminate|]. destruct fuel as [|fuel]; [cbn in Hf; lia|].
    remember (x :: d) as e. assert (Hc : chunks (S fuel) e = firstn block e :: chunks fuel (skipn block e))
      by (subst e; reflexivity).
    rewrite Hc. cbn [concat].
    destruct (IH fuel (skipn block e)) as [H1 H2].
    { rewrite skipn_length. lia. }
    { rewrite skipn_length. unfold block in *. lia. }
    rewrite H1, firstn_skipn. split; [reflexivity|]. constructor; [|exact H2].
    rewrite firstn_length. unfold block in *. lia.
Qed.

Lemma blocks_whole d : Nat.modulo (length d) block = 0 ->
  concat (blocks_of d) = d /\ Forall (fun b => length b = block) (blocks_of d).
Proof.
  intro H. apply Nat.mod_divides in H; [|discriminate]. destruct H as [n H].
  unfold blocks_of. apply chunks_whole with (n := n); lia.
Qed.

Lemma chunks_concat : forall bs fuel, Forall (fun b : bytes => length b = block) bs ->
  length (concat bs) <= fuel -> chunks fuel (concat bs) = bs.
Proof.
  induction bs as [|b bs IH]; intros fuel HF Hl; [destruct fuel; reflexivity|].
  inversion HF as [|? ? Hb HF']; subst. cbn [concat] in *. rewrite app_length in Hl.
  destruct fuel as [|fuel]; [unfold block in *; lia|].
  assert (Hne : exists x r, b ++ concat bs = x :: r).
  { destruct b as [|x b]; [discriminate|]. cbn. eauto. }
  destruct Hne as (x & r & Hxr).
  transitivity (firstn block (b ++ concat bs) :: chunks fuel (skipn block (b ++ concat bs))).
  { rewrite Hxr. reflexivity. }
  rewrite firstn_app, skipn_app, Hb, Nat.sub_diag. cbn [firstn skipn]. rewrite app_nil_r.
  rewrite <- Hb, firstn_all, skipn_all. cbn [app]. f_equal. apply IH; [exact HF'|].
  unfold block in *. lia.
Qed.

Lemma blocks_concat bs : Forall (fun b : bytes => length b = block) bs -> blocks_of (concat bs) = bs.
Proof. intro H. apply chunks_concat; [exact H | lia]. Qed.

Lemma length_concat_blocks bs : Forall (fun b : bytes => length b = block) bs ->
  length (concat bs) = length bs * block.
Proof.
  induction 1 as [|b bs Hb _ IH]; [reflexivity|]. cbn [concat length]. rewrite app_length, IH, Hb. lia.
Qed.

Section Cipher.
Variables enc_block dec_block : bytes -> bytes -> bytes.
Hypothesis enc_length : forall key b, length b = block -> length (enc_block key b) = block.
Hypothesis dec_enc : forall key b, length b = block -> dec_block key (enc_block key b) = b.

Lemma cbc_enc_blocks key : forall bs prev, length prev = block ->
  Forall (fun b => length b = block) bs -> Forall (fun b => length b = block) (cbc_enc enc_block key prev bs).
Proof.
  induction bs as [|b bs IH]; intros prev Hp HF; [constructor|]. inversion HF; subst. cbn [cbc_enc].
  assert (length (enc_block key (xor_bytes prev b)) = block)
    by (apply enc_length; rewrite xor_bytes_length; congruence).
  constructor; [assumption|]. apply IH; assumption.
Qed.

Lemma cbc_dec_enc key : forall bs prev, length prev = block ->
  Forall (fun b => length b = block) bs ->
  cbc_dec dec_block key prev (cbc_enc enc_block key prev bs) = bs.
Proof.
  induction bs as [|b bs IH]; intros prev Hp HF; [reflexivity|]. inversion HF as [|? ? Hb HF']; subst.
  cbn [cbc_enc cbc_dec].
  assert (Hx : length (xor_bytes prev b) = block) by (rewrite xor_bytes_length; congruence).
  rewrite dec_enc by exact Hx. rewrite xor_bytes_cancel by congruence. f_equal. apply IH; auto.
Qed.

Lemma cbc_round_trip key iv d c : length iv = block ->
  cbc_encrypt enc_block key iv d = Ok c -> cbc_decrypt dec_block key iv c = Ok d.
Proof.
  intros Hiv. unfold cbc_encrypt, cbc_decrypt.
  destruct (Nat.eqb (Nat.modulo (length d) block) 0) eqn:E; [|discriminate].
  apply Nat.eqb_eq in E. destruct (blocks_whole d E) as [Hd HF]. intro H. injection H as <-.
  pose proof (cbc_enc_blocks key _ iv Hiv HF) as HF'.
  rewrite (length_concat_blocks _ HF'), Nat.mod_mul by discriminate. cbn [Nat.eqb].
  rewrite blocks_concat by exact HF'. rewrite cbc_dec_enc by assumption. now rewrite Hd.
Qed.

Lemma cbc_encrypt_ok key iv d : Nat.modulo (length d) block = 0 ->
  exists c, cbc_encrypt enc_block key iv d = Ok c.
Proof. intro H. unfold cbc_encrypt. rewrite H. eexists; reflexivity. Qed.
End Cipher.

(** ** Integers *)
Lemma pack_i32_ok z : (- 2 ^ 31 <= z < 2 ^ 31)%Z <-> exists b, pack_i32 z = Ok b.
Proof.
  unfold pack_i32. split.
  - intros [H1 H2]. apply Z.leb_le in H1. apply Z.ltb_lt in H2. rewrite H1, H2. eexists; reflexivity.
  - destruct (_ && _) eqn:E; [|intros [b H]; discriminate]. intros _.
    apply andb_prop in E. destruct E as [H1 H2]. apply Z.leb_le in H1. apply Z.ltb_lt in H2. auto.
Qed.
Lemma pack_i32_length z b : pack_i32 z = Ok b -> length b = 4.
Proof. unfold pack_i32. destruct (_ && _); [|discriminate]. intro H. injection H as <-. reflexivity. Qed.

Lemma pack_i32_u32 z b : pack_i32 z = Ok b -> Xor_Model.pack_u32 (Z.to_N (z mod 2 ^ 32)) = Ok b.
Proof.
  unfold pack_i32, Xor_Model.pack_u32. destruct (_ && _); [|discriminate]. cbv zeta.
  intro H. pose proof (Z.mod_pos_bound z (2 ^ 32) eq_refl) as B.
  replace (Z.to_N (z mod 2 ^ 32) <? 2 ^ 32)%N with true; [exact H|].
  symmetry. apply N.ltb_lt. change (2 ^ 32)%N with (Z.to_N (2 ^ 32)). apply Z2N.inj_lt; lia.
Qed.

Lemma pack_i32_injective z z' b : pack_i32 z = Ok b -> pack_i32 z' = Ok b -> z = z'.
Proof.
  intros H H'. pose proof (pack_i32_ok z) as R. pose proof (pack_i32_ok z') as R'.
  assert (B : (- 2 ^ 31 <= z < 2 ^ 31)%Z) by (apply R; eauto).
  assert (B' : (- 2 ^ 31 <= z' < 2 ^ 31)%Z) by (apply R'; eauto).
  apply pack_i32_u32, Xor_Proofs.unpack_pack in H. apply pack_i32_u32, Xor_Proofs.unpack_pack in H'.
  destruct H as [H _], H' as [H' _]. rewrite H in H'. injection H' as H'.
  pose proof (Z.mod_pos_bound z (2 ^ 32) eq_refl) as M. pose proof (Z.mod_pos_bound z' (2 ^ 32) eq_refl) as M'.
  apply Z2N.inj in H'; [|lia|lia].
  pose proof (Z.div_mod z (2 ^ 32) ltac:(discriminate)) as D.
  pose proof (Z.div_mod z' (2 ^ 32) ltac:(discriminate)) as D'.
  assert (z / 2 ^ 32 = z' / 2 ^ 32)%Z by lia. lia.
Qed.

Lemma bval_bound x : (bval x < 256)%N.
Proof. apply N_ascii_bounded. Qed.

Lemma from_bytes_signed_4 a b c d :
  (- 2 ^ 31 <= from_bytes_signed [a; b; c; d] < 2 ^ 31)%Z.
Proof.
  unfold from_bytes_signed. cbn [fold_left length].
  pose proof (bval_bound a). pose proof (bval_bound b). pose proof (bval_bound c). pose proof (bval_bound d).
  change (8 * Z.of_nat 4)%Z with 32%Z.
  destruct (128 <=? bval a)%N eqn:E; [apply N.leb_le in E | apply N.leb_gt in E]; lia.
Qed.

(** ** base64 *)
Lemma char_sx_char s : char_sx (sx_char s) = Some s.
Proof. destruct s as [[] [] [] [] [] []]; vm_compute; reflexivity. Qed.

Lemma b64_round_trip_len : forall n m, length m <= n -> b64decode (b64encode m) = Ok m.
Proof.
  induction n as [|n IH]; intros m Hl; [destruct m; [reflexivity | cbn in Hl; lia]|].
  destruct m as [|[a0 a1 a2 a3 a4 a5 a6 a7] m]; [reflexivity|].
  destruct m as [|[b0 b1 b2 b3 b4 b5 b6 b7] m].
  { cbn [b64encode b64decode]. rewrite !char_sx_char. reflexivity. }
  destruct m as [|[c0 c1 c2 c3 c4 c5 c6 c7] m].
  { cbn [b64encode b64decode]. rewrite !char_sx_char. reflexivity. }
  cbn [b64encode b64decode]. rewrite !char_sx_char. rewrite IH by (cbn in Hl; lia). reflexivity.
Qed.
Lemma b64_round_trip m : b64decode (b64encode m) = Ok m.
Proof. apply b64_round_trip_len with (n := length m). lia. Qed.

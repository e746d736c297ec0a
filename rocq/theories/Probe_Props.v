(** C119: discovery datagrams and the encrypted part of an answer. *)
From Verif Require Import Base Base_Lemmas Py Crypto_Model Crypto_Proofs Crc_Model Probe_Model Probe_Spec.
From Verif Require Xor_Model Xor_Proofs Aes_Model Aes_Props Disc_Model.
From Coq Require Import Lia.
Open Scope string_scope.
Open Scope list_scope.

Lemma lxor_bound a b n : (a < 2 ^ n)%N -> (b < 2 ^ n)%N -> (N.lxor a b < 2 ^ n)%N.
Proof.
  intros Ha Hb. destruct (N.eq_dec (N.lxor a b) 0) as [E|E]; [rewrite E; lia|].
  apply N.log2_lt_pow2; [lia|]. pose proof (N.log2_lxor a b) as H.
  destruct (N.eq_dec a 0) as [->|Na].
  - rewrite N.lxor_0_l in *. apply N.log2_lt_pow2 in Hb; [|lia]. lia.
  - destruct (N.eq_dec b 0) as [->|Nb].
    + rewrite N.lxor_0_r in *. apply N.log2_lt_pow2 in Ha; lia.
    + apply N.log2_lt_pow2 in Ha; [|lia]. apply N.log2_lt_pow2 in Hb; [|lia]. lia.
Qed.
Lemma crc_bits_bound n : forall c, (c < 2 ^ 32)%N -> (crc_bits n c < 2 ^ 32)%N.
Proof.
  induction n as [|n IH]; intros c H; [exact H|]. cbn [crc_bits]. apply IH.
  assert (Hs : (N.shiftr c 1 < 2 ^ 32)%N).
  { rewrite N.shiftr_div_pow2. pose proof (N.div_le_upper_bound c (2 ^ 1) c). lia. }
  destruct (N.odd c); [|exact Hs]. apply lxor_bound; [exact Hs | reflexivity].
Qed.
Lemma crc32_bound b : (crc32 b < 2 ^ 32)%N.
Proof.
  unfold crc32. apply lxor_bound; [|reflexivity].
  assert (H : forall l c, (c < 2 ^ 32)%N ->
    (fold_left (fun c x => crc_bits 8 (N.lxor c (N_of_ascii x))) l c < 2 ^ 32)%N).
  { induction l as [|x l IH]; intros c Hc; [exact Hc|]. cbn [fold_left]. apply IH, crc_bits_bound, lxor_bound; [exact Hc|].
    pose proof (N_ascii_bounded x). lia. }
  apply H. reflexivity.
Qed.

Ltac Zify.zify_post_hook ::= Z.to_euclidean_division_equations.
Lemma ascii_back n a : n = N_of_ascii a -> ascii_of_N n = a.
Proof. intros ->. apply ascii_N_embedding. Qed.
Lemma pack_from_bytes s : length s = 4 -> Xor_Model.pack_u32 (from_bytes s) = Ok s.
Proof.
  destruct s as [|a [|b [|c [|d [|]]]]]; try discriminate. intros _. unfold from_bytes. cbn [fold_left].
  pose proof (N_ascii_bounded a). pose proof (N_ascii_bounded b). pose proof (N_ascii_bounded c). pose proof (N_ascii_bounded d).
  set (n := ((((0 * 256 + N_of_ascii a) * 256 + N_of_ascii b) * 256 + N_of_ascii c) * 256 + N_of_ascii d)%N).
  unfold Xor_Model.pack_u32. replace (n <? 2 ^ 32)%N with true by (symmetry; apply N.ltb_lt; subst n; lia).
  repeat f_equal; apply ascii_back; subst n; lia.
Qed.
Lemma number_pack_u16 n b : pack_u16 n = Ok b -> length b = 2 /\ number b = n.
Proof.
  unfold pack_u16. destruct (n <? 65536)%N eqn:E; [|discriminate]. apply N.ltb_lt in E. intro H. injection H as <-.
  split; [reflexivity|]. unfold number. cbn [fold_left]. rewrite !N_ascii_embedding by lia. lia.
Qed.
Lemma number_pack_u32 n b : Xor_Model.pack_u32 n = Ok b -> length b = 4 /\ number b = n.
Proof.
  intro H. apply Xor_Proofs.unpack_pack in H as (H1 & H2 & H3). split; [exact H2|].
  destruct b as [|a [|b [|c [|d [|]]]]]; try discriminate. cbn [Xor_Model.unpack_u32] in H1.
  pose proof (f_equal (fun r => match r with Ok x => x | Err _ => 0%N end) H1) as H4. cbn beta iota in H4. unfold number. cbn [fold_left].
  unfold Xor_Model.bval in H4. lia.
Qed.

(** What a probe is made of *)
Lemma query_shape K pem dumps kp fresh secret q : length secret = 4 ->
  snd (generate_query K pem dumps kp fresh secret) = Ok q ->
  exists size crc payload, payload = dumps (JObj [("params", JObj [("rsa_key", JStr (pem (match kp with Some k => k | None => fresh end)))])]) /\
    length size = 2 /\ number size = N.of_nat (length payload) /\ length crc = 4 /\
    number crc = crc32 ((ascii_of_N 2 :: ascii_of_N 0 :: ascii_of_N 0 :: ascii_of_N 1 :: size ++ [ascii_of_N 17; ascii_of_N 0] ++ secret)
                        ++ seed ++ payload) /\
    q = (ascii_of_N 2 :: ascii_of_N 0 :: ascii_of_N 0 :: ascii_of_N 1 :: size ++ [ascii_of_N 17; ascii_of_N 0] ++ secret) ++ crc ++ payload.
Proof.
  intros Hs H. unfold generate_query in H. cbn [snd] in H.
  set (payload := dumps _) in *. cbn [bind pack_u8 N.ltb N.compare Pos.compare Pos.compare_cont] in H.
  rewrite pack_from_bytes in H by exact Hs.
  change (pack_u16 1) with (Ok [ascii_of_N 0; ascii_of_N 1]) in H.
  change (Xor_Model.pack_u32 1516993677) with (Ok seed) in H. cbn [bind] in H.
  destruct (pack_u16 (N.of_nat (length payload))) as [size|] eqn:Ep; [|discriminate]. cbn [bind] in H.
  apply number_pack_u16 in Ep as [L1 N1]. destruct size as [|s1 [|s2 [|]]]; try discriminate.
  destruct secret as [|a [|b [|c [|d [|]]]]]; try discriminate. cbn [app] in H.
  destruct (Xor_Model.pack_u32 (crc32 _)) as [crc|] eqn:Ec; [|discriminate]. cbn [bind] in H.
  apply number_pack_u32 in Ec as [L2 N2]. cbn [firstn skipn seed map app] in H.
  pose proof (f_equal (fun r => match r with Ok x => x | Err _ => [] end) H) as Hq. cbn beta iota in Hq. subst q.
  exists [s1; s2], crc, payload. repeat (split; [first [reflexivity | assumption]|]). reflexivity.
Qed.

(** The probe is sent whole: its text is short enough for the size field. *)
Definition fits (b : bytes) : Prop := (N.of_nat (length b) < 65536)%N.
Definition key_message (public : string) : json := JObj [("params", JObj [("rsa_key", JStr public)])].

(** A device reads the probe: version, size and checksum are right, it carries the
    flags 17, the four random bytes and the text of the public key; and a process
    that has made a key pair keeps it. *)
Theorem probe_read : forall K pem dumps kp fresh secret kp' q, length secret = 4 ->
  generate_query K pem dumps kp fresh secret = (kp', Ok q) ->
  exists k, kp' = Some k /\ (forall k0, kp = Some k0 -> k = k0) /\
    read_probe q = Some (mkProbe 17 secret (dumps (key_message (pem k)))).
Proof.
  intros K pem dumps kp fresh secret kp' q Hs H.
  assert (Hq : snd (generate_query K pem dumps kp fresh secret) = Ok q) by now rewrite H.
  destruct (query_shape _ _ _ _ _ _ _ Hs Hq) as (size & crc & payload & -> & L1 & N1 & L2 & N2 & ->).
  set (k := match kp with Some k => k | None => fresh end) in *. exists k.
  split; [unfold generate_query in H; now injection H|]. split; [intros k0 ->; reflexivity|].
  fold (key_message (pem k)) in *. set (payload := dumps (key_message (pem k))) in *.
  destruct size as [|s1 [|s2 [|]]]; try discriminate.
  destruct secret as [|a [|b [|c [|d [|]]]]]; try discriminate.
  destruct crc as [|c1 [|c2 [|c3 [|c4 [|]]]]]; try discriminate.
  unfold read_probe, field. cbn [app firstn skipn length Nat.leb] in *.
  rewrite N1, N2. rewrite !N.eqb_refl. reflexivity.
Qed.
Print Assumptions probe_read.

(** A probe is made whenever the text fits. *)
Theorem probe_made : forall K pem dumps kp fresh secret, length secret = 4 ->
  (forall k, fits (dumps (key_message (pem k)))) ->
  exists kp' q, generate_query K pem dumps kp fresh secret = (kp', Ok q).
Proof.
  intros K pem dumps kp fresh secret Hs Hf. unfold generate_query. fold (key_message (pem (match kp with Some k => k | None => fresh end))).
  specialize (Hf (match kp with Some k => k | None => fresh end)). set (payload := dumps _) in *. unfold fits in Hf.
  rewrite pack_from_bytes by exact Hs. cbn [bind pack_u8 N.ltb N.compare Pos.compare Pos.compare_cont].
  change (pack_u16 1) with (Ok [ascii_of_N 0; ascii_of_N 1]).
  change (Xor_Model.pack_u32 1516993677) with (Ok seed). cbn [bind].
  unfold pack_u16. apply N.ltb_lt in Hf. rewrite Hf. cbn [bind].
  match goal with |- context [crc32 ?l] => pose proof (crc32_bound l) as Hc; destruct (Xor_Proofs.pack_ok _ Hc) as (b3 & b2 & b1 & b0 & E & _) end.
  rewrite E. cbn [bind]. eauto.
Qed.
Print Assumptions probe_made.

(** The legacy datagram: a device undoing the chain reads the request for the
    system information. *)
Lemma unchain_decrypt d : forall k, unchain (N_of_ascii k) d = Xor_Model.xor_encrypted_payload k d.
Proof.
  induction d as [|c d IH]; intro k; [reflexivity|]. cbn [unchain Xor_Model.xor_encrypted_payload]. rewrite IH. f_equal.
  apply ascii_back. symmetry. apply Xor_Proofs.bxor_lxor.
Qed.
Theorem legacy_probe_read : forall dumps q, legacy_query dumps = Ok q ->
  unchain 171 q = dumps (JObj [("system", JObj [("get_sysinfo", JObj [])])]).
Proof.
  intros dumps q H. unfold legacy_query, Xor_Model.encrypt in H. set (text := dumps _) in *.
  destruct (Xor_Model.pack_u32 _) as [pre|] eqn:E; [|discriminate]. cbn [bind] in H.
  apply Xor_Proofs.unpack_pack in E as (_ & L & _). destruct pre as [|a [|b [|c [|d [|]]]]]; try discriminate.
  cbn [app skipn] in H. pose proof (f_equal (fun r => match r with Ok x => x | Err _ => [] end) H) as Hq. cbn beta iota in Hq. subst q.
  change 171%N with (N_of_ascii Xor_Model.IV). rewrite unchain_decrypt. apply Xor_Proofs.xor_round_trip.
Qed.
Print Assumptions legacy_probe_read.

(** The key pair of a process never changes once it is made. *)
Lemma run_keeps K pem rsa_open dec_block dumps loads es : forall k kp' os,
  run K pem rsa_open dec_block dumps loads (Some k) es = (kp', os) -> kp' = Some k.
Proof.
  induction es as [|e es IH]; intros k kp' os H; [now injection H|]. cbn [run] in H.
  assert (Hs : fst (step K pem rsa_open dec_block dumps loads (Some k) e) = Some k) by (destruct e; reflexivity).
  destruct (step _ _ _ _ _ _ (Some k) e) as [k1 o]. cbn [fst] in Hs. subst k1.
  destruct (run _ _ _ _ _ _ (Some k) es) as [k2 os'] eqn:E. injection H as <- _. eapply IH; eauto.
Qed.
Lemma run_app K pem rsa_open dec_block dumps loads es1 : forall kp es2,
  run K pem rsa_open dec_block dumps loads kp (es1 ++ es2) =
  let (k1, o1) := run K pem rsa_open dec_block dumps loads kp es1 in
  let (k2, o2) := run K pem rsa_open dec_block dumps loads k1 es2 in (k2, o1 ++ o2).
Proof.
  induction es1 as [|e es1 IH]; intros kp es2.
  - cbn [app run]. now destruct (run _ _ _ _ _ _ kp es2).
  - cbn [app run]. destruct (step _ _ _ _ _ _ kp e) as [k1 o]. rewrite IH. destruct (run _ _ _ _ _ _ k1 es1) as [k2 o2].
    now destruct (run _ _ _ _ _ _ k2 es2).
Qed.

(** In any process, whatever was discovered and answered before and in between: an
    answer to a probe, sealed for the key that the probe offered, gives what the
    device wrote. *)
Theorem answer_understood : forall K pem rsa_open seal enc_block dec_block dumps loads,
  (forall k m r, rsa_open k (seal (pem k) m r) = Some m) -> Aes_Props.cipher_ok enc_block dec_block ->
  (forall s, loads (dumps (key_message s)) = Some (key_message s)) ->
  forall before fresh secret between kp os q public text key_field data_field,
  length secret = 4 ->
  run K pem rsa_open dec_block dumps loads None (before ++ [EDiscover fresh secret] ++ between) = (kp, os) ->
  (exists l, nth_error os (length before) = Some (ODatagrams l (Ok q))) ->
  offered loads q = Some public -> answers seal enc_block public text key_field data_field ->
  step K pem rsa_open dec_block dumps loads kp (EAnswer key_field data_field) =
    (kp, OData (match loads text with Some j => Ok j | None => Err PyValueError end)) /\
  exists k, kp = Some k /\ public = pem k.
Proof.
  intros K pem rsa_open seal enc_block dec_block dumps loads Hrsa [Hl Hc] Hj before fresh secret between kp os q public text kf df
    Hs Hr [l Hn] Ho Ha.
  rewrite run_app in Hr. destruct (run _ _ _ _ _ _ None before) as [k1 o1] eqn:E1. cbn [app run step] in Hr.
  destruct (generate_query K pem dumps k1 fresh secret) as [k2 q'] eqn:Eg.
  destruct (run _ _ _ _ _ _ k2 between) as [k3 o3] eqn:E3. injection Hr as <- <-.
  assert (Hlen : length o1 = length before).
  { clear -E1. revert E1. generalize (@None K) as k0. revert k1 o1. induction before as [|e es IH]; intros k1 o1 k0 H; [now injection H as _ <-|].
    cbn [run] in H. destruct (step _ _ _ _ _ _ k0 e) as [ka oa]. destruct (run _ _ _ _ _ _ ka es) as [kb ob] eqn:E. injection H as _ <-.
    cbn. f_equal. eapply IH; eauto. }
  rewrite nth_error_app2, Hlen, Nat.sub_diag in Hn by lia. cbn in Hn. injection Hn as _ ->.
  destruct (probe_read K pem dumps k1 fresh secret k2 q Hs Eg) as (k & -> & _ & Hread).
  unfold offered in Ho. rewrite Hread in Ho. cbn [p_payload] in Ho. rewrite Hj in Ho. cbn in Ho. injection Ho as <-.
  apply run_keeps in E3. subst k3. split; [|eauto].
  destruct Ha as (key & iv & r & c & Lk & Li & -> & Ec & ->). cbn [step]. unfold decrypt_discovery_data, b64_text.
  rewrite !list_ascii_of_string_of_list_ascii, b64_round_trip. cbn [bind]. rewrite Hrsa.
  unfold Aes_Model.new_session. rewrite firstn_app, Lk, Nat.sub_diag, firstn_O, app_nil_r, firstn_all2 by lia.
  rewrite skipn_app, Lk, Nat.sub_diag, skipn_all2 by lia. cbn [app skipn]. rewrite Li. cbn [Nat.eqb andb bind].
  unfold Aes_Model.aes_decrypt. cbn [fst snd]. rewrite b64_round_trip. cbn [bind].
  rewrite (cbc_round_trip enc_block dec_block) with (d := pkcs7_pad text); [|exact Hl|exact Hc|exact Li|exact Ec].
  cbn [bind]. rewrite unpad_pad. cbn [bind]. reflexivity.
Qed.
Print Assumptions answer_understood.

(** Data that cannot be decrypted is an Exception, which the code catches. *)
Lemma b64decode_exception n : forall t e, length t <= n -> b64decode t = Err e -> is_exception e = true.
Proof.
  induction n as [|n IH]; intros [|c1 [|c2 [|c3 [|c4 rest]]]] e Hn H; cbn [length] in Hn; try lia;
    try discriminate; try (injection H as <-; reflexivity).
  cbn [b64decode] in H.
  destruct (char_sx c1) as [[]|]; [|injection H as <-; reflexivity]. destruct (char_sx c2) as [[]|]; [|injection H as <-; reflexivity].
  destruct (char_sx c3) as [[]|].
  - destruct (char_sx c4) as [[]|].
    + destruct (b64decode rest) eqn:E; cbn in H; [discriminate|]. injection H as <-. eapply IH; [|exact E]. lia.
    + destruct (Ascii.eqb c4 pad_char && _); [discriminate|]. injection H as <-. reflexivity.
  - destruct (Ascii.eqb c3 pad_char && _ && _); [discriminate|]. injection H as <-. reflexivity.
Qed.
Theorem undecryptable_is_caught : forall K rsa_open dec_block loads kp key data e,
  decrypt_discovery_data K rsa_open dec_block loads kp key data = Err e -> is_exception e = true.
Proof.
  intros K rsa_open dec_block loads kp key data e H. unfold decrypt_discovery_data in H.
  destruct kp as [k|]; [|now injection H as <-].
  destruct (b64decode (list_ascii_of_string key)) as [s|e0] eqn:E0; cbn [bind] in H;
    [|injection H as <-; eapply b64decode_exception; [reflexivity | exact E0]].
  destruct (rsa_open k s) as [ki|]; [|now injection H as <-].
  unfold Aes_Model.new_session in H. destruct (_ && _); cbn [bind] in H; [|now injection H as <-].
  unfold Aes_Model.aes_decrypt in H. cbn [fst snd] in H.
  destruct (b64decode (list_ascii_of_string data)) as [c|e0] eqn:E1; cbn [bind] in H;
    [|injection H as <-; eapply b64decode_exception; [reflexivity | exact E1]].
  unfold cbc_decrypt in H. destruct (Nat.eqb _ 0); cbn [bind] in H; [|now injection H as <-].
  destruct (pkcs7_unpad _) as [x|e0] eqn:E2; cbn [bind] in H.
  - destruct (loads x); [discriminate | now injection H as <-].
  - injection H as <-. unfold pkcs7_unpad in E2. repeat (match type of E2 with context [match ?x with _ => _ end] => destruct x end; try discriminate);
    injection E2 as <-; reflexivity.
Qed.
Print Assumptions undecryptable_is_caught.

(** A device is found all the same whether its data could be decrypted or not
    (as long as the warning can be written). *)
Definition with_decrypt (V : Disc_Model.env) (f : Disc_Model.dresult -> bool) : Disc_Model.env :=
  Disc_Model.mkEnv (Disc_Model.json_loads V) (Disc_Model.parse_result V) (Disc_Model.int_of_str V) f
    (Disc_Model.log_redacted V) (Disc_Model.raw_callback V).
Theorem undecryptable_is_found : forall V f info config, Disc_Model.log_redacted V info = Ok tt ->
  Disc_Model.instance_new (with_decrypt V f) info config =
  Disc_Model.instance_new (with_decrypt V (fun _ => true)) info config.
Proof.
  intros V f info config Hl. unfold Disc_Model.instance_new, with_decrypt.
  cbn [Disc_Model.parse_result Disc_Model.decrypt_info Disc_Model.log_redacted Disc_Model.int_of_str Disc_Model.json_loads Disc_Model.raw_callback].
  destruct (let! r := _ in _) as [d|]; [|reflexivity].
  assert (E : (match Disc_Model.d_sym_schm d with Some (JStr "AES") => if f d then Ok tt else Disc_Model.log_redacted V info | _ => Ok tt end)
              = (match Disc_Model.d_sym_schm d with Some (JStr "AES") => Ok tt | _ => Ok tt end)).
  { rewrite Hl. destruct (f d); reflexivity. }
  rewrite E. reflexivity.
Qed.
Print Assumptions undecryptable_is_found.

(** The fixed probe of Discover.DISCOVERY_QUERY_2 (discover.py:425, 02000001 00000000
    00000000 463cb5d3) is read by the same rules. *)
Example fixed_probe_read : read_probe (map ascii_of_N [2;0;0;1;0;0;0;0;0;0;0;0;70;60;181;211]%N) =
  Some (mkProbe 0 (map ascii_of_N [0;0;0;0]%N) []).
Proof. vm_compute. reflexivity. Qed.
(** A wrong checksum is not *)
Example wrong_probe_refused : read_probe (map ascii_of_N [2;0;0;1;0;0;0;0;0;0;0;0;70;60;181;212]%N) = None.
Proof. vm_compute. reflexivity. Qed.

Definition toy_dumps (j : json) : bytes :=
  match j with
  | JObj [(_, JObj [(_, JStr s)])] => "k"%char :: list_ascii_of_string s
  | _ => list_ascii_of_string "system"
  end.
Definition toy_loads (b : bytes) : option json :=
  match b with
  | c :: r => if Ascii.eqb c "k" then Some (key_message (string_of_list_ascii r)) else Some (JStr (string_of_list_ascii b))
  | [] => None
  end.
Definition toy_seal (p : string) (m _ : bytes) : bytes := list_ascii_of_string p ++ m.
Definition toy_open (k : string) (c : bytes) : option bytes :=
  if list_eq_dec ascii_dec (firstn (length (list_ascii_of_string k)) c) (list_ascii_of_string k)
  then Some (skipn (length (list_ascii_of_string k)) c) else None.
Definition toy_key : bytes := list_ascii_of_string "0123456789abcdef".
Definition toy_secret : bytes := list_ascii_of_string "rand".
(** Two discoveries, then the answer to the first: the key offered second is the
    first, and the answer is understood. *)
Example answer_understood_ex :
  (forall k m r, toy_open k (toy_seal k m r) = Some m) /\
  Aes_Props.cipher_ok (fun _ b => b) (fun _ b => b) /\
  (forall s, toy_loads (toy_dumps (key_message s)) = Some (key_message s)) /\
  exists l1 q1 l2 q2 kf df,
    let go := run string (fun k => k) toy_open (fun _ b => b) toy_dumps toy_loads None in
    go [EDiscover "PEM1" toy_secret; EDiscover "PEM2" toy_secret] = (Some "PEM1", [ODatagrams l1 (Ok q1); ODatagrams l2 (Ok q2)]) /\
    offered toy_loads q1 = Some "PEM1" /\ offered toy_loads q2 = Some "PEM1" /\ length q1 = 21 /\
    answers toy_seal (fun _ b => b) "PEM1" (list_ascii_of_string "data") kf df /\
    go [EDiscover "PEM1" toy_secret; EDiscover "PEM2" toy_secret; EAnswer kf df] =
      (Some "PEM1", [ODatagrams l1 (Ok q1); ODatagrams l2 (Ok q2); OData (Ok (JStr "data"))]).
Proof.
  split.
  { intros k m r. unfold toy_open, toy_seal. rewrite firstn_app, Nat.sub_diag, firstn_O, app_nil_r, firstn_all.
    destruct (list_eq_dec _ _ _); [|congruence]. now rewrite skipn_app, Nat.sub_diag, skipn_all. }
  split; [split; auto|]. split; [intro s; cbn; now rewrite string_of_list_ascii_of_string|].
  do 4 eexists.
  exists (b64_text (toy_seal "PEM1" (toy_key ++ toy_key) [])).
  exists (b64_text (match cbc_encrypt (fun _ b => b) toy_key toy_key (pkcs7_pad (list_ascii_of_string "data")) with Ok c => c | Err _ => [] end)).
  cbv zeta. split; [vm_compute; reflexivity|]. split; [vm_compute; reflexivity|]. split; [vm_compute; reflexivity|].
  split; [vm_compute; reflexivity|]. split.
  { exists toy_key, toy_key, [], (match cbc_encrypt (fun _ b => b) toy_key toy_key (pkcs7_pad (list_ascii_of_string "data")) with Ok c => c | Err _ => [] end).
    repeat split. }
  vm_compute. reflexivity.
Qed.

(** Proofs about the decoders of recorded traffic. *)
From Verif Require Import Base Base_Lemmas Py Crypto_Model Crypto_Proofs Klap_Model Klap_Spec Klap_Proofs Sniff_Model Sniff_Spec.
From Verif Require Xor_Model Xor_Proofs.
Open Scope string_scope.
Open Scope list_scope.
Open Scope Z_scope.

(** ** Numbers in queries *)
Lemma digit_of d : is_digit d -> digit (ascii_of_N (Z.to_N (d + 48))) = Some d.
Proof.
  unfold is_digit, digit. intros H. rewrite N_ascii_embedding by lia.
  rewrite Z2N.id by lia. destruct (Z.leb_spec 48 (d + 48)); [|lia]. destruct (Z.leb_spec (d + 48) 57); [|lia].
  cbn. f_equal. lia.
Qed.
Lemma digits_text ds : Forall is_digit ds -> digits (text_of ds) = ds.
Proof.
  unfold text_of. induction 1 as [|d ds H _ IH]; [reflexivity|].
  cbn [map string_of_list_ascii digits]. rewrite (digit_of d H), IH. reflexivity.
Qed.
Lemma not_s d : is_digit d -> Ascii.eqb "s" (ascii_of_N (Z.to_N (d + 48))) = false.
Proof.
  intros H. destruct (Ascii.eqb_spec "s" (ascii_of_N (Z.to_N (d + 48)))) as [E|]; [|reflexivity].
  pose proof (digit_of d H) as D. rewrite <- E in D. discriminate D.
Qed.
Lemma search_digits ds : Forall is_digit ds -> search_seq (text_of ds) = None.
Proof.
  unfold text_of. induction 1 as [|d ds H _ IH]; [reflexivity|].
  cbn [map string_of_list_ascii search_seq after]. rewrite (not_s d H). exact IH.
Qed.
Lemma search_positive ds : ds <> [] -> Forall is_digit ds -> search_seq ("seq=" ++ text_of ds)%string = Some ds.
Proof.
  intros N H. cbn [append search_seq after]. cbn [Ascii.eqb Bool.eqb].
  rewrite (digits_text ds H). destruct ds; [congruence|reflexivity].
Qed.
Lemma search_negative ds : Forall is_digit ds -> search_seq ("seq=-" ++ text_of ds)%string = None.
Proof. intros H. pose proof (search_digits ds H) as E. cbn. exact E. Qed.
Lemma get_seq_positive p n : numbered (p_query p) n -> 0 <= n -> get_seq p = Ok n.
Proof.
  intros (ds & N & F & [(_ & V & Q)|(L & _)]) P; [|lia]. unfold get_seq. rewrite Q, (search_positive ds N F). f_equal. exact V.
Qed.
Lemma get_seq_negative p n : numbered (p_query p) n -> n < 0 -> get_seq p = Err PyOther.
Proof.
  intros (ds & N & F & [(L & _)|(_ & V & Q)]) P; [lia|]. unfold get_seq. rewrite Q, (search_negative ds F). reflexivity.
Qed.

(** ** Responses *)
Lemma response_yes q p b : responds q p b -> is_response q p = Ok true.
Proof.
  intros (H & (u & F & R) & _). unfold is_response. rewrite H, R, F. cbn. rewrite seqb_refl. reflexivity.
Qed.
Lemma response_no x p : unrelated x p -> is_response x p = Ok false.
Proof.
  unfold is_response. intros [H|(u & v & F & V & R & w & W & N)]; [rewrite H; reflexivity|].
  destruct (p_http x); [|reflexivity]. cbn [negb]. rewrite F, V, W.
  assert (E : (match p_for x with Some z => let! y := attr (Some u) in Ok (String.eqb z y) | None => Ok false end) = Ok false).
  { destruct (p_for x) as [z|]; [|reflexivity]. cbn. destruct (String.eqb_spec z u) as [E|]; [congruence|reflexivity]. }
  rewrite E. cbn. destruct (String.eqb_spec w v); [congruence|reflexivity].
Qed.

Section Klap.
Variables md5 sha1 sha256 : bytes -> bytes.
Variables enc_block dec_block : bytes -> bytes -> bytes.
Variable J : Type.
Variable loads : bytes -> option J.
Hypothesis ok : crypto_ok sha256 enc_block dec_block.
Notation decode := (decode md5 sha1 sha256 dec_block J loads).
Notation update := (update_session md5 sha1 sha256).

Lemma sha_length m : List.length (sha256 m) = 32%nat.
Proof. destruct ok as (H & _). apply H. Qed.
Lemma hash_full x : exists a b, hash_of sha1 sha256 x = a :: b.
Proof. unfold hash_of. pose proof (sha_length (sha1 (username x) ++ sha1 (password x))) as L. destruct (sha256 _); [discriminate|eauto]. Qed.

(** The hash that is chosen *)
Definition chosen (c : credentials) (l r h : bytes) : option bytes :=
  if bytes_eqb (handshake1_seed_auth_hash sha256 V2 l r (generate_auth_hash md5 sha1 sha256 V2 c)) h
  then Some (generate_auth_hash md5 sha1 sha256 V2 c) else check_default md5 sha1 sha256 l r h.
Lemma chosen_known c l r h a : chosen c l r h = Some a -> known_auth sha1 sha256 c a /\ h = device_proof sha256 l r a.
Proof.
  unfold chosen. destruct (bytes_eqb _ h) eqn:B.
  - intros H. injection H as <-. apply bytes_eqb_eq in B. split; [exists c; split; [left; reflexivity|reflexivity]|].
    symmetry. exact B.
  - unfold check_default. intros H. apply find_some in H as (I & B2). apply bytes_eqb_eq in B2.
    split; [|exact B2]. apply in_map_iff in I as ((k & t) & <- & I). exists (get_default_credentials t).
    split; [right; eauto|reflexivity].
Qed.
Lemma chosen_auth c l r a : told_apart sha1 sha256 c -> known_auth sha1 sha256 c a -> chosen c l r (device_proof sha256 l r a) = Some a.
Proof.
  intros T K. destruct (chosen c l r (device_proof sha256 l r a)) as [b|] eqn:E.
  - destruct (chosen_known _ _ _ _ _ E) as (Kb & P). f_equal. symmetry. exact (T l r a b K Kb P).
  - exfalso. destruct K as (x & [->|(k & t & I & ->)] & ->); revert E; unfold chosen.
    + destruct (bytes_eqb _ _) eqn:B; [discriminate|].
      assert (B' : bytes_eqb (device_proof sha256 l r (hash_of sha1 sha256 c)) (device_proof sha256 l r (hash_of sha1 sha256 c)) = true) by (apply bytes_eqb_eq; reflexivity).
      change (bytes_eqb (device_proof sha256 l r (hash_of sha1 sha256 c)) (device_proof sha256 l r (hash_of sha1 sha256 c)) = false) in B. congruence.
    + destruct (bytes_eqb _ _); [discriminate|]. unfold check_default. intros E.
      assert (I2 : In (hash_of sha1 sha256 (get_default_credentials t)) (map (fun kv => generate_auth_hash md5 sha1 sha256 V2 (get_default_credentials (snd kv))) default_credentials_b64)).
      { apply in_map_iff. exists (k, t). split; [reflexivity|exact I]. }
      pose proof (find_none _ _ E _ I2) as E2. cbv beta in E2.
      change (bytes_eqb (device_proof sha256 l r (hash_of sha1 sha256 (get_default_credentials t))) (device_proof sha256 l r (hash_of sha1 sha256 (get_default_credentials t))) = false) in E2.
        assert (B' : bytes_eqb (device_proof sha256 l r (hash_of sha1 sha256 (get_default_credentials t))) (device_proof sha256 l r (hash_of sha1 sha256 (get_default_credentials t))) = true) by (apply bytes_eqb_eq; reflexivity).
        congruence.
Qed.

(** What the operator knows *)
Definition knows (c : credentials) (cur : option (bytes * bytes * bytes)) (o : operator) : Prop :=
  o_auth o = generate_auth_hash md5 sha1 sha256 V2 c /\
  match cur with
  | None => o_local o = None
  | Some (l, r, a) => o_local o = Some l /\ o_remote o = Some r /\ o_proof o = Some (device_proof sha256 l r a)
  end.
(** The session for a number *)
Definition session_at (l r a : bytes) (n : Z) (packed : bytes) : session :=
  let s := new_session sha256 l r a in mkSess (s_key s) (s_iv s) n (s_sig s) (Some (s_iv s ++ packed)).

Lemma pack_range n : - 2 ^ 31 <= n < 2 ^ 31 -> exists b, pack_i32 n = Ok b.
Proof.
  intros H. unfold pack_i32. destruct (Z.leb_spec (- 2 ^ 31) n); [|lia]. destruct (Z.ltb_spec n (2 ^ 31)); [|lia]. cbn [andb]. eauto.
Qed.
Lemma update_known c l r a o n packed : told_apart sha1 sha256 c -> known_auth sha1 sha256 c a ->
  o_auth o = generate_auth_hash md5 sha1 sha256 V2 c -> o_local o = Some l -> o_remote o = Some r ->
  o_proof o = Some (device_proof sha256 l r a) -> o_seq o = n -> pack_i32 n = Ok packed ->
  update o = (mkOp (Some l) (Some r) (Some (session_at l r a n packed)) (o_auth o) (o_proof o) n, Ok tt).
Proof.
  intros T K A L R P S N. unfold update_session. rewrite L, R, P, A.
  change (if bytes_eqb (handshake1_seed_auth_hash sha256 V2 l r (generate_auth_hash md5 sha1 sha256 V2 c)) (device_proof sha256 l r a)
          then Some (generate_auth_hash md5 sha1 sha256 V2 c) else check_default md5 sha1 sha256 l r (device_proof sha256 l r a))
    with (chosen c l r (device_proof sha256 l r a)).
  rewrite (chosen_auth c l r a T K). destruct K as (x & _ & ->). destruct (hash_full x) as (b & t & E).
  rewrite E, S, N. rewrite <- E. unfold with_session. rewrite L, R, A, P, S. reflexivity.
Qed.
Definition cur_ok (c : credentials) (cur : option (bytes * bytes * bytes)) : Prop :=
  match cur with None => True | Some (_, _, a) => known_auth sha1 sha256 c a end.
Lemma set_seq_ok c cur o n : told_apart sha1 sha256 c -> cur_ok c cur -> knows c cur o -> - 2 ^ 31 <= n < 2 ^ 31 ->
  exists o', set_seq md5 sha1 sha256 n o = (o', Ok tt) /\ knows c cur o' /\
    match cur with None => o_session o' = None | Some (l, r, a) => forall packed, pack_i32 n = Ok packed -> o_session o' = Some (session_at l r a n packed) end.
Proof.
  intros T C (A & K) N. destruct (pack_range n N) as (b & B). unfold set_seq. destruct cur as [[[l r] a]|].
  - destruct K as (L & R & P). rewrite (update_known c l r a _ n b T C); try assumption; try reflexivity.
    eexists. split; [reflexivity|]. split; [repeat split; assumption|]. cbn [o_session]. intros packed E. congruence.
  - unfold update_session. cbn [o_local o_remote]. rewrite K. eexists. split; [reflexivity|]. split; [split; [exact A|reflexivity]|reflexivity].
Qed.
Lemma decrypts l r a n m payload o packed : encrypts sha256 enc_block l r a n m payload -> pack_i32 n = Ok packed ->
  o_session o = Some (session_at l r a n packed) -> op_decrypt dec_block o payload = Ok m.
Proof.
  intros (s' & E) P S. unfold op_decrypt. rewrite S. destruct ok as (H1 & H2 & H3).
  pose proof (new_session_iv sha256 H1 l r a) as IV.
  match type of E with klap_encrypt _ _ ?s0 _ = _ => set (z := s0) in * end.
  destruct (encrypt_ok sha256 enc_block z m s' payload n E IV) as (Q & _ & _ & _ & _ & p & Hp & _ & _ & ct & Hct & ->).
  rewrite P in Hp. injection Hp as <-. unfold klap_decrypt, session_at. cbn [s_cipher s_key].
  rewrite skipn_32 by apply H1. cbn [s_key s_iv z] in Hct.
  rewrite (cbc_round_trip enc_block dec_block H2 H3 _ _ _ _) with (2 := Hct).
  - cbn [bind]. apply unpad_pad.
  - rewrite app_length, IV, (pack_i32_length _ _ P). reflexivity.
Qed.
Lemma encrypts_range l r a n m payload : encrypts sha256 enc_block l r a n m payload -> - 2 ^ 31 <= n < 2 ^ 31.
Proof.
  intros (s' & E). rewrite encrypt_spec in E. cbn [s_seq] in E. replace (n - 1 + 1) with n in E by lia.
  destruct (Z.leb_spec (- 2 ^ 31) n); destruct (Z.ltb_spec n (2 ^ 31)); cbn [andb] in E; try discriminate; lia.
Qed.

(** ** The packets one after another *)
Lemma foreign_step src dev o p ps : foreign src p -> decode src dev None o (p :: ps) = decode src dev None o ps.
Proof.
  intros [N|[N|(N1 & N2)]]; cbn [Sniff_Model.decode].
  - destruct (String.eqb_spec (p_src p) src); [congruence|reflexivity].
  - rewrite N. cbn [negb]. destruct (negb _); reflexivity.
  - rewrite N1, N2. destruct (negb _); [reflexivity|]. destruct (negb _); reflexivity.
Qed.
Lemma waiting src dev o p between q ps data : Forall (fun x => unrelated x p) between -> responds q p data ->
  decode src dev (Some p) o (between ++ q :: ps) =
    after_call (set_remote md5 sha1 sha256 (firstn 16 data) o) (fun o =>
      after_call (set_proof md5 sha1 sha256 (skipn 16 data) o) (fun o => decode src dev None o ps) (fun e => ([], Err e))) (fun e => ([], Err e)).
Proof.
  intros F R. induction F as [|x between U _ IH]; cbn [app Sniff_Model.decode].
  - rewrite (response_yes q p data R). destruct R as (_ & _ & D). unfold data_of. rewrite D. reflexivity.
  - rewrite (response_no x p U). exact IH.
Qed.
(** The steps for a request that can be read *)
Lemma request_step src dev o p ps path data : posts src dev path data p ->
  decode src dev None o (p :: ps) =
    match get_seq p with
    | Err e => ([], Err e)
    | Ok n => after_call (set_seq md5 sha1 sha256 n o) (fun o =>
        if String.eqb path "/app/request" then
          match op_decrypt dec_block o data with
          | Ok text => match loads text with Some j => let (out, e) := decode src dev None o ps in (j :: out, e) | None => decode src dev None o ps end
          | Err PyValueError => decode src dev None o ps
          | Err e => ([], Err e)
          end
        else if String.eqb path "/app/handshake1" then
          after_call (set_local md5 sha1 sha256 data o) (fun o => decode src dev (Some p) o ps) (fun e => ([], Err e))
        else decode src dev None o ps) (fun e => ([], Err e))
    end.
Proof.
  intros (S & D & H & P & B). cbn [Sniff_Model.decode]. unfold data_of. rewrite S, D, H, P, B, !seqb_refl. cbn [negb].
  destruct (get_seq p); reflexivity.
Qed.
Lemma set_local_ok c l o : List.length l = 16%nat -> o_auth o = generate_auth_hash md5 sha1 sha256 V2 c ->
  exists o', set_local md5 sha1 sha256 l o = (o', Ok tt) /\ o_auth o' = generate_auth_hash md5 sha1 sha256 V2 c /\ o_local o' = Some l /\ o_remote o' = None /\ o_proof o' = None /\ o_seq o' = o_seq o.
Proof.
  intros L A. unfold set_local. rewrite L. cbn [Nat.eqb negb]. unfold update_session. cbn [o_local o_remote].
  eexists. split; [reflexivity|]. repeat split. exact A.
Qed.
Lemma set_remote_ok c l r o : List.length r = 16%nat -> o_auth o = generate_auth_hash md5 sha1 sha256 V2 c -> o_local o = Some l -> o_proof o = None ->
  exists o', set_remote md5 sha1 sha256 r o = (o', Ok tt) /\ o_auth o' = generate_auth_hash md5 sha1 sha256 V2 c /\ o_local o' = Some l /\ o_remote o' = Some r /\ o_seq o' = o_seq o.
Proof.
  intros L A E P. unfold set_remote. rewrite L. cbn [Nat.eqb negb]. unfold update_session. cbn [o_local o_remote o_proof].
  rewrite E, P. eexists. split; [reflexivity|]. repeat split; assumption.
Qed.
Lemma set_seq_seq n o o' r : set_seq md5 sha1 sha256 n o = (o', r) -> o_seq o' = n.
Proof.
  unfold set_seq, update_session. cbn [o_local o_remote o_proof o_auth o_seq].
  destruct (o_local o) as [l|]; [|intros H; injection H as <- _; reflexivity].
  destruct (o_remote o) as [r'|]; [|intros H; injection H as <- _; reflexivity].
  destruct (o_proof o); [|intros H; injection H as <- _; reflexivity].
  destruct (if bytes_eqb _ _ then _ else _) as [[|x y]|]; try (intros H; injection H as <- _; reflexivity).
  destruct (pack_i32 n); intros H; injection H as <- _; reflexivity.
Qed.
(** The first handshake, up to the device's proof *)
Lemma greeting src dev c cur o p q between ps l r h n : told_apart sha1 sha256 c -> cur_ok c cur -> knows c cur o ->
  List.length l = 16%nat -> List.length r = 16%nat -> List.length h = 32%nat ->
  posts src dev "/app/handshake1" l p -> 0 <= n < 2 ^ 31 -> numbered (p_query p) n ->
  Forall (fun x => unrelated x p) between -> responds q p (r ++ h) ->
  exists o', decode src dev None o (p :: between ++ q :: ps) =
    after_call (update o') (fun o => decode src dev None o ps) (fun e => ([], Err e)) /\
    o_auth o' = generate_auth_hash md5 sha1 sha256 V2 c /\ o_local o' = Some l /\ o_remote o' = Some r /\ o_proof o' = Some h /\ o_seq o' = n.
Proof.
  intros T C K Ll Lr Lh P R Q F A. rewrite (request_step src dev o p _ _ _ P), (get_seq_positive p n Q) by lia.
  destruct (set_seq_ok c cur o n T C K) as (o1 & E1 & (A1 & _) & _); [lia|]. pose proof (set_seq_seq _ _ _ _ E1) as S1. rewrite E1. cbn [after_call].
  replace (String.eqb "/app/handshake1" "/app/request") with false by reflexivity. rewrite seqb_refl.
  destruct (set_local_ok c l o1 Ll A1) as (o2 & E2 & A2 & L2 & R2 & P2 & S2). rewrite E2. cbn [after_call].
  rewrite (waiting src dev o2 p between q ps _ F A).
  replace (firstn 16 (r ++ h)) with r by (rewrite firstn_app, Lr, firstn_all2 by lia; cbn; rewrite app_nil_r; reflexivity).
  replace (skipn 16 (r ++ h)) with h by (rewrite skipn_app, Lr, skipn_all2 by lia; reflexivity).
  destruct (set_remote_ok c l r o2 Lr A2 L2 P2) as (o3 & E3 & A3 & L3 & R3 & S3). rewrite E3. cbn [after_call].
  unfold set_proof. rewrite Lh. cbn [Nat.eqb negb]. eexists. split; [reflexivity|]. cbn. repeat split; try assumption. congruence.
Qed.

Lemma decode_records src dev c cur ps ms rest : told_apart sha1 sha256 c ->
  records sha256 enc_block src dev (known_auth sha1 sha256 c) counted (fun n => 0 <= n) cur ps ms -> cur_ok c cur ->
  forall o, knows c cur o -> exists o' cur', knows c cur' o' /\ cur_ok c cur' /\
    decode src dev None o (ps ++ rest) = let (out, e) := decode src dev None o' rest in (read_all loads ms ++ out, e).
Proof.
  intros T. induction 1 as [cur|cur p ps ms F _ IH|cur l r a p q between ps ms Ll Lr Ka P (n & R & Q) F A _ IH
                           |cur d p ps ms P (n & R & Q) _ IH|l r a p n m payload ps ms P N Q E _ IH]; intros C o K.
  - exists o, cur. split; [exact K|]. split; [exact C|]. cbn [app read_all flat_map]. destruct (decode src dev None o rest). reflexivity.
  - cbn [app]. rewrite (foreign_step src dev o p _ F). apply IH; assumption.
  - cbn [app]. rewrite <- app_assoc. cbn [app].
    destruct (greeting src dev c cur o p q between (ps ++ rest) l r (device_proof sha256 l r a) n T C K Ll Lr (sha_length _) P R Q F A)
      as (o1 & D & A1 & L1 & R1 & P1 & S1). rewrite D.
    destruct (pack_range n) as (b & B); [lia|]. rewrite (update_known c l r a o1 n b T Ka A1 L1 R1 P1 S1 B). cbn [after_call].
    apply IH; [exact Ka|]. repeat split; assumption.
  - cbn [app]. rewrite (request_step src dev o p _ _ _ P), (get_seq_positive p n Q) by lia.
    destruct (set_seq_ok c cur o n T C K) as (o1 & E1 & K1 & _); [lia|]. rewrite E1. cbn [after_call].
    replace (String.eqb "/app/handshake2" "/app/request") with false by reflexivity.
    replace (String.eqb "/app/handshake2" "/app/handshake1") with false by reflexivity. apply IH; assumption.
  - cbn [app]. rewrite (request_step src dev o p _ _ _ P), (get_seq_positive p n Q) by lia.
    pose proof (encrypts_range _ _ _ _ _ _ E) as R. destruct (pack_range n R) as (b & B).
    destruct (set_seq_ok c (Some (l, r, a)) o n T C K R) as (o1 & E1 & K1 & S1). rewrite E1. cbn [after_call]. rewrite seqb_refl.
    rewrite (decrypts l r a n m payload o1 b E B (S1 b B)).
    destruct (IH C o1 K1) as (o2 & cur2 & K2 & C2 & D). exists o2, cur2. split; [exact K2|]. split; [exact C2|].
    rewrite D. unfold read_all. cbn [flat_map]. destruct (decode src dev None o2 rest) as [out e]. destruct (loads m); reflexivity.
Qed.
Lemma knows_new c : knows c None (new_operator md5 sha1 sha256 c).
Proof. split; reflexivity. Qed.

(** Without numbers in the queries of handshakes *)
Lemma decode_nothing src dev (auths : bytes -> Prop) (numbers : Z -> Prop) cur ps ms :
  records sha256 enc_block src dev auths (fun q => q = None) numbers cur ps ms -> cur = None ->
  forall o, fst (decode src dev None o ps) = [] /\ (ms <> [] -> snd (decode src dev None o ps) = Err PyOther).
Proof.
  induction 1 as [cur|cur p ps ms F _ IH|cur l r a p q between ps ms Ll Lr Ka P Q F A _ IH
                 |cur d p ps ms P Q _ IH|l r a p n m payload ps ms P N Q E _ IH]; intros C o.
  - split; [reflexivity|congruence].
  - rewrite (foreign_step src dev o p _ F). apply IH, C.
  - rewrite (request_step src dev o p _ _ _ P). unfold get_seq. rewrite Q. split; reflexivity.
  - rewrite (request_step src dev o p _ _ _ P). unfold get_seq. rewrite Q. split; reflexivity.
  - discriminate.
Qed.
End Klap.

(** * Legacy traffic *)
Lemma other_frame text loads f : text [] = Some "" -> other f -> payload text loads f = None.
Proof.
  intros T [H|[H|[(H1 & H2)|H]]]; unfold payload.
  - rewrite H. reflexivity.
  - destruct (negb (f_ip f)); [reflexivity|]. destruct (Z.eqb_spec (f_proto f) 6); [congruence|reflexivity].
  - destruct (negb (f_ip f)); [reflexivity|]. destruct (negb _); [reflexivity|].
    destruct (Z.eqb_spec (f_sport f) 9999); [congruence|]. destruct (Z.eqb_spec (f_dport f) 9999); [congruence|reflexivity].
  - rewrite skipn_all2 by exact H. change (Xor_Model.decrypt []) with (@nil ascii). rewrite T.
    destruct (negb _); [reflexivity|]. destruct (negb _); [reflexivity|]. destruct (_ && _); reflexivity.
Qed.
Lemma segment_frame text loads f m : segment f m ->
  payload text loads f = match text m with None => None | Some "" => None | Some s => match loads s with Some j => if truthy j then Some j else None | None => None end end.
Proof.
  intros (I & P & S & E). unfold payload. rewrite I, P. cbn [negb Z.eqb Pos.eqb].
  replace (negb (f_sport f =? 9999) && negb (f_dport f =? 9999)) with false.
  2:{ destruct S as [->| ->]; cbn; [reflexivity|]. now rewrite andb_false_r. }
  unfold Xor_Model.encrypt in E. destruct (Xor_Model.pack_u32 _) as [pre|] eqn:Ep; cbn [bind] in E; [|discriminate].
  injection E as E. rewrite <- E. destruct (Xor_Proofs.unpack_pack _ _ Ep) as (_ & L & _).
  rewrite skipn_app, L, skipn_all2 by lia. cbn [Nat.sub skipn app].
  unfold Xor_Model.decrypt. rewrite Xor_Proofs.xor_round_trip. reflexivity.
Qed.
Lemma payloads_traffic text loads fs ms js : text [] = Some "" -> traffic fs ms -> Forall2 (says text loads) ms js -> payloads text loads fs = js.
Proof.
  intros T H. revert js. induction H as [|f fs ms O _ IH|f m fs ms S _ IH]; intros js F.
  - inversion F. reflexivity.
  - unfold payloads. cbn [flat_map]. rewrite (other_frame text loads f T O). exact (IH js F).
  - inversion F as [|? j ? js' (s & Es & N & El & Tr) F2]; subst. unfold payloads. cbn [flat_map].
    rewrite (segment_frame text loads f m S), Es. destruct s as [|a s]; [congruence|]. rewrite El, Tr. cbn [app]. f_equal. exact (IH js' F2).
Qed.

(** Counters *)
Definition counts (l : list string) (d : dict Z) : dict Z := fold_left (fun d k => count k d) l d.
Lemma counts_app l1 l2 d : counts (l1 ++ l2) d = counts l2 (counts l1 d).
Proof. apply fold_left_app. Qed.
Lemma tally_count l d k : tally l d -> tally (l ++ [k]) (count k d).
Proof.
  intros T x. unfold count. rewrite count_occ_app. cbn [count_occ]. rewrite dget_dset, (T k).
  destruct (String.eqb_spec x k) as [->|N].
  - destruct (string_dec k k); [|congruence]. destruct (count_occ string_dec l k) as [|n]; [reflexivity|].
    replace (S n + 1)%nat with (S (S n)) by lia. f_equal. lia.
  - rewrite (T x). destruct (string_dec k x); [congruence|]. rewrite Nat.add_0_r. reflexivity.
Qed.
Lemma tally_counts l : forall l0 d, tally l0 d -> tally (l0 ++ l) (counts l d).
Proof.
  induction l as [|k l IH]; intros l0 d T; cbn [counts fold_left]; [rewrite app_nil_r; exact T|].
  replace (l0 ++ k :: l) with ((l0 ++ [k]) ++ l) by (rewrite <- app_assoc; reflexivity). apply IH, tally_count, T.
Qed.
Lemma tally_all l : tally l (counts l []).
Proof. apply (tally_counts l [] []). intros k. reflexivity. Qed.

Definition fails (l : list json) : Z := Z.of_nat (List.length (filter failed l)).
Lemma fails_app a b : fails (a ++ b) = fails a + fails b.
Proof. unfold fails. rewrite filter_app, app_length. lia. Qed.
Definition grow (ms : list string) (cs : list (string * string)) (rs : list json) (s : stats) : stats :=
  mkStats (counts ms (n_modules s)) (counts (map snd cs) (n_commands s)) (counts (map full_name cs) (n_full s)) (n_errors s + fails rs).
Lemma grow_grow ms1 cs1 rs1 ms2 cs2 rs2 s : grow ms2 cs2 rs2 (grow ms1 cs1 rs1 s) = grow (ms1 ++ ms2) (cs1 ++ cs2) (rs1 ++ rs2) s.
Proof. unfold grow. cbn [n_modules n_commands n_full n_errors]. rewrite !map_app, !counts_app, fails_app. f_equal. lia. Qed.
Lemma grow_nil s : grow [] [] [] s = s.
Proof. unfold grow. cbn. destruct s. f_equal. cbn. lia. Qed.

(** Either all errors are named and everything is read, or it ends with a missing key. *)
Definition outcome_of (named : Prop) (x : stats * list line * res unit) (s : stats) (out : list line) : Prop :=
  (named /\ x = (s, out, Ok tt)) \/ (~ named /\ exists s' out', x = (s', out', Err PyKeyError)).
Definition said_line (context : json) (m : string) (cr : string * json) : list line :=
  match snd cr with JNull => [] | r => [LCommand context m (fst cr) r (outcome r)] end.
Lemma zero_code c : (match c with JInt _ | JBool _ | JFloat _ => negb (truthy c) | _ => false end) = zero c.
Proof.
  destruct c as [|b|z|f|t|l|d]; cbn [truthy zero]; try reflexivity; rewrite ?negb_involutive; try reflexivity.
  now rewrite negb_andb, !negb_involutive.
Qed.
Lemma read_command_ok context m k r s : (r = JNull \/ exists o, r = JObj o) ->
  outcome_of (named_errors r) (read_command context m k r s) (grow [] [(m, k)] [r] s) (said_line context m (k, r)).
Proof.
  intros [->|(o & ->)].
  - left. split; [intros o E; discriminate|]. unfold read_command, grow, fails. cbn. do 2 f_equal. f_equal. lia.
  - unfold read_command, said_line. cbn [snd fst jcontains].
    assert (G : forall b, failed (JObj o) = b -> fails [JObj o] = if b then 1 else 0) by (intros b E; unfold fails; cbn [filter]; rewrite E; destruct b; reflexivity).
    unfold failed, outcome in G. unfold outcome_of, named_errors, outcome.
    destruct (dget "err_code" o) as [c|] eqn:Ec.
    + assert (D : dmem "err_code" o = true) by (unfold dmem; rewrite Ec; reflexivity). rewrite D. cbn [jitem].
      unfold dindex. rewrite Ec, zero_code. cbn [option_map] in *. destruct (zero c).
      * left. split; [intros o' E E2; discriminate|]. unfold grow. cbn [counts fold_left map snd]. rewrite (G false eq_refl). do 2 f_equal. unfold full_name. cbn [fst snd]. f_equal. lia.
      * destruct (dget "err_msg" o) as [t|] eqn:Em.
        -- left. split; [intros o' E _; injection E as <-; congruence|]. unfold grow. cbn [counts fold_left map snd n_modules n_commands n_full n_errors]. rewrite (G true eq_refl). reflexivity.
        -- right. split; [|eauto]. intros H. exact (H o eq_refl eq_refl Em).
    + assert (D : dmem "err_code" o = false) by (unfold dmem; rewrite Ec; reflexivity). rewrite D. cbn [option_map] in *.
      left. split; [intros o' E E2; discriminate|]. unfold grow. cbn [counts fold_left map snd]. rewrite (G false eq_refl). do 2 f_equal. unfold full_name. cbn [fst snd]. f_equal. lia.
Qed.
Lemma read_commands_ok context m l : Forall (fun cr : string * json => snd cr = JNull \/ exists o, snd cr = JObj o) l -> forall s,
  outcome_of (Forall (fun cr : string * json => named_errors (snd cr)) l) (read_commands context m l s)
    (grow [] (map (fun k => (m, k)) (dkeys l)) (map snd l) s) (flat_map (said_line context m) l).
Proof.
  induction 1 as [|[k r] l R _ IH]; intros s.
  - left. split; [constructor|]. cbn [dkeys map]. rewrite grow_nil. reflexivity.
  - cbn [snd] in R. cbn [read_commands flat_map dkeys map fst snd].
    destruct (read_command_ok context m k r s R) as [(N & E)|(N & s' & out' & E)]; rewrite E.
    + destruct (IH (grow [] [(m, k)] [r] s)) as [(N2 & E2)|(N2 & s2 & out2 & E2)]; rewrite E2.
      * left. split; [constructor; assumption|]. rewrite grow_grow. reflexivity.
      * right. split; [intros F; inversion F; contradiction|eauto].
    + right. split; [intros F; inversion F; contradiction|eauto].
Qed.
Definition module_lines (context : json) (mc : string * json) : list line :=
  match snd mc with
  | JObj l => if dmem "err_code" l then [LModule (snd mc)] else flat_map (said_line context (fst mc)) l
  | _ => []
  end.
Lemma read_module_ok context m c s :
  (exists l, c = JObj l /\ Forall (fun cr : string * json => snd cr = JNull \/ exists o, snd cr = JObj o) (commands_in c)) ->
  outcome_of (Forall (fun cr : string * json => named_errors (snd cr)) (commands_in c)) (read_module context m c s)
    (grow [m] (map (fun k => (m, k)) (dkeys (commands_in c))) (map snd (commands_in c)) s) (module_lines context (m, c)).
Proof.
  intros (l & -> & F). unfold read_module, module_lines, commands_in in *. cbn [jcontains snd fst].
  destruct (dmem "err_code" l).
  - left. split; [constructor|]. unfold grow, fails. cbn. do 2 f_equal. f_equal. lia.
  - set (s1 := mkStats _ _ _ _). assert (E1 : s1 = grow [m] [] [] s) by (unfold s1, grow, fails; cbn; f_equal; lia).
    destruct (read_commands_ok context m l F s1) as [(N & E)|(N & E)].
    + left. split; [exact N|]. rewrite E, E1, grow_grow. reflexivity.
    + right. split; [exact N|exact E].
Qed.
Definition mod_commands (d : dict json) : list (string * string) := flat_map (fun mc : string * json => map (fun c => (fst mc, c)) (dkeys (commands_in (snd mc)))) d.
Definition mod_responses (d : dict json) : list json := flat_map (fun mc : string * json => map snd (commands_in (snd mc))) d.
Lemma read_modules_ok context d :
  Forall (fun mc : string * json => exists l, snd mc = JObj l /\ Forall (fun cr : string * json => snd cr = JNull \/ exists o, snd cr = JObj o) (commands_in (snd mc))) d -> forall s,
  outcome_of (Forall (fun mc : string * json => Forall (fun cr : string * json => named_errors (snd cr)) (commands_in (snd mc))) d)
    (read_modules context d s) (grow (dkeys d) (mod_commands d) (mod_responses d) s) (flat_map (module_lines context) d).
Proof.
  induction 1 as [|[m c] d R _ IH]; intros s.
  - left. split; [constructor|]. cbn. rewrite grow_nil. reflexivity.
  - cbn [snd] in R. cbn [read_modules].
    destruct (read_module_ok context m c s R) as [(N & E)|(N & s' & out' & E)]; rewrite E.
    + match goal with |- context [read_modules context d ?t] => destruct (IH t) as [(N2 & E2)|(N2 & s2 & out2 & E2)] end; rewrite E2.
      * left. split; [constructor; assumption|]. rewrite grow_grow. reflexivity.
      * right. split; [intros F; inversion F; contradiction|eauto].
    + right. split; [intros F; inversion F; contradiction|eauto].
Qed.
Lemma ddel_filter {A} k (d : dict A) : ddel k d = filter (fun kv => negb (String.eqb (fst kv) k)) d.
Proof.
  induction d as [|[x v] d IH]; [reflexivity|]. cbn [ddel filter fst]. rewrite (String.eqb_sym x k). destruct (String.eqb k x); cbn [negb]; congruence.
Qed.
Lemma read_payloads_ok js : Forall well_formed js -> forall s,
  outcome_of (Forall errors_named js) (read_payloads js s) (grow (all_modules js) (all_commands js) (all_responses js) s) (flat_map lines_for js).
Proof.
  induction 1 as [|j js ((d & ->) & W) _ IH]; intros s.
  - left. split; [constructor|]. cbn. rewrite grow_nil. reflexivity.
  - cbn [read_payloads]. rewrite ddel_filter. change (filter (fun kv : string * json => negb (String.eqb (fst kv) "context")) d) with (modules_in (JObj d)).
    match goal with |- context [read_modules ?x _ _] => change x with (context_in (JObj d)) end.
    destruct (read_modules_ok (context_in (JObj d)) _ W s) as [(N & E)|(N & s' & out' & E)]; rewrite E.
    + match goal with |- context [read_payloads js ?t] => destruct (IH t) as [(N2 & E2)|(N2 & s2 & out2 & E2)] end; rewrite E2.
      * left. split; [constructor; assumption|]. rewrite grow_grow. reflexivity.
      * right. split; [intros F; inversion F; contradiction|eauto].
    + right. split; [intros F; inversion F; contradiction|eauto].
Qed.

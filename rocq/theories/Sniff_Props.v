(** Properties C158 and C159: the decoders of recorded traffic show what was said. *)
From Verif Require Import Base Base_Lemmas Py Crypto_Model Crypto_Proofs Klap_Model Klap_Spec Klap_Proofs Sniff_Model Sniff_Spec Sniff_Proofs.
From Verif Require Xor_Model KlapPeer_Props.
Open Scope string_scope.
Open Scope list_scope.
Open Scope Z_scope.

(** Missing from C158: captures as clients make them, in which handshakes carry no number (see the next theorem), and
    negative numbers (see the third).  Where every query has a number that is not negative, all that was said in every session,
    with the user's or built-in credentials, is printed in order, once, and written; and nothing else is. *)
Theorem decoder_decodes_partial : forall md5 sha1 sha256 enc_block dec_block J (loads : bytes -> option J) src dev c ps ms,
  crypto_ok sha256 enc_block dec_block -> told_apart sha1 sha256 c ->
  records sha256 enc_block src dev (known_auth sha1 sha256 c) counted (fun n => 0 <= n) None ps ms ->
  decode_file md5 sha1 sha256 dec_block J loads c src dev ps = (read_all loads ms, Ok (read_all loads ms)).
Proof.
  intros md5 sha1 sha256 enc_block dec_block J loads src dev c ps ms O T R.
  destruct (decode_records md5 sha1 sha256 enc_block dec_block J loads O src dev c None ps ms [] T R I _ (knows_new md5 sha1 sha256 c)) as (o' & cur' & _ & _ & D).
  rewrite app_nil_r in D. unfold decode_file. rewrite D. cbn. rewrite app_nil_r. reflexivity.
Qed.
Print Assumptions decoder_decodes_partial.

(** From no capture in which handshakes are as the client sends them, without a query, is anything recovered: the tool
    fails at the first message of the first handshake, and writes nothing. *)
Theorem decoder_recovers_nothing_refuted : forall md5 sha1 sha256 enc_block dec_block J (loads : bytes -> option J) src dev c auths numbers ps ms,
  records sha256 enc_block src dev auths (fun q => q = None) numbers None ps ms -> ms <> [] ->
  decode_file md5 sha1 sha256 dec_block J loads c src dev ps = ([], Err PyOther).
Proof.
  intros md5 sha1 sha256 enc_block dec_block J loads src dev c auths numbers ps ms R N.
  destruct (decode_nothing md5 sha1 sha256 enc_block dec_block J loads src dev auths numbers None ps ms R eq_refl (new_operator md5 sha1 sha256 c)) as (A & B).
  unfold decode_file. destruct (decode md5 sha1 sha256 dec_block J loads src dev None _ ps) as [out e]. cbn [fst snd] in *. rewrite A, (B N). reflexivity.
Qed.
Print Assumptions decoder_recovers_nothing_refuted.

(** A request with a negative number, as half of all sessions begin with, ends the tool: what comes after is not
    shown, and nothing is written. *)
Theorem decoder_negative_refuted : forall md5 sha1 sha256 enc_block dec_block J (loads : bytes -> option J) src dev c ps ms p n data rest,
  crypto_ok sha256 enc_block dec_block -> told_apart sha1 sha256 c ->
  records sha256 enc_block src dev (known_auth sha1 sha256 c) counted (fun n => 0 <= n) None ps ms ->
  posts src dev "/app/request" data p -> numbered (p_query p) n -> n < 0 ->
  decode_file md5 sha1 sha256 dec_block J loads c src dev (ps ++ p :: rest) = (read_all loads ms, Err PyOther).
Proof.
  intros md5 sha1 sha256 enc_block dec_block J loads src dev c ps ms p n data rest O T R P Q N.
  destruct (decode_records md5 sha1 sha256 enc_block dec_block J loads O src dev c None ps ms (p :: rest) T R I _ (knows_new md5 sha1 sha256 c)) as (o' & cur' & _ & _ & D).
  unfold decode_file. rewrite D, (request_step md5 sha1 sha256 dec_block J loads src dev o' p rest _ _ P), (get_seq_negative p n Q N). cbn. rewrite app_nil_r. reflexivity.
Qed.
Print Assumptions decoder_negative_refuted.

(** With other credentials than the device's: it is said that they do not match, nothing of the session is shown. *)
Theorem decoder_other_credentials_partial : forall md5 sha1 sha256 enc_block dec_block J (loads : bytes -> option J) src dev c ps ms p q between l r h rest,
  crypto_ok sha256 enc_block dec_block -> told_apart sha1 sha256 c ->
  records sha256 enc_block src dev (known_auth sha1 sha256 c) counted (fun n => 0 <= n) None ps ms ->
  List.length l = 16%nat -> List.length r = 16%nat -> List.length h = 32%nat ->
  posts src dev "/app/handshake1" l p -> counted (p_query p) -> Forall (fun x => unrelated x p) between -> responds q p (r ++ h) ->
  (forall a, known_auth sha1 sha256 c a -> h <> device_proof sha256 l r a) ->
  decode_file md5 sha1 sha256 dec_block J loads c src dev (ps ++ p :: between ++ q :: rest) = (read_all loads ms, Err PyValueError).
Proof.
  intros md5 sha1 sha256 enc_block dec_block J loads src dev c ps ms p q between l r h rest O T R Ll Lr Lh P (n & N & Q) F A X.
  destruct (decode_records md5 sha1 sha256 enc_block dec_block J loads O src dev c None ps ms (p :: between ++ q :: rest) T R I _ (knows_new md5 sha1 sha256 c)) as (o1 & cur1 & K1 & C1 & D).
  destruct (greeting md5 sha1 sha256 enc_block dec_block J loads O src dev c cur1 o1 p q between rest l r h n) as (o2 & D2 & A2 & L2 & R2 & P2 & _); try assumption.
  unfold decode_file. rewrite D, D2. unfold update_session. rewrite L2, R2, P2, A2.
  assert (E : chosen md5 sha1 sha256 c l r h = None).
  { destruct (chosen md5 sha1 sha256 c l r h) as [a|] eqn:Ec; [|reflexivity].
    destruct (chosen_known md5 sha1 sha256 _ _ _ _ _ Ec) as (Ka & Ea). exfalso. exact (X a Ka Ea). }
  unfold chosen in E. rewrite E. cbn. rewrite app_nil_r. reflexivity.
Qed.
Print Assumptions decoder_other_credentials_partial.

(** ** A capture: two handshakes, foreign packets, and requests in both sessions *)
Import KlapPeer_Props.
Definition x_l : bytes := repeat "l"%char 16.
Definition x_r : bytes := repeat "r"%char 16.
Definition x_default : bytes := hash_of toy2_md5 toy2_sha (get_default_credentials (snd (hd ("", ("", "")) default_credentials_b64))).
Definition x_payload (auth : bytes) (n : Z) (m : bytes) : bytes :=
  let s := new_session toy2_sha x_l x_r auth in
  match klap_encrypt toy2_sha (fun _ b => b) (mkSess (s_key s) (s_iv s) (n - 1) (s_sig s) (s_cipher s)) m with (_, Ok (b, _)) => b | _ => [] end.
Definition x_post (path : string) (q : option string) (data : bytes) : packet := mkPacket "me" "it" true (Some path) (Some path) q (Some path) None (Some data).
Definition x_answer (data : bytes) : packet := mkPacket "it" "me" true None (Some "/app/handshake1") None None (Some "/app/handshake1") (Some data).
Definition x_noise : packet := mkPacket "it" "me" false None None None None None None.
Definition x_capture (q : option string) : list packet :=
  [x_noise; x_post "/app/handshake1" q x_l; x_noise; x_answer (x_r ++ device_proof toy2_sha x_l x_r my_auth);
   x_post "/app/handshake2" q []; x_post "/app/request" (Some "seq=51") (x_payload my_auth 51 (lit "one"));
   x_post "/app/request" (Some "seq=52") (x_payload my_auth 52 (lit "two"));
   x_post "/app/handshake1" q x_l; x_answer (x_r ++ device_proof toy2_sha x_l x_r x_default);
   x_post "/app/request" (Some "seq=7") (x_payload x_default 7 (lit "three"))].
Definition x_said : list bytes := [lit "one"; lit "two"; lit "three"].
Lemma x_apart : told_apart toy2_md5 toy2_sha my.
Proof.
  assert (K : forall l r a, known_auth toy2_md5 toy2_sha my a -> device_proof toy2_sha l r a = rev a).
  { intros l r a (x & _ & ->). destruct toy2_ok as (L & _).
    unfold device_proof, hash_of. match goal with |- context [toy2_sha ?m ] => match m with toy2_md5 _ ++ _ => set (h := toy2_sha m) in *; assert (Lh : List.length h = 32%nat) by apply L end end.
    unfold toy2_sha. rewrite !rev_app_distr, <- !app_assoc, firstn_app, rev_length, Lh, Nat.sub_diag, firstn_O.
    rewrite app_nil_r, firstn_all2; [reflexivity|]. rewrite rev_length. lia. }
  intros l r a b Ka Kb E. rewrite (K l r a Ka), (K l r b Kb) in E. rewrite <- (rev_involutive a), E. apply rev_involutive.
Qed.
Lemma x_records (greets : option string -> Prop) q : greets q ->
  records toy2_sha (fun _ b => b) "me" "it" (known_auth toy2_md5 toy2_sha my) greets (fun n => 0 <= n) None (x_capture q) x_said.
Proof.
  intros G. unfold x_capture, x_said.
  assert (N : forall ds n, Forall is_digit ds -> ds <> [] -> 0 <= n -> value ds = n -> numbered (Some ("seq=" ++ text_of ds)%string) n).
  { intros ds n F E P V. exists ds. split; [exact E|]. split; [exact F|]. left. auto. }
  assert (U : forall p, unrelated x_noise p) by (intros p; left; reflexivity).
  apply rec_foreign; [left; discriminate|].
  change (x_post "/app/handshake1" q x_l :: x_noise :: x_answer (x_r ++ device_proof toy2_sha x_l x_r my_auth) :: ?t) with
    (x_post "/app/handshake1" q x_l :: [x_noise] ++ x_answer (x_r ++ device_proof toy2_sha x_l x_r my_auth) :: t).
  apply rec_handshake1 with (l := x_l) (r := x_r) (auth := my_auth); try reflexivity.
  { exists my. split; [left; reflexivity|reflexivity]. }
  { repeat split. }
  { exact G. }
  { constructor; [apply U|constructor]. }
  { split; [reflexivity|]. split; [exists "/app/handshake1"; split; reflexivity|reflexivity]. }
  apply rec_handshake2 with (data := []); [repeat split|exact G|].
  apply rec_request with (n := 51) (payload := x_payload my_auth 51 (lit "one")); [repeat split|cbv beta; lia| | |].
  { apply (N [5; 1]); [repeat constructor; unfold is_digit; lia|discriminate|lia|reflexivity]. }
  { eexists. vm_compute. reflexivity. }
  apply rec_request with (n := 52) (payload := x_payload my_auth 52 (lit "two")); [repeat split|cbv beta; lia| | |].
  { apply (N [5; 2]); [repeat constructor; unfold is_digit; lia|discriminate|lia|reflexivity]. }
  { eexists. vm_compute. reflexivity. }
  change (x_post "/app/handshake1" q x_l :: x_answer (x_r ++ device_proof toy2_sha x_l x_r x_default) :: ?t) with
    (x_post "/app/handshake1" q x_l :: [] ++ x_answer (x_r ++ device_proof toy2_sha x_l x_r x_default) :: t).
  apply rec_handshake1 with (l := x_l) (r := x_r) (auth := x_default); try reflexivity.
  { eexists. split; [|reflexivity]. right. eexists _, _. split; [left; reflexivity|reflexivity]. }
  { repeat split. }
  { exact G. }
  { constructor. }
  { split; [reflexivity|]. split; [exists "/app/handshake1"; split; reflexivity|reflexivity]. }
  apply rec_request with (n := 7) (payload := x_payload x_default 7 (lit "three")); [repeat split|cbv beta; lia| | |].
  { apply (N [7]); [repeat constructor; unfold is_digit; lia|discriminate|lia|reflexivity]. }
  { eexists. vm_compute. reflexivity. }
  apply rec_end.
Qed.
Notation x_decode := (decode_file toy2_md5 toy2_md5 toy2_sha (fun _ b => b) bytes Some my "me" "it").
Example decoder_decodes_an_example :
  counted (Some "seq=1") /\ records toy2_sha (fun _ b => b) "me" "it" (known_auth toy2_md5 toy2_sha my) counted (fun n => 0 <= n) None (x_capture (Some "seq=1")) x_said /\
  x_decode (x_capture (Some "seq=1")) = (x_said, Ok x_said).
Proof.
  assert (C : counted (Some "seq=1")).
  { exists 1. split; [lia|]. exists [1]. split; [discriminate|]. split; [repeat constructor; unfold is_digit; lia|]. left. repeat split; lia. }
  split; [exact C|]. split; [exact (x_records counted _ C)|]. vm_compute. reflexivity.
Qed.
Example decoder_recovers_nothing_example :
  records toy2_sha (fun _ b => b) "me" "it" (known_auth toy2_md5 toy2_sha my) (fun q => q = None) (fun n => 0 <= n) None (x_capture None) x_said /\
  x_decode (x_capture None) = ([], Err PyOther).
Proof. split; [exact (x_records (fun q => q = None) None eq_refl)|vm_compute; reflexivity]. Qed.
Example decoder_negative_example : numbered (p_query (x_post "/app/request" (Some "seq=-51") [])) (-51) /\
  x_decode (x_capture (Some "seq=1") ++ [x_post "/app/request" (Some "seq=-51") []]) = (x_said, Err PyOther).
Proof.
  split; [|vm_compute; reflexivity]. exists [5; 1]. split; [discriminate|]. split; [repeat constructor; unfold is_digit; lia|]. right. repeat split; lia.
Qed.
Example decoder_other_credentials_example : x_decode [x_post "/app/handshake1" (Some "seq=1") x_l; x_answer (x_r ++ repeat "?"%char 32)] = ([], Err PyValueError).
Proof. vm_compute. reflexivity. Qed.

(** * Legacy traffic *)
(** Missing from C159: datagrams (see the next theorem), errors without a message (see the third), and messages that are split
    into segments.  Otherwise: every message of the capture is shown, command by command in order, with its context and
    whether it succeeded; and the counters say how often each module and command was used, and how many errors there were. *)
Theorem legacy_decoder_shows_partial : forall text loads fs ms js,
  text [] = Some "" -> traffic fs ms -> Forall2 (says text loads) ms js -> Forall well_formed js -> Forall errors_named js ->
  exists s, parse_pcap text loads fs = (s, flat_map lines_for js, Ok tt) /\
    tally (all_modules js) (n_modules s) /\ tally (map snd (all_commands js)) (n_commands s) /\
    tally (map full_name (all_commands js)) (n_full s) /\ n_errors s = Z.of_nat (List.length (filter failed (all_responses js))).
Proof.
  intros text loads fs ms js T R S W N. unfold parse_pcap. rewrite (payloads_traffic text loads fs ms js T R S).
  destruct (read_payloads_ok js W no_stats) as [(_ & E)|(X & _)]; [|contradiction].
  rewrite E. eexists. split; [reflexivity|]. cbn [grow n_modules n_commands n_full n_errors no_stats].
  split; [apply tally_all|]. split; [apply tally_all|]. split; [apply tally_all|]. unfold fails. lia.
Qed.
Print Assumptions legacy_decoder_shows_partial.

(** Datagrams, as discovery uses them, are never shown. *)
Theorem legacy_decoder_datagrams_refuted : forall text loads fs, Forall (fun f => f_proto f = 17) fs -> parse_pcap text loads fs = (no_stats, [], Ok tt).
Proof.
  intros text loads fs F. unfold parse_pcap. replace (payloads text loads fs) with (@nil json); [reflexivity|].
  induction F as [|f fs H _ IH]; [reflexivity|]. unfold payloads. cbn [flat_map]. unfold payload at 1. rewrite H.
  destruct (negb (f_ip f)); exact IH.
Qed.
Print Assumptions legacy_decoder_datagrams_refuted.

(** An error without a message ends the tool, without counters and the messages after it. *)
Theorem legacy_decoder_stopped_refuted : forall text loads fs ms js,
  text [] = Some "" -> traffic fs ms -> Forall2 (says text loads) ms js -> Forall well_formed js -> ~ Forall errors_named js ->
  exists s out, parse_pcap text loads fs = (s, out, Err PyKeyError).
Proof.
  intros text loads fs ms js T R S W N. unfold parse_pcap. rewrite (payloads_traffic text loads fs ms js T R S).
  destruct (read_payloads_ok js W no_stats) as [(X & _)|(_ & E)]; [contradiction|]. exact E.
Qed.
Print Assumptions legacy_decoder_stopped_refuted.

(** ** A capture of a legacy device: a query, an acknowledgement and an answer with an error *)
Definition y_query : json := JObj [("context", JObj [("child_ids", JArr [JStr "x"])]); ("system", JObj [("get_sysinfo", JObj [])]); ("emeter", JObj [("get_realtime", JObj []); ("get_sysinfo", JNull)])].
Definition y_answer (named : bool) : json := JObj [("system", JObj [("get_sysinfo", JObj [("alias", JStr "a"); ("err_code", JInt 0)])]);
  ("cnCloud", JObj [("err_code", JInt (-1)); ("err_msg", JStr "module not support")]);
  ("emeter", JObj [("get_realtime", JObj (("err_code", JInt (-2)) :: if named then [("err_msg", JStr "member not support")] else []))])].
Definition y_text (b : bytes) : option string := Some (string_of_list_ascii b).
Definition y_loads (named : bool) (s : string) : option json := if String.eqb s "Q" then Some y_query else if String.eqb s "A" then Some (y_answer named) else None.
Definition y_frame (m : bytes) : bytes := match Xor_Model.encrypt m with Ok b => b | Err _ => [] end.
Definition y_frames : list frame :=
  [mkFrame true 6 50000 9999 (y_frame (lit "Q")); mkFrame true 6 9999 50000 []; mkFrame false 0 0 0 (lit "arp"); mkFrame true 6 9999 50000 (y_frame (lit "A"))].
Lemma y_traffic : traffic y_frames [lit "Q"; lit "A"].
Proof.
  unfold y_frames. apply tr_said; [repeat split; right; reflexivity|].
  apply tr_other; [right; right; right; cbn; lia|]. apply tr_other; [left; reflexivity|].
  apply tr_said; [repeat split; left; reflexivity|]. apply tr_end.
Qed.
Lemma y_says named : Forall2 (says y_text (y_loads named)) [lit "Q"; lit "A"] [y_query; y_answer named].
Proof. constructor; [|constructor; [|constructor]]; eexists; (split; [reflexivity|]; split; [discriminate|]; split; reflexivity). Qed.
Lemma y_well_formed named : Forall well_formed [y_query; y_answer named].
Proof.
  constructor; [|constructor; [|constructor]]; (split; [eexists; reflexivity|]); cbn; repeat (constructor; [eexists; split; [reflexivity|]; cbn; repeat (constructor; [try (left; reflexivity); right; eexists; reflexivity|]); constructor|]); constructor.
Qed.
Example legacy_decoder_shows_an_example : traffic y_frames [lit "Q"; lit "A"] /\ Forall well_formed [y_query; y_answer true] /\ Forall errors_named [y_query; y_answer true] /\
  parse_pcap y_text (y_loads true) y_frames =
    (mkStats [("system", 2); ("emeter", 2); ("cnCloud", 1)] [("get_sysinfo", 3); ("get_realtime", 2)]
       [("system.get_sysinfo", 2); ("emeter.get_realtime", 2); ("emeter.get_sysinfo", 1)] 1,
     flat_map lines_for [y_query; y_answer true], Ok tt) /\ List.length (flat_map lines_for [y_query; y_answer true]) = 5%nat.
Proof.
  split; [exact y_traffic|]. split; [exact (y_well_formed true)|]. split.
  - repeat constructor; cbn; try (intros o E; injection E as <-; cbn; congruence); intros o E; discriminate.
  - split; vm_compute; reflexivity.
Qed.
Example legacy_decoder_stopped_example : Forall well_formed [y_query; y_answer false] /\ ~ Forall errors_named [y_query; y_answer false] /\
  snd (parse_pcap y_text (y_loads false) (y_frames ++ y_frames)) = Err PyKeyError.
Proof.
  split; [exact (y_well_formed false)|]. split; [|vm_compute; reflexivity].
  intros F. inversion_clear F as [|? ? _ F2]. inversion_clear F2 as [|? ? F3 _]. unfold errors_named in F3. cbn in F3.
  inversion_clear F3 as [|? ? _ F4]. inversion_clear F4 as [|? ? _ F5]. inversion_clear F5 as [|? ? F6 _]. cbn in F6.
  inversion_clear F6 as [|? ? N _]. exact (N _ eq_refl eq_refl eq_refl).
Qed.
Example legacy_decoder_datagrams_example : parse_pcap y_text (y_loads true) [mkFrame true 17 50000 9999 (y_frame (lit "Q"))] = (no_stats, [], Ok tt).
Proof. vm_compute. reflexivity. Qed.

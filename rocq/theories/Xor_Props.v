(** Properties C01-C04: legacy codec and transport. *)
From Verif Require Import Base Xor_Model Xor_Spec Xor_Proofs.
From Coq Require Import Lia.

(** C01 *)
Theorem xor_frame_round_trip : forall r, (N.of_nat (length r) < 2 ^ 32)%N ->
  exists prefix payload,
    encrypt r = Ok (prefix ++ payload) /\
    length prefix = 4 /\ be_value prefix = N.of_nat (length r) /\
    length payload = length r /\ wire_format r payload /\ decrypt payload = r.
Proof. exact xor_frame_lemma. Qed.
Print Assumptions xor_frame_round_trip.
Example xor_frame_round_trip_ex :
  let r := list_ascii_of_string "{""system"":{""get_sysinfo"":{}}}" in
  (N.of_nat (length r) < 2 ^ 32)%N /\
  match encrypt r with
  | Ok f => map bval (firstn 8 f) = [0; 0; 0; 29; 208; 242; 129; 248]%N /\ decrypt (skipn 4 f) = r
  | Err _ => False
  end.
Proof. split; [vm_compute; reflexivity|]. vm_compute. split; reflexivity. Qed.

Theorem xor_too_long_rejected : forall r, (2 ^ 32 <= N.of_nat (length r))%N ->
  encrypt r = Err PyStructError.
Proof. exact xor_too_long_lemma. Qed.
Print Assumptions xor_too_long_rejected.
Example xor_too_long_rejected_ex : exists n : N,
  (2 ^ 32 <= N.of_nat (length (repeat Ascii.zero (N.to_nat n))))%N.
Proof. exists (2 ^ 32)%N. rewrite repeat_length, N2Nat.id. lia. Qed.

(** C02 *)
Theorem xor_frames_unambiguous : forall r1 r2 f1 f2 x y,
  encrypt r1 = Ok f1 -> encrypt r2 = Ok f2 -> f1 ++ x = f2 ++ y -> r1 = r2 /\ f1 = f2 /\ x = y.
Proof. exact frames_unambiguous_lemma. Qed.
Print Assumptions xor_frames_unambiguous.
Example xor_frames_unambiguous_ex : exists f, encrypt (list_ascii_of_string "{}") = Ok f /\ length f = 6.
Proof. eexists; split; vm_compute; reflexivity. Qed.

Theorem xor_stream_parses_back : forall rs fs rest,
  Forall2 (fun r f => encrypt r = Ok f) rs fs ->
  read_frames (length rs) (concat fs ++ rest) = Some (rs, rest).
Proof. intros rs fs rest. exact (read_frames_concat rs fs rest). Qed.
Print Assumptions xor_stream_parses_back.
Example xor_stream_parses_back_ex :
  let rs := [list_ascii_of_string "{}"; []; list_ascii_of_string "{""a"":1}"] in
  exists fs, Forall2 (fun r f => encrypt r = Ok f) rs fs /\ length (concat fs) = 21.
Proof.
  eexists; split.
  - repeat constructor; vm_compute; reflexivity.
  - vm_compute. reflexivity.
Qed.

(** C03 *)
Theorem xor_reply_belongs_to_request : forall J (loads : bytes -> option J) es,
  Forall reply_fits es ->
  Forall2 (own_reply loads) es (snd (run J loads init es)).
Proof. intros J loads. exact (xor_own_reply_lemma loads). Qed.
Print Assumptions xor_reply_belongs_to_request.

Theorem xor_clean_exchange_succeeds : forall J (loads : bytes -> option J) es req rep j,
  Forall reply_fits es ->
  (N.of_nat (length req) < 2 ^ 32)%N -> (N.of_nat (length rep) < 2 ^ 32)%N ->
  loads rep = Some j ->
  snd (send J loads (fst (run J loads init es)) req rep COk XOk) = Ok j.
Proof. intros J loads. exact (xor_clean_exchange_lemma loads). Qed.
Print Assumptions xor_clean_exchange_succeeds.
Example xor_history_ex :
  let q := list_ascii_of_string "q" in
  let a := list_ascii_of_string "stale" in
  let b := list_ascii_of_string "fresh" in
  let es := [ESend q a COk (XFail FTimeout 2 true); ESend q b COk XOk;
             ESend q a COk (XFail FCancel 0 true); EReset; ESend q b COk XOk] in
  Forall reply_fits es /\
  snd (run bytes Some init es) =
    [Some (Err KTimeout); Some (Ok b); Some (Err Cancelled); None; Some (Ok b)].
Proof. intros q a b es. split; [repeat constructor|vm_compute; reflexivity]. Qed.

(** C04 *)
Theorem xor_failure_drops_connection : forall J (loads : bytes -> option J) es req rep c x e,
  Forall reply_fits es -> (N.of_nat (length rep) < 2 ^ 32)%N ->
  snd (send J loads (fst (run J loads init es)) req rep c x) = Err e ->
  let t' := fst (send J loads (fst (run J loads init es)) req rep c x) in
  writer t' = None /\ opened t' = closed t' /\ transport_error e.
Proof. intros J loads. exact (xor_failure_drops_lemma loads). Qed.
Print Assumptions xor_failure_drops_connection.

Theorem xor_connect_failure_class : forall J (loads : bytes -> option J) t req rep f est x,
  writer t = None ->
  snd (send J loads t req rep (CFail f est) x) = Err (caller_sees true f).
Proof. intros J loads. exact (xor_connect_class_lemma loads). Qed.
Print Assumptions xor_connect_failure_class.

Theorem xor_exchange_failure_class : forall J (loads : bytes -> option J) es req rep f n a,
  Forall reply_fits es -> (N.of_nat (length req) < 2 ^ 32)%N ->
  snd (send J loads (fst (run J loads init es)) req rep COk (XFail f n a)) = Err (caller_sees false f).
Proof. intros J loads. exact (xor_exec_class_lemma loads). Qed.
Print Assumptions xor_exchange_failure_class.
Example xor_failure_ex :
  let q := list_ascii_of_string "q" in
  let es := [ESend q q COk XOk] in
  Forall reply_fits es /\
  writer (fst (run bytes Some init es)) = Some [] /\
  snd (send bytes Some (fst (run bytes Some init es)) q q COk (XFail FOSError 3 true)) = Err (KRetry None).
Proof. intros q es. split; [repeat constructor|split; vm_compute; reflexivity]. Qed.

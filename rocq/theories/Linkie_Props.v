(** C99: the transport of legacy cameras. *)
From Coq Require Import Lia.
From Verif Require Import Base Base_Lemmas Py Xor_Model Xor_Spec Xor_Proofs Crypto_Model Crypto_Proofs Linkie_Model.
Open Scope string_scope.
Open Scope list_scope.
Open Scope Z_scope.

(** Reading a form value: %XX stands for the character with that number, + for a blank. *)
Definition hex_value (c : ascii) : nat :=
  match String.index 0 (String c "") "0123456789ABCDEF" with Some n => n | None => 0%nat end.
Fixpoint unquote (s : bytes) : bytes :=
  match s with
  | [] => []
  | c :: s' =>
      if Ascii.eqb c "%" then
        match s' with
        | a :: b :: s'' => ascii_of_nat (16 * hex_value a + hex_value b) :: unquote s''
        | _ => c :: unquote s'
        end
      else (if Ascii.eqb c "+" then " "%char else c) :: unquote s'
  end.

Lemma unquote_char c rest : unquote (quote_char c ++ rest) = c :: unquote rest.
Proof. destruct c as [[] [] [] [] [] [] [] []]; reflexivity. Qed.

Lemma unquote_quote s : unquote (quote s) = s.
Proof.
  induction s as [|c s IH]; [reflexivity|]. unfold quote in *. cbn [flat_map]. rewrite unquote_char, IH. reflexivity.
Qed.

(** A value must not contain characters that separate values. *)
Definition separators : list ascii := list_ascii_of_string "&;=+ ".
Lemma quote_clean s : forall c, In c (quote s) -> ~ In c separators.
Proof.
  intros c H. unfold quote in H. apply in_flat_map in H. destruct H as (x & _ & H). revert H.
  assert (E : forallb (fun y => negb (existsb (Ascii.eqb y) separators)) (quote_char x) = true)
    by (destruct x as [[] [] [] [] [] [] [] []]; reflexivity).
  intros H Hs. rewrite forallb_forall in E. specialize (E c H). apply negb_true_iff in E.
  assert (existsb (Ascii.eqb c) separators = true); [|congruence].
  apply existsb_exists. exists c. split; [exact Hs|apply Ascii.eqb_refl].
Qed.

Lemma skip4 (a b : bytes) : length a = 4%nat -> skipn 4 (a ++ b) = b.
Proof. destruct a as [|? [|? [|? [|? [|? ?]]]]]; try discriminate. reflexivity. Qed.

(** A reader of base64 is one that reads what is written in it. *)
Definition reads_base64 (b64d : bytes -> res bytes) : Prop := forall m, b64d (b64encode m) = Ok m.

(** What the camera receives: one form field, named content, from which it recovers the request. *)
Theorem linkie_request b64d J (loads : bytes -> option J) r request l :
  (N.of_nat (length request) < 2 ^ 32)%N ->
  exists v x, send b64d J loads r request l = (l ++ [list_ascii_of_string "content=" ++ v], x)
    /\ (forall c, In c v -> ~ In c separators)
    /\ b64decode (unquote v) = Ok (xor_payload IV request)
    /\ wire_format request (xor_payload IV request)
    /\ decrypt (xor_payload IV request) = request.
Proof.
  intros H. destruct (xor_frame_lemma request H) as (prefix & payload & E & Hp & _ & _ & Hw & Hd).
  assert (payload = xor_payload IV request).
  { unfold encrypt in E. destruct (pack_u32 (N.of_nat (length request))) as [q|] eqn:Eq; [|discriminate].
    cbn [bind] in E. injection E as E. destruct (unpack_pack _ _ Eq) as (_ & Hq & _).
    apply (f_equal (skipn 4)) in E. rewrite (skip4 _ _ Hq), (skip4 _ _ Hp) in E. congruence. }
  subst payload. exists (quote (b64encode (xor_payload IV request))).
  unfold send, execute_send, mbind, mlift. rewrite E.
  assert (Es : skipn 4 (prefix ++ xor_payload IV request) = xor_payload IV request).
  { apply skip4. exact Hp. }
  rewrite Es. change (lit "content=") with (list_ascii_of_string "content=").
  match goal with |- exists x, ?m = _ /\ _ => exists (snd m) end. split.
  - destruct r as [[status response]|e]; [|reflexivity].
    destruct (negb (status =? 200)); [reflexivity|].
    match goal with |- context [match ?x with Ok _ => _ | Err _ => _ end] => destruct x end; reflexivity.
  - split; [apply quote_clean|]. rewrite unquote_quote. split; [apply b64_round_trip|]. split; assumption.
Qed.
Print Assumptions linkie_request.

(** A reply whose text encodes to [j] gives [j]; every failure is one to retry, or a cancellation. *)
Theorem linkie_reply b64d J (loads : bytes -> option J) request l text j :
  reads_base64 b64d -> (N.of_nat (length request) < 2 ^ 32)%N -> loads text = Some j ->
  snd (send b64d J loads (Ok (200, b64encode (xor_payload IV text))) request l) = Ok j.
Proof.
  intros B H Hj. destruct (xor_frame_lemma request H) as (prefix & payload & E & _).
  unfold send, execute_send, mbind, mlift. rewrite E. cbn [Z.eqb Pos.eqb negb]. rewrite (B _). cbn [bind].
  unfold decrypt. rewrite xor_round_trip, Hj. reflexivity.
Qed.
Print Assumptions linkie_reply.

Theorem linkie_failure b64d J (loads : bytes -> option J) r request l l' x :
  send b64d J loads r request l = (l', x) ->
  (forall e, r = Err e -> e <> Cancelled -> x = Err (KRetry None))
  /\ (r = Err Cancelled -> (N.of_nat (length request) < 2 ^ 32)%N -> x = Err Cancelled)
  /\ (forall status b, r = Ok (status, b) -> status <> 200 -> x = Err (KRetry None))
  /\ (forall b, r = Ok (200, b) -> (forall m, b64d b = Ok m -> loads (decrypt m) = None) -> x = Err (KRetry None))
  /\ ((2 ^ 32 <= N.of_nat (length request))%N -> x = Err (KRetry None) /\ l' = l)
  /\ (forall e, x = Err e -> e = KRetry None \/ (e = Cancelled /\ r = Err Cancelled)).
Proof.
  unfold send, execute_send, mbind, mlift.
  destruct (N.ltb_spec (N.of_nat (length request)) (2 ^ 32)) as [Hlen|Hlen].
  - destruct (xor_frame_lemma request Hlen) as (prefix & payload & E & _). rewrite E.
    destruct r as [[status response]|e].
    + destruct (Z.eqb_spec status 200) as [->|Hs]; cbn [negb].
      * destruct (b64d response) as [m|e] eqn:Eb; cbn [bind].
        -- destruct (loads (decrypt m)) as [j|] eqn:Ej; intros [= <- <-]; repeat split; try congruence; try lia;
             try (intros; left; congruence).
           intros b [= <-] H. rewrite (H m Eb) in Ej. discriminate.
        -- intros [= <- <-]; repeat split; try congruence; try lia; try (intros; left; congruence).
      * intros [= <- <-]; repeat split; try congruence; try lia; try (intros; left; congruence).
    + destruct (is_exception e) eqn:Ee.
      * intros [= <- <-]; repeat split; try congruence; try lia; try (intros; left; congruence).
        intros [= ->]. discriminate.
      * assert (e = Cancelled) by (destruct e; try discriminate; reflexivity). subst e.
        intros [= <- <-]; repeat split; try congruence; try lia.
        intros e [= <-]. right. auto.
  - rewrite (xor_too_long_lemma request Hlen). intros [= <- <-]; repeat split; try congruence; try lia;
      try (intros; left; congruence).
Qed.
Print Assumptions linkie_failure.

Example linkie_ex :
  let request := list_ascii_of_string "{""system"":{""get_sysinfo"":{}}}" in
  let sent := fst (send b64decode unit (fun _ => Some tt) (Ok (200, [])) request []) in
  map (fun b => string_of_list_ascii (firstn 24 b)) sent = ["content=0PKB%2BIv%2FmvfV"].
Proof. vm_compute. reflexivity. Qed.
Example linkie_base64 : reads_base64 b64decode.
Proof. intros m. apply b64_round_trip. Qed.

(** C120: the key of the AES handshake. *)
From Verif Require Import Base Base_Lemmas Py Crypto_Model Crypto_Proofs Factory_Model Factory_Spec Factory_Proofs Keys_Model Keys_Spec.
From Coq Require Import Lia.
Open Scope string_scope.
Open Scope list_scope.
Open Scope nat_scope.

Lemma lists_app a b : list_ascii_of_string (a ++ b)%string = list_ascii_of_string a ++ list_ascii_of_string b.
Proof. induction a as [|c a IH]; [reflexivity|]. cbn. now rewrite IH. Qed.

Section Keys.
Variables Priv Pub : Type.
Variable der_priv : Priv -> bytes.
Variable der_pub : Pub -> bytes.
Variable load_priv : bytes -> option Priv.
Variable load_pub : bytes -> option Pub.
Variable rsa_open : Priv -> bytes -> option bytes.
Variable seal : Pub -> bytes -> bytes -> bytes.
Hypothesis Henc : encodings Priv Pub der_priv der_pub load_priv load_pub.
Notation matching := (matching Priv Pub rsa_open seal).
Notation run := (run Priv Pub der_priv der_pub load_priv load_pub rsa_open).
Notation step := (step Priv Pub der_priv der_pub load_priv load_pub rsa_open).
Notation create := (create Priv Pub load_priv load_pub).
Notation keyed := (keyed Priv Pub).

Definition key_text (q : Pub) : string := (first_line ++ b64s (der_pub q) ++ last_line)%string.
Definition request (q : Pub) : json :=
  JObj [("method", JStr "handshake"); ("params", JObj [("key", JStr (key_text q))])].

Lemma offered_request q : offered load_pub (request q) = Some q.
Proof.
  cbn [offered request dget String.eqb Ascii.eqb Bool.eqb]. unfold read_key, key_text. rewrite !lists_app.
  set (f := list_ascii_of_string first_line). set (l := list_ascii_of_string last_line). set (x := list_ascii_of_string (b64s (der_pub q))).
  rewrite skipn_app, skipn_all, Nat.sub_diag. cbn [app skipn]. rewrite !app_length.
  replace (length f + (length x + length l) - length f - length l) with (length x) by lia.
  rewrite firstn_app, firstn_all, Nat.sub_diag, firstn_O, app_nil_r.
  destruct (list_eq_dec ascii_dec _ _); [|congruence].
  unfold x, b64s. rewrite list_ascii_of_string_of_list_ascii, b64_round_trip. apply Henc.
Qed.

(** The configuration holds the transport's key pair *)
Definition Inv (t : keyed) : Prop :=
  match kp t with
  | None => aes_keys (config t) = None
  | Some k => matching k /\ aes_keys (config t) = Some (b64s (der_priv (fst k)), b64s (der_pub (snd k)))
  end.
Lemma from_der k : create_from_der_keys Priv Pub load_priv load_pub (b64s (der_priv (fst k))) (b64s (der_pub (snd k))) = Ok k.
Proof.
  unfold create_from_der_keys, b64s. rewrite !list_ascii_of_string_of_list_ascii, !b64_round_trip. cbn [bind].
  rewrite (proj1 Henc). cbn [bind]. rewrite (proj2 Henc). now destruct k.
Qed.
Lemma create_inv c : starts Priv Pub der_priv der_pub rsa_open seal c ->
  exists t, create c = Ok t /\ Inv t /\ config t = c.
Proof.
  intros [H|(k & Hm & H)]; unfold create; rewrite H.
  - eexists. split; [reflexivity|]. split; [exact H | reflexivity].
  - fold (b64s (der_priv (fst k))) (b64s (der_pub (snd k))). unfold text_of. fold (b64s (der_priv (fst k))) (b64s (der_pub (snd k))).
    rewrite from_der. cbn [bind]. eexists. split; [reflexivity|]. split; [|reflexivity]. split; [exact Hm | exact H].
Qed.
Lemma step_inv t e : Inv t -> fresh_match Priv Pub rsa_open seal e ->
  exists t' o, step t e = Ok (t', o) /\ Inv t' /\
    (forall k, kp t = Some k -> kp t' = Some k) /\
    (forall j, o = ORequest j -> exists k, kp t' = Some k /\ j = request (snd k)).
Proof.
  intros Hi Hf. destruct e as [fresh|key|].
  - cbn [step Keys_Model.step key_payload]. do 2 eexists. split; [reflexivity|]. unfold Inv in *.
    destruct (kp t) as [k|] eqn:Ek.
    + rewrite Ek. split; [exact Hi|]. split; [auto|]. intros j H. injection H as <-. exists k. split; reflexivity.
    + cbn [kp config]. split; [split; [exact Hf | reflexivity]|]. split; [discriminate|]. intros j H. injection H as <-.
      exists fresh. split; reflexivity.
  - cbn. do 2 eexists. split; [reflexivity|]. split; [exact Hi|]. split; [auto | discriminate].
  - unfold step, Keys_Model.step. rewrite config_round_trip_lemma. cbn [bind].
    assert (Hk : aes_keys (restored (config t)) = aes_keys (config t)) by reflexivity.
    assert (Hs : starts Priv Pub der_priv der_pub rsa_open seal (restored (config t))).
    { unfold starts, Inv in *. rewrite Hk. destruct (kp t) as [k|]; [right; exists k; exact Hi | left; exact Hi]. }
    destruct (create_inv _ Hs) as (t' & E & Hi' & Ec). rewrite E. cbn [bind]. do 2 eexists. split; [reflexivity|]. split; [exact Hi'|].
    split; [|discriminate]. intros k Ek. unfold Inv in Hi. rewrite Ek in Hi. destruct Hi as [_ Hi].
    unfold create in E. rewrite Hk, Hi, from_der in E. cbn [bind] in E. injection E as <-. reflexivity.
Qed.
Lemma run_inv es : forall t, Inv t -> Forall (fresh_match Priv Pub rsa_open seal) es ->
  exists t' os, run t es = Ok (t', os) /\ Inv t' /\ length os = length es /\
    (forall k, kp t = Some k -> kp t' = Some k) /\
    (forall j, In (ORequest j) os -> exists k, kp t' = Some k /\ j = request (snd k)).
Proof.
  induction es as [|e es IH]; intros t Hi Hf.
  - exists t, []. repeat split; auto. intros j [].
  - inversion Hf as [|? ? Hf1 Hf2]; subst. destruct (step_inv t e Hi Hf1) as (t1 & o & E1 & Hi1 & K1 & R1).
    destruct (IH t1 Hi1 Hf2) as (t2 & os & E2 & Hi2 & L2 & K2 & R2). exists t2, (o :: os).
    cbn [run Keys_Model.run]. rewrite E1. cbn [bind fst snd]. rewrite E2. cbn [bind fst snd].
    split; [reflexivity|]. split; [exact Hi2|]. split; [cbn; congruence|]. split; [auto|].
    intros j [Hj|Hj]; [|now apply R2]. destruct (R1 j Hj) as (k & Hk & ->). exists k. auto.
Qed.
End Keys.

(** Whatever handshakes are made, answered or left, and however often the
    configuration is stored and a new transport made from it: every handshake
    request offers the same public key; and a key sealed for it is opened,
    at any later time. *)
Theorem handshake_key_kept : forall Priv Pub der_priv der_pub load_priv load_pub rsa_open seal,
  encodings Priv Pub der_priv der_pub load_priv load_pub ->
  forall c es, starts Priv Pub der_priv der_pub rsa_open seal c ->
  Forall (fresh_match Priv Pub rsa_open seal) es ->
  exists t0 t os, create Priv Pub load_priv load_pub c = Ok t0 /\
    run Priv Pub der_priv der_pub load_priv load_pub rsa_open t0 es = Ok (t, os) /\ length os = length es /\
    (forall j j', In (ORequest j) os -> In (ORequest j') os -> j = j') /\
    (forall j, In (ORequest j) os -> exists q, offered load_pub j = Some q /\
       forall m r, open_answer Priv Pub rsa_open t (text_of (seal q m r)) = Ok m).
Proof.
  intros Priv Pub der_priv der_pub load_priv load_pub rsa_open seal Henc c es Hs Hf.
  destruct (create_inv Priv Pub der_priv der_pub load_priv load_pub rsa_open seal Henc c Hs) as (t0 & E0 & Hi0 & _).
  destruct (run_inv Priv Pub der_priv der_pub load_priv load_pub rsa_open seal Henc es t0 Hi0 Hf) as (t & os & E & Hi & L & _ & R).
  exists t0, t, os. split; [exact E0|]. split; [exact E|]. split; [exact L|]. split.
  - intros j j' H H'. destruct (R j H) as (k & Hk & ->). destruct (R j' H') as (k' & Hk' & ->). congruence.
  - intros j H. destruct (R j H) as (k & Hk & ->). exists (snd k). split; [eapply offered_request; eauto|].
    intros m r. unfold Inv in Hi. rewrite Hk in Hi. destruct Hi as [Hm _]. unfold open_answer, text_of.
    rewrite list_ascii_of_string_of_list_ascii, b64_round_trip, Hk. cbn [bind]. now rewrite Hm.
Qed.
Print Assumptions handshake_key_kept.

(** * The declared length *)
Lemma b64_length_len : forall n m, length m <= n -> length (b64encode m) = 4 * ((length m + 2) / 3).
Proof.
  induction n as [|n IH]; intros m Hl; [destruct m; [reflexivity | cbn in Hl; lia]|].
  destruct m as [|[a0 a1 a2 a3 a4 a5 a6 a7] m]; [reflexivity|].
  destruct m as [|[b0 b1 b2 b3 b4 b5 b6 b7] m]; [reflexivity|].
  destruct m as [|[c0 c1 c2 c3 c4 c5 c6 c7] m]; [reflexivity|].
  cbn [b64encode length]. rewrite IH by (cbn in Hl; lia).
  replace (S (S (S (length m))) + 2) with (1 * 3 + (length m + 2)) by lia.
  rewrite Nat.div_add_l by discriminate. lia.
Qed.
Lemma escaped_b64_char s : escaped (sx_char s) = [sx_char s].
Proof. destruct s as [[] [] [] [] [] []]; vm_compute; reflexivity. Qed.
Lemma escaped_b64 : forall n m, length m <= n -> flat_map escaped (b64encode m) = b64encode m.
Proof.
  induction n as [|n IH]; intros m Hl; [destruct m; [reflexivity | cbn in Hl; lia]|].
  destruct m as [|[a0 a1 a2 a3 a4 a5 a6 a7] m]; [reflexivity|].
  destruct m as [|[b0 b1 b2 b3 b4 b5 b6 b7] m].
  { cbn [b64encode flat_map]. rewrite !escaped_b64_char. reflexivity. }
  destruct m as [|[c0 c1 c2 c3 c4 c5 c6 c7] m].
  { cbn [b64encode flat_map]. rewrite !escaped_b64_char. reflexivity. }
  cbn [b64encode flat_map]. rewrite !escaped_b64_char. rewrite IH by (cbn in Hl; lia). reflexivity.
Qed.
(** The request written as JSON has the length that the header declares
    (KEY_PAIR_CONTENT_LENGTH, 314), for a key whose encoding has 162 bytes, as those of
    1024 bits with the exponent 65537 have; and for longer or shorter keys it has not. *)
Theorem declared_length : forall Priv Pub der_priv der_pub fresh (t : keyed Priv Pub),
  let k := match kp t with Some k => k | None => fresh end in
  length (written (snd (key_payload Priv Pub der_priv der_pub fresh t))) = 98 + 4 * ((length (der_pub (snd k)) + 2) / 3) /\
  (length (der_pub (snd k)) = 162 -> length (written (snd (key_payload Priv Pub der_priv der_pub fresh t))) = 314).
Proof.
  intros Priv Pub der_priv der_pub fresh t k.
  assert (E : snd (key_payload Priv Pub der_priv der_pub fresh t) = request Pub der_pub (snd k)).
  { subst k. unfold key_payload. destruct (kp t) as [k|] eqn:Ek; [rewrite Ek|]; reflexivity. }
  assert (H : length (written (snd (key_payload Priv Pub der_priv der_pub fresh t))) = 98 + 4 * ((length (der_pub (snd k)) + 2) / 3)).
  { rewrite E. unfold request. cbn [written map fst snd joined]. unfold quoted, key_text. rewrite !lists_app, !flat_map_app.
    unfold b64s. rewrite list_ascii_of_string_of_list_ascii. rewrite (escaped_b64 _ _ (le_n _)).
    cbn -[b64encode Nat.mul Nat.div length app]. cbn [length app]. rewrite !app_length. cbn [length app].
    repeat (rewrite ?app_length; cbn [length app]). rewrite (b64_length_len _ _ (le_n _)). lia. }
  split; [exact H|]. intro L. rewrite H, L. reflexivity.
Qed.
Print Assumptions declared_length.

Definition toy_der (s : string) : bytes := list_ascii_of_string s.
Definition toy_load (b : bytes) : option string := Some (string_of_list_ascii b).
Definition toy_seal (q : string) (m _ : bytes) : bytes := list_ascii_of_string q ++ m.
Definition toy_open (k : string) (c : bytes) : option bytes :=
  if list_eq_dec ascii_dec (firstn (length (list_ascii_of_string k)) c) (list_ascii_of_string k)
  then Some (skipn (length (list_ascii_of_string k)) c) else None.
Lemma toy_matching s : matching string string toy_open toy_seal (s, s).
Proof.
  intros m r. cbn [fst snd]. unfold toy_open, toy_seal. rewrite firstn_app, Nat.sub_diag, firstn_O, app_nil_r, firstn_all.
  destruct (list_eq_dec _ _ _); [|congruence]. now rewrite skipn_app, Nat.sub_diag, skipn_all.
Qed.
(** Two handshakes with a stored configuration in between; other pairs would not open *)
Example handshake_key_ex :
  let es := [EHandshake ("one", "one"); EStored; EHandshake ("two", "two")] in
  encodings string string toy_der toy_der toy_load toy_load /\
  starts string string toy_der toy_der toy_open toy_seal (default_config "h") /\
  Forall (fresh_match string string toy_open toy_seal) es /\
  ~ matching string string toy_open toy_seal ("one", "two") /\
  exists t os, run string string toy_der toy_der toy_load toy_load toy_open (mkKeyed None (default_config "h")) es = Ok (t, os) /\
    kp t = Some ("one", "one") /\ length os = 3.
Proof.
  cbv zeta. split; [split; intro; unfold toy_load, toy_der; now rewrite string_of_list_ascii_of_string|].
  split; [left; reflexivity|]. split; [repeat constructor; apply toy_matching|]. split.
  - intro H. specialize (H [] []). vm_compute in H. discriminate.
  - do 2 eexists. split; [vm_compute; reflexivity|]. split; reflexivity.
Qed.
Example declared_length_ex : exists t : keyed string string,
  length (toy_der (match kp t with Some k => snd k | None => "" end)) = 162 /\ kp t <> None.
Proof.
  exists (mkKeyed (Some ("", string_of_list_ascii (repeat "x"%char 162))) (default_config "h")).
  split; [vm_compute; reflexivity | discriminate].
Qed.

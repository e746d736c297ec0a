(** Proofs about the camera transport. *)
From Verif Require Import Base Base_Lemmas Py Codes_Model Crypto_Model Crypto_Proofs Cam_Model Cam_Spec.
From Verif Require Klap_Model Aes_Model Aes_Spec Aes_Proofs.
Open Scope string_scope.
Open Scope list_scope.
Open Scope Z_scope.

(** ** Replies *)
Lemma response_error_code j c : response_error j = Ok c -> code_in j = Some c.
Proof. unfold response_error, Aes_Spec.code_in, jget. destruct j; try discriminate. cbn [bind]. now intros ->. Qed.

Lemma jget_dict_field k j v : jget_dict k j = Ok v ->
  field k j = Some v \/ (field k j = None /\ v = JObj []).
Proof. unfold jget_dict, Aes_Spec.field. destruct j; try discriminate. destruct (dget k d); intro H; injection H as <-; auto. Qed.
Lemma jitem_field k j v : jitem k j = Ok v <-> field k j = Some v.
Proof.
  unfold jitem, dindex, Aes_Spec.field. destruct j; try (split; discriminate).
  destruct (dget k d); split; congruence.
Qed.
Lemma jget_field k j v : jget k j = Ok v -> v <> JNull -> field k j = Some v.
Proof. unfold jget, Aes_Spec.field. destruct j; try discriminate. destruct (dget k d); congruence. Qed.

Lemma less_secure_asks j : is_less_secure j = Ok true ->
  exists et, code_in j = Some (-40401) /\ data_field "encrypt_type" j = Some et /\ truthy et = true /\ et <> JArr [JStr "3"].
Proof.
  unfold is_less_secure. destruct (response_error j) as [c|] eqn:Ec; [|discriminate]. cbn [bind].
  destruct (c =? SESSION_EXPIRED) eqn:E; [|discriminate]. apply Z.eqb_eq in E. subst c.
  destruct (jget_dict "result" j) as [r|] eqn:Er; [|discriminate]. cbn [bind].
  destruct (jget_dict "data" r) as [d|] eqn:Ed; [|discriminate]. cbn [bind].
  destruct (truthy d) eqn:Et; [|discriminate].
  destruct (jget "encrypt_type" d) as [et|] eqn:Ee; [|discriminate]. cbn [bind]. intro H.
  assert (H' : truthy et && negb (only_three et) = true) by congruence. apply andb_prop in H'. destruct H' as [H1 H2].
  exists et. split; [apply response_error_code, Ec|]. split; [|split; [exact H1|]].
  - unfold data_field.
    apply jget_dict_field in Er. destruct Er as [Er|[Er ->]]; rewrite ?Er; cbn [obind].
    2: { cbn in Ed. injection Ed as <-. discriminate. }
    apply jget_dict_field in Ed. destruct Ed as [Ed|[Ed ->]]; [|discriminate]. rewrite Ed. cbn [obind].
    apply jget_field; [exact Ee|]. now intros ->.
  - intros ->. discriminate.
Qed.

Section Cam.
Variables enc_block dec_block : bytes -> bytes -> bytes.
Variable json_loads : bytes -> option json.
Variables md5_hex sha256_hex : bytes -> string.
Variable sha256 : bytes -> bytes.
Variable str_int : Z -> string.
Variable str_json : json -> string.
Variable wrap : bytes -> bytes.
Variable cfg : config.
Hypothesis enc_length : forall key b, length b = block -> length (enc_block key b) = block.
Hypothesis dec_enc : forall key b, length b = block -> dec_block key (enc_block key b) = b.
Hypothesis sha_length : forall b, length (sha256 b) = 32%nat.

Notation fin1 := (finish1 md5_hex sha256_hex cfg).
Notation Sec := (secret cfg).

Lemma secret_pwd t u : user t = Some u -> u <> "" -> pwd_to_hash cfg t = Sec.
Proof.
  intros Hu Hn. unfold pwd_to_hash, secret, own_creds, password0, own_creds. rewrite Hu.
  apply String.eqb_neq in Hn. rewrite Hn. cbn [negb andb].
  destruct (c_creds cfg) as [[a b]|].
  - destruct (String.eqb a "" && String.eqb b ""); [|reflexivity].
    destruct (c_hash cfg) as [[x y]|]; [|reflexivity]. destruct (String.eqb y ""); reflexivity.
  - destruct (c_hash cfg) as [[x y]|]; [|reflexivity]. destruct (String.eqb y ""); reflexivity.
Qed.
Lemma pwd_cases t : pwd_to_hash cfg t = Sec \/ pwd_to_hash cfg t = "admin".
Proof.
  destruct (user t) as [u|] eqn:Eu.
  - destruct (String.eqb u "") eqn:E.
    + unfold pwd_to_hash, secret, own_creds. rewrite Eu, E. cbn [negb andb].
      destruct (c_creds cfg) as [[a b]|]; [destruct (String.eqb a "" && String.eqb b "")|]; auto;
        destruct (password0 cfg); auto.
    + apply String.eqb_neq in E. left. eapply secret_pwd; eassumption.
  - unfold pwd_to_hash, secret, own_creds. rewrite Eu.
    destruct (c_creds cfg) as [[a b]|]; [destruct (String.eqb a "" && String.eqb b "")|]; auto.
Qed.

Lemma finish1_state resp code n t : fst (fin1 resp code n t) = t.
Proof. unfold finish1. destruct (match user t with Some u => String.eqb u "" | None => true end); [reflexivity|]. destruct resp; [destruct code|]; reflexivity. Qed.

Lemma finish1_ok w d resp code n t r :
  body (hello_reply w d) = Some resp -> response_error resp = Ok code ->
  snd (fin1 (Some resp) (Some code) n t) = Ok r ->
  exists server ph, r = Some (n, server, ph) /\ proves md5_hex sha256_hex cfg w d n server ph /\
    server = server_nonce w d /\ ph = confirmed_hash md5_hex sha256_hex cfg w d n /\ code = -40413.
Proof.
  intros Hb Hc. unfold finish1.
  destruct (user t) as [u|] eqn:Eu; [|discriminate]. destruct (String.eqb u "") eqn:En; [discriminate|].
  apply String.eqb_neq in En. cbn [snd]. cbv zeta. rewrite (secret_pwd t u Eu En).
  destruct (negb (code =? INVALID_NONCE)) eqn:Ec.
  { cbn [bind]. destruct (truthy resp); [|discriminate]. destruct (inner_error resp) as [[c|]|]; cbn [bind]; try discriminate.
    destruct (c =? DEVICE_BLOCKED); [|discriminate].
    destruct (jget_dict "data" resp) as [dd|]; [|discriminate]; cbn [bind]. destruct (jget "sec_left" dd); discriminate. }
  apply negb_false_iff, Z.eqb_eq in Ec. subst code.
  assert (Ht : truthy resp = true).
  { unfold response_error in Hc. destruct resp as [| | | | | |[|kv dd]]; try discriminate; try reflexivity. }
  rewrite Ht. destruct (has_nonce_get resp) as [h|]; [|discriminate]. cbn [bind].
  destruct (negb h).
  { destruct (inner_error resp) as [[c|]|]; cbn [bind]; try discriminate.
    destruct (c =? DEVICE_BLOCKED); [|discriminate].
    destruct (jget_dict "data" resp) as [dd|]; [|discriminate]; cbn [bind]. destruct (jget "sec_left" dd); discriminate. }
  destruct (jitem "result" resp) as [r0|] eqn:E1; [|discriminate]. cbn [bind].
  destruct (jitem "data" r0) as [d0|] eqn:E2; [|discriminate]. cbn [bind].
  destruct (jitem "nonce" d0) as [sn|] eqn:E3; [|discriminate]. cbn [bind].
  destruct (jitem "device_confirm" d0) as [dc|] eqn:E4; [|discriminate]. cbn [bind].
  apply jitem_field in E1, E2, E3, E4.
  assert (Hd : forall k, data_field k resp = field k d0).
  { intro k. unfold data_field. rewrite E1. cbn [obind]. rewrite E2. reflexivity. }
  destruct sn as [| | | |server| |]; try discriminate. intro H.
  assert (Hs : server_nonce w d = server).
  { unfold server_nonce. rewrite Hb. cbn [obind]. now rewrite Hd, E3. }
  assert (Hx : exists ph dcs, dc = JStr dcs /\ dcs = expected_confirm sha256_hex n server ph /\ r = Some (n, server, ph) /\
     ph = (if String.eqb dcs (expected_confirm sha256_hex n server (sha256_hex (lit Sec))) then sha256_hex (lit Sec) else md5_hex (lit Sec))).
  { unfold confirm_hash in H. fold (expected_confirm sha256_hex n server (sha256_hex (lit Sec))) in H.
    fold (expected_confirm sha256_hex n server (md5_hex (lit Sec))) in H.
    destruct dc as [| | | |dcs| |]; try discriminate H.
    destruct (String.eqb dcs (expected_confirm sha256_hex n server (sha256_hex (lit Sec)))) eqn:Em1.
    - exists (sha256_hex (lit Sec)), dcs. rewrite Em1. apply String.eqb_eq in Em1. repeat split; congruence.
    - destruct (String.eqb dcs (expected_confirm sha256_hex n server (md5_hex (lit Sec)))) eqn:Em2; [|discriminate].
      exists (md5_hex (lit Sec)), dcs. rewrite Em1. apply String.eqb_eq in Em2. repeat split; congruence. }
  destruct Hx as (ph & dcs & -> & Hdc & -> & Hph). exists server, ph. split; [reflexivity|].
  split; [|split; [congruence|split; [|reflexivity]]].
  - exists resp. split; [exact Hb|]. split; [apply response_error_code, Hc|]. rewrite !Hd, E3, E4, Hdc.
    repeat split. rewrite Hph. destruct (String.eqb _ _); auto.
  - unfold confirmed_hash. cbv zeta. rewrite Hb. cbn [obind]. rewrite Hd, E4, Hs. exact Hph.
Qed.

(** When the user's greeting was not accepted the end cannot succeed. *)
Lemma finish1_fails resp code n t :
  (code = INVALID_NONCE -> has_nonce resp = Ok false) ->
  exists e, snd (fin1 (Some resp) (Some code) n t) = Err e.
Proof.
  intro H. unfold finish1. destruct (match user t with Some u => String.eqb u "" | None => true end); [eexists; reflexivity|].
  cbn [snd]. cbv zeta.
  assert (G : exists e, (if truthy resp
      then let! inner := inner_error resp in
           match inner with
           | Some c => if c =? DEVICE_BLOCKED then
                 let! data := jget_dict "data" resp in
                 let! _ := jget "sec_left" data in Err (KDevice (Some DEVICE_BLOCKED))
               else Err (KAuth None)
           | None => Err (KAuth None)
           end
      else @Err (option (string * string * string)) (KAuth None)) = Err e).
  { destruct (truthy resp); [|eexists; reflexivity].
    destruct (inner_error resp) as [[c|]|]; cbn [bind]; try (eexists; reflexivity).
    destruct (c =? DEVICE_BLOCKED); [|eexists; reflexivity].
    destruct (jget_dict "data" resp) as [d|]; cbn [bind]; [|eexists; reflexivity].
    destruct (jget "sec_left" d); eexists; reflexivity. }
  destruct (code =? INVALID_NONCE) eqn:E; cbn [negb]; [|exact G].
  apply Z.eqb_eq in E. specialize (H E).
  assert (Ht : truthy resp = true).
  { unfold has_nonce, jitem in H. destruct resp as [| | | | | |[|kv dd]]; try discriminate; reflexivity. }
  rewrite Ht in *.
  assert (Hg : has_nonce_get resp = Ok false).
  { unfold has_nonce in H. unfold has_nonce_get. destruct (jitem "result" resp) as [r|] eqn:Er; [|discriminate].
    apply jitem_field in Er. unfold Aes_Spec.field in Er. destruct resp; try discriminate. cbn [jget_dict]. rewrite Er. exact H. }
  rewrite Hg. exact G.
Qed.

(** ** Logs *)
Notation oposts := (obs_posts md5_hex sha256_hex sha256 str_json cfg).
Notation opost := (obs_post md5_hex sha256_hex sha256 str_json cfg).
Notation law := (lawful dec_block md5_hex sha256_hex sha256 str_int str_json wrap cfg).
Notation may := (may_post dec_block md5_hex sha256_hex str_int wrap cfg).
Notation prov := (proves md5_hex sha256_hex cfg).
Notation pgrant := (plain_grant str_json).
Notation sgrant := (proof_grant str_json).

Lemma oposts_snoc w k ps p : oposts w k (ps ++ [p]) = opost w (oposts w k ps) p.
Proof. unfold obs_posts. now rewrite fold_left_app. Qed.
Lemma law_nil w m k : law w m k [].
Proof. intros [|x pre] p post H; discriminate. Qed.
Lemma law_snoc w m k ps p : law w m k ps -> may w m (oposts w k ps) p -> law w m k (ps ++ [p]).
Proof.
  intros HL HM pre q post H. destruct (rev post) as [|z zs] eqn:Er.
  - apply (f_equal (@rev _)) in Er. rewrite rev_involutive in Er. subst post. cbn in H.
    apply app_inj_tail in H. destruct H as [<- <-]. exact HM.
  - apply (f_equal (@rev _)) in Er. rewrite rev_involutive in Er. cbn in Er. subst post.
    rewrite app_comm_cons, app_assoc in H. apply app_inj_tail in H. destruct H as [H _]. eapply HL, H.
Qed.

(** What is known about the log so far. *)
Definition told (w : world) (m : bytes) (k : known) (t : cam) (o : obs) : Prop :=
  law w m k (log t) /\ oposts w k (log t) = o.
Lemma told_snoc w m k t o p t' : told w m k t o -> may w m o p -> log t' = log t ++ [p] ->
  told w m k t' (opost w o p).
Proof. intros [HL HO] Hm Hl. split; rewrite Hl; [apply law_snoc; [exact HL | now rewrite HO] | now rewrite oposts_snoc, HO]. Qed.
Lemma told_log w m k t o t' : told w m k t o -> log t' = log t -> told w m k t' o.
Proof. intros [HL HO] H. split; now rewrite H. Qed.

(** ** Steps *)
Lemma post_200_spec p r t : post_200 p r t = (add_log p t, match r with
    | Err e => Err e | Ok (status, j) => if status =? 200 then Ok j else Err KKasa end).
Proof. unfold post_200. destruct r as [[status j]|]; [|reflexivity]. now destruct (status =? 200). Qed.
Lemma post_200_ok p r t t' j : post_200 p r t = (t', Ok j) -> t' = add_log p t /\ body r = Some j.
Proof.
  rewrite post_200_spec. unfold body. intro H. injection H as <- H. split; [reflexivity|].
  destruct r as [[status j']|]; [|discriminate]. destruct (status =? 200); congruence.
Qed.
Lemma post_200_err p r t t' e : post_200 p r t = (t', Err e) -> t' = add_log p t /\ body r = None.
Proof.
  rewrite post_200_spec. unfold body. intro H. injection H as <- H. split; [reflexivity|].
  destruct r as [[status j']|]; [|reflexivity]. destruct (status =? 200); congruence.
Qed.

Lemma less_login_spec d u p r t t' out : less_secure_login md5_hex str_json d u p r t = (t', out) ->
  let t1 := add_log (PPlainLogin d u (md5_hex (lit p))) t in
  match pgrant r with
  | Some tok => out = Ok true /\
      t' = mkCam (st t) false (user t) (Some tok) (seq t) (sess t) (Some (md5_hex (lit p))) (nonce t) (log t1)
  | None => t' = t1 /\ out <> Ok true
  end.
Proof.
  unfold less_secure_login, plain_grant. cbv zeta. unfold mbind.
  destruct (post_200 _ r t) as [t1 [j|e]] eqn:E.
  2: { apply post_200_err in E. destruct E as [-> ->]. cbn [obind]. intro H. injection H as <- <-. split; [reflexivity | discriminate]. }
  apply post_200_ok in E. destruct E as [-> ->]. cbn [obind]. unfold mlift, mret.
  destruct j as [| | | | | |dd]; cbn [jget Aes_Spec.field]; try (intro H; injection H as <- <-; split; [reflexivity | discriminate]).
  assert (Hno : eq_zero (match dget "error_code" dd with Some x => x | None => JNull end) = false ->
    match dget "error_code" dd with Some (JInt 0) | Some (JBool false) =>
        match obind (dget "result" dd) (field "stok") with
        | Some stok => if truthy stok then Some (str_json stok) else None | None => None end
      | _ => None end = None).
  { destruct (dget "error_code" dd) as [[| [] | [] | | | | ]|]; try reflexivity; discriminate. }
  assert (Hyes : eq_zero (match dget "error_code" dd with Some x => x | None => JNull end) = true ->
    match dget "error_code" dd with Some (JInt 0) | Some (JBool false) =>
        match obind (dget "result" dd) (field "stok") with
        | Some stok => if truthy stok then Some (str_json stok) else None | None => None end
      | _ => None end = match obind (dget "result" dd) (field "stok") with
        | Some stok => if truthy stok then Some (str_json stok) else None | None => None end).
  { destruct (dget "error_code" dd) as [[| [] | [] | | | | ]|]; try reflexivity; discriminate. }
  destruct (eq_zero _).
  - rewrite (Hyes eq_refl). clear Hno Hyes. cbn [jget_dict]. destruct (dget "result" dd) as [rr|]; cbn [obind].
    + destruct rr as [| | | | | |rd]; cbn [jget Aes_Spec.field]; try (intro H; injection H as <- <-; split; [reflexivity | discriminate]).
      destruct (dget "stok" rd) as [stok|].
      * destruct (truthy stok); intro H; injection H as <- <-; split; try reflexivity; discriminate.
      * intro H; injection H as <- <-; split; [reflexivity | discriminate].
    + intro H; injection H as <- <-; split; [reflexivity | discriminate].
  - rewrite (Hno eq_refl). intro H. injection H as <- <-. split; [reflexivity | discriminate].
Qed.

Definition user_ok (t : cam) : Prop := user t = user_name cfg \/ user t = Some "admin".

Lemma handle_code_spec j t : exists c',
  handle_code j t = (match code_in j with Some c => if auth_code c then set_st HANDSHAKE_REQUIRED t else t | None => t end, c') /\
  (c' = Ok tt <-> code_in j = Some 0) /\ (forall c, code_in j = Some c -> auth_code c = true -> c' = Err (KAuth (Some c))).
Proof.
  unfold handle_code, response_error, Aes_Spec.code_in, jget. destruct j; cbn [bind];
    try (eexists; split; [reflexivity|]; split; [split; discriminate | discriminate]).
  destruct (error_code_of _) as [c|e]; [|eexists; split; [reflexivity|]; split; [split; discriminate | discriminate]].
  unfold Aes_Spec.auth_code. destruct (c =? 0) eqn:E0.
  { apply Z.eqb_eq in E0. subst c. eexists; split; [reflexivity|]. split; [tauto|]. intros c H. injection H as <-. discriminate. }
  apply Z.eqb_neq in E0.
  destruct (zmem c smart_retryable_errors) eqn:E1.
  { rewrite andb_false_r. eexists; split; [reflexivity|]. split; [split; [discriminate | congruence]|].
    intros c' H. injection H as <-. rewrite E1, andb_false_r. discriminate. }
  destruct (zmem c smart_authentication_errors) eqn:E2; cbn [andb negb].
  - eexists; split; [reflexivity|]. split; [split; [discriminate | congruence]|]. intros c' H _. congruence.
  - eexists; split; [reflexivity|]. split; [split; [discriminate | congruence]|].
    intros c' H. injection H as <-. rewrite E2. discriminate.
Qed.

Notation hs2 := (handshake2 sha256_hex sha256 str_json).
Lemma handshake2_spec w n server ph t t' out : hs2 w n server ph t = (t', out) -> st t = HANDSHAKE_REQUIRED ->
  log t' = log t ++ [PProof (user t) n (digest_password sha256_hex n server ph)] /\
  user t' = user t /\ secure t' = secure t /\
  match sgrant (w_proof w) with
  | Some (z, stok) => out = Ok tt /\ st t' = ESTABLISHED /\ url t' = Some stok /\ seq t' = Some z /\
      sess t' = Some (keys sha256_hex sha256 n server ph) /\ pwdh t' = Some ph /\ nonce t' = Some n
  | None => st t' = HANDSHAKE_REQUIRED /\ out <> Ok tt
  end.
Proof.
  intros H Hst. unfold handshake2, mbind in H.
  destruct (post_200 _ (w_proof w) t) as [t1 [j|e]] eqn:E.
  2: { apply post_200_err in E. destruct E as [-> Hb]. injection H as <- <-. unfold proof_grant. rewrite Hb.
       repeat split; try assumption. discriminate. }
  apply post_200_ok in E. destruct E as [-> Hb]. unfold proof_grant. rewrite Hb. cbn [obind].
  set (t1 := add_log _ t) in *.
  assert (Ht1 : log t1 = log t ++ [PProof (user t) n (digest_password sha256_hex n server ph)] /\
                user t1 = user t /\ secure t1 = secure t /\ st t1 = HANDSHAKE_REQUIRED) by (repeat split; assumption).
  destruct Ht1 as (L1 & L2 & L3 & L4).
  assert (Hfail : forall e, (t1, @Err unit e) = (t', out) ->
     log t' = log t ++ [PProof (user t) n (digest_password sha256_hex n server ph)] /\
     user t' = user t /\ secure t' = secure t /\ st t' = HANDSHAKE_REQUIRED /\ out <> Ok tt).
  { intros e He. injection He as <- <-. repeat split; try assumption. discriminate. }
  unfold mlift in H. destruct (response_error j) as [c|e] eqn:Ec.
  2: { destruct (Hfail _ H) as (? & ? & ? & ? & ?). repeat split; try assumption.
       assert (Hn : code_in j = None).
       { unfold response_error, jget in Ec. unfold Aes_Spec.code_in. destruct j; try reflexivity. cbn [bind] in Ec. now rewrite Ec. }
       rewrite Hn. split; assumption. }
  pose proof (response_error_code _ _ Ec) as Hcode.
  destruct (c =? INVALID_NONCE) eqn:En.
  { apply Z.eqb_eq in En. subst c. rewrite Hcode. destruct (Hfail _ H) as (? & ? & ? & ? & ?). repeat split; assumption. }
  destruct (handle_code_spec j t1) as (r & Hh & Hr & _). rewrite Hh, Hcode in H. rewrite Hcode in Hr |- *.
  destruct r as [u|e].
  2: { destruct c as [|p|p]; [destruct Hr as [_ Hr]; discriminate (Hr eq_refl)| |];
       (destruct (auth_code _); injection H as <- <-; repeat split; try assumption; discriminate). }
  destruct u. destruct Hr as [Hr _]. assert (c = 0) by (specialize (Hr eq_refl); congruence). subst c. cbn [Aes_Spec.auth_code] in H.
  change (auth_code 0) with false in H. cbv iota in H.
  destruct (jitem "result" j) as [res|] eqn:Er.
  2: { cbn [bind] in H. assert (Hf : field "result" j = None).
       { destruct (field "result" j) eqn:Ef; [|reflexivity]. apply jitem_field in Ef. congruence. }
       rewrite Hf. cbn [obind]. destruct (Hfail _ H) as (? & ? & ? & ? & ?). repeat split; assumption. }
  cbn [bind] in H. apply jitem_field in Er. rewrite Er. cbn [obind].
  destruct (jitem "start_seq" res) as [sq|] eqn:Es.
  2: { assert (Hf : field "start_seq" res = None).
       { destruct (field "start_seq" res) eqn:Ef; [|reflexivity]. apply jitem_field in Ef. congruence. }
       rewrite Hf. destruct (Hfail _ H) as (? & ? & ? & ? & ?). repeat split; assumption. }
  apply jitem_field in Es. rewrite Es.
  destruct sq as [| |z| | | |]; try (destruct (Hfail _ H) as (? & ? & ? & ? & ?); repeat split; assumption).
  destruct (jitem "stok" res) as [stok|] eqn:Ek.
  - apply jitem_field in Ek. rewrite Ek. injection H as <- <-. repeat split; assumption.
  - assert (Hf : field "stok" res = None).
    { destruct (field "stok" res) eqn:Ef; [|reflexivity]. apply jitem_field in Ef. congruence. }
    rewrite Hf. injection H as <- <-. repeat split; try assumption. discriminate.
Qed.

(** After handshake 1. *)
Definition after1 (w : world) (m : bytes) (k : known) (sec0 : bool) (t : cam) (out : res (option (string * string * string))) : Prop :=
  user_ok t /\
  match out with
  | Ok None => exists u, told w m k t (mkObs (KOpen u) false) /\ st t = ESTABLISHED /\ secure t = false /\ url t = Some u /\
      (pgrant (w_plain w) <> None \/ pgrant (w_plain2 w) <> None)
  | Ok (Some (n, server, ph)) => exists d, told w m k t (mkObs (KHello d n) false) /\ prov w d n server ph /\
      server = server_nonce w d /\ ph = confirmed_hash md5_hex sha256_hex cfg w d n /\
      st t = HANDSHAKE_REQUIRED /\ secure t = sec0
  | Err _ => exists o, told w m k t o /\ settle (o_k o) = KNone /\ st t = HANDSHAKE_REQUIRED /\ secure t = sec0
  end.

Notation tdef := (try_default md5_hex sha256_hex str_json cfg).
Notation hs1 := (handshake1 md5_hex sha256_hex str_json cfg).

Lemma try_default_spec w m k resp code t t' out o :
  (forall n t, exists e, snd (fin1 resp code n t) = Err e) ->
  tdef w resp code t = (t', out) ->
  st t = HANDSHAKE_REQUIRED -> user_ok t -> told w m k t o -> o_sent o = false ->
  (o_k o = KNone \/ exists n, o_k o = KHello false n) ->
  after1 w m k (secure t) t' out.
Proof.
  intros Hfin H Hst Hu Ht Hs Hk. unfold try_default, mbind in H.
  set (p := PHello true default_user (w_n2 w)) in *.
  assert (Hmay : may w m o p) by (split; [exact Hs|]; split; [exact Hk|]; split; reflexivity).
  assert (Ht1 : told w m k (add_log p t) (mkObs (KHello true (w_n2 w)) false)).
  { pose proof (told_snoc w m k t o p (add_log p t) Ht Hmay eq_refl) as G.
    change (opost w o p) with (mkObs (KHello true (w_n2 w)) (o_sent o)) in G. now rewrite Hs in G. }
  set (t1 := add_log p t) in *.
  assert (Herr : forall e, (t1, @Err (option (string * string * string)) e) = (t', out) -> after1 w m k (secure t) t' out).
  { intros e He. injection He as <- <-. split; [exact Hu|]. eexists. split; [exact Ht1|]. repeat split; assumption. }
  destruct (post_200 p (w_hello2 w) t) as [t1' [j|e]] eqn:E.
  2: { apply post_200_err in E. destruct E as [-> Hb]. exact (Herr _ H). }
  apply post_200_ok in E. destruct E as [-> Hb]. fold t1 in H. unfold mlift, mret in H.
  destruct (response_error j) as [c|e] eqn:Ec; [|exact (Herr _ H)].
  assert (Hok : forall ok, (if c =? INVALID_NONCE then (t1, has_nonce j) else (t1, Ok false)) = (t1, ok) -> True) by auto. clear Hok.
  destruct (c =? INVALID_NONCE) eqn:Ei.
  - destruct (has_nonce j) as [[]|e]; [| |exact (Herr _ H)].
    + (* default user accepted *)
      pose proof (finish1_state (Some j) (Some c) (w_n2 w) (set_user default_user t1)) as Hfs.
      destruct (fin1 _ _ _ _) as [t2 r] eqn:Ef. cbn [fst] in Hfs. subst t2. injection H as <- <-.
      split; [right; reflexivity|].
      assert (Ht2 : told w m k (set_user default_user t1) (mkObs (KHello true (w_n2 w)) false)) by (eapply told_log; [exact Ht1 | reflexivity]).
      destruct r as [r|e].
      * destruct (finish1_ok w true j c (w_n2 w) (set_user default_user t1) r Hb Ec) as (server & ph & -> & Hp & Hsv & Hph & _); [now rewrite Ef|].
        exists true. split; [exact Ht2|]. split; [exact Hp|]. auto.
      * eexists. split; [exact Ht2|]. repeat split; assumption.
    + destruct (is_less_secure j) as [[]|e] eqn:El; [| |exact (Herr _ H)].
      2: { pose proof (finish1_state resp code (w_n2 w) t1) as Hfs. destruct (Hfin (w_n2 w) t1) as [e He].
           destruct (fin1 resp code (w_n2 w) t1) as [t2 r]. cbn in Hfs, He. subst. exact (Herr _ H). }
      exfalso. apply less_secure_asks in El. destruct El as (et & Hc & _). rewrite (response_error_code _ _ Ec) in Hc.
      injection Hc as ->. discriminate Ei.
  - destruct (is_less_secure j) as [less|e] eqn:El; [|exact (Herr _ H)].
    assert (Hnot : forall t2, told w m k t2 (mkObs (KHello true (w_n2 w)) false) -> st t2 = HANDSHAKE_REQUIRED -> user_ok t2 ->
      secure t2 = secure t -> fin1 resp code (w_n2 w) t2 = (t', out) -> after1 w m k (secure t) t' out).
    { intros t2 G1 G2 G3 G4 G5. pose proof (finish1_state resp code (w_n2 w) t2) as Hfs. destruct (Hfin (w_n2 w) t2) as [e He].
      rewrite G5 in Hfs, He. cbn in Hfs, He. subst. split; [exact G3|]. eexists. split; [exact G1|]. repeat split; assumption. }
    destruct less.
    2: { apply (Hnot t1); assumption || reflexivity. }
    destruct (less_secure_login md5_hex str_json true default_user (pwd_to_hash cfg t1) (w_plain2 w) t1) as [t2 r] eqn:Eg.
    pose proof (less_login_spec _ _ _ _ _ _ _ Eg) as Hg. cbv zeta in Hg.
    set (pl := PPlainLogin true default_user (md5_hex (lit (pwd_to_hash cfg t1)))) in *.
    assert (Hmay2 : may w m (mkObs (KHello true (w_n2 w)) false) pl).
    { split; [reflexivity|]. split; [eexists; reflexivity|]. split.
      - destruct (less_secure_asks _ El) as (et & A1 & A2 & A3 & A4). exists j, et. auto.
      - destruct (pwd_cases t1) as [->| ->]; auto. }
    pose proof (told_snoc w m k t1 _ pl (add_log pl t1) Ht1 Hmay2 eq_refl) as Ht2.
    change (opost w (mkObs (KHello true (w_n2 w)) false) pl) with
      (mkObs (match pgrant (w_plain2 w) with Some u => KOpen u | None => KHello true (w_n2 w) end) false) in Ht2.
    destruct (pgrant (w_plain2 w)) as [tok|] eqn:Epg.
    + destruct Hg as [-> ->]. injection H as <- <-. split; [right; reflexivity|]. exists tok.
      split; [eapply told_log; [exact Ht2 | reflexivity]|]. repeat split. right. rewrite Epg. discriminate.
    + destruct Hg as [-> Hne].
      destruct r as [[]|e]; [now destruct Hne| |].
      * apply (Hnot (add_log pl t1)); assumption || reflexivity.
      * injection H as <- <-. split; [exact Hu|]. eexists. split; [exact Ht2|]. repeat split; assumption.
Qed.

Lemma handshake1_spec w m t t' out :
  hs1 w t = (t', out) -> st t = HANDSHAKE_REQUIRED -> user_ok t -> log t = [] ->
  after1 w m KNone (secure t) t' out.
Proof.
  intros H Hst Hu Hl.
  assert (Ht : told w m KNone t (mkObs KNone false)) by (split; rewrite Hl; [apply law_nil | reflexivity]).
  assert (Hdef : forall resp code, (forall n t, exists e, snd (fin1 resp code n t) = Err e) ->
     tdef w resp code t = (t', out) -> after1 w m KNone (secure t) t' out).
  { intros resp code Hfin Hd. eapply try_default_spec; eauto. }
  assert (Hfin0 : forall n t, exists e, snd (fin1 None None n t) = Err e).
  { intros n t0. unfold finish1. destruct (match user t0 with Some u => String.eqb u "" | None => true end); eexists; reflexivity. }
  unfold handshake1 in H. destruct (user t) as [u|] eqn:Eu; [|exact (Hdef _ _ Hfin0 H)].
  destruct (String.eqb u "") eqn:En; [exact (Hdef _ _ Hfin0 H)|]. clear Hfin0 Hdef.
  unfold mbind in H.
  set (p := PHello false u (w_n1 w)) in *.
  assert (Hmay : may w m (mkObs KNone false) p).
  { split; [reflexivity|]. split; [reflexivity|]. split; [reflexivity|].
    destruct Hu as [Hu|Hu]; rewrite Eu in Hu; [left; exact Hu | right; congruence]. }
  pose proof (told_snoc w m KNone t _ p (add_log p t) Ht Hmay eq_refl) as Ht1.
  change (opost w (mkObs KNone false) p) with (mkObs (KHello false (w_n1 w)) false) in Ht1.
  assert (Hu1 : user_ok (add_log p t)) by (unfold user_ok; cbn [user add_log]; rewrite Eu; rewrite <- Eu; exact Hu).
  set (t1 := add_log p t) in *.
  assert (Herr : forall e, (t1, @Err (option (string * string * string)) e) = (t', out) -> after1 w m KNone (secure t) t' out).
  { intros e He. injection He as <- <-. split; [exact Hu1|]. eexists. split; [exact Ht1|]. repeat split; assumption. }
  destruct (post_200 p (w_hello w) t) as [t1' [j|e]] eqn:E.
  2: { apply post_200_err in E. destruct E as [-> Hb]. exact (Herr _ H). }
  apply post_200_ok in E. destruct E as [-> Hb]. fold t1 in H. unfold mlift, mret in H.
  assert (Hdef : forall t2 resp code, told w m KNone t2 (mkObs (KHello false (w_n1 w)) false) ->
     st t2 = HANDSHAKE_REQUIRED -> user_ok t2 -> secure t2 = secure t ->
     (forall n t, exists e, snd (fin1 resp code n t) = Err e) ->
     tdef w resp code t2 = (t', out) -> after1 w m KNone (secure t) t' out).
  { intros t2 resp code G1 G2 G3 G4 Hfin Hd. rewrite <- G4. eapply try_default_spec; eauto. cbn [o_k]. eauto. }
  destruct (truthy j) eqn:Etr.
  2: { apply (Hdef t1 (Some j) None); auto. intros n t0. unfold finish1.
       destruct (match user t0 with Some u => String.eqb u "" | None => true end); eexists; reflexivity. }
  destruct (is_less_secure j) as [less|e] eqn:El; [|exact (Herr _ H)].
  (* the rest after the less secure login was not made or refused *)
  assert (Hrest : forall t2, told w m KNone t2 (mkObs (KHello false (w_n1 w)) false) ->
     st t2 = HANDSHAKE_REQUIRED -> user_ok t2 -> secure t2 = secure t ->
     match (match response_error j with
           | Ok a =>
               match (if negb (a =? INVALID_NONCE) then (t2, Ok true)
                      else match (t2, has_nonce j) with
                           | (w', Ok a0) => (w', Ok (negb a0))
                           | (w', Err e) => (w', Err e)
                           end) with
               | (w'0, Ok true) => tdef w (Some j) (Some a) w'0
               | (w'0, Ok false) => fin1 (Some j) (Some a) (w_n1 w) w'0
               | (w'0, Err e) => (w'0, Err e)
               end
           | Err e => (t2, Err e)
           end) with r => r end = (t', out) -> after1 w m KNone (secure t) t' out).
  { intros t2 G1 G2 G3 G4 G5.
    assert (Herr2 : forall e, (t2, @Err (option (string * string * string)) e) = (t', out) -> after1 w m KNone (secure t) t' out).
    { intros e He. injection He as <- <-. split; [exact G3|]. eexists. split; [exact G1|]. repeat split; assumption. }
    destruct (response_error j) as [c|e] eqn:Ec; [|exact (Herr2 _ G5)].
    destruct (c =? INVALID_NONCE) eqn:Ei; cbn [negb] in G5.
    - destruct (has_nonce j) as [h|e] eqn:Eh; [|exact (Herr2 _ G5)]. destruct h; cbn [negb] in G5.
      + pose proof (finish1_state (Some j) (Some c) (w_n1 w) t2) as Hfs.
        destruct (fin1 (Some j) (Some c) (w_n1 w) t2) as [t3 r] eqn:Ef. cbn [fst] in Hfs. subst t3. injection G5 as <- <-.
        split; [exact G3|]. destruct r as [r|e].
        * destruct (finish1_ok w false j c (w_n1 w) t2 r Hb Ec) as (server & ph & -> & Hp & Hsv & Hph & _); [now rewrite Ef|].
          exists false. split; [exact G1|]. split; [exact Hp|]. auto.
        * eexists. split; [exact G1|]. repeat split; assumption.
      + apply (Hdef t2 (Some j) (Some c)); auto. intros n t0. apply finish1_fails. auto.
    - apply (Hdef t2 (Some j) (Some c)); auto. intros n t0. apply finish1_fails. intro Hx. subst c. discriminate Ei. }
  destruct less.
  2: { apply (Hrest t1); auto. destruct (response_error j); [|exact H]. destruct (negb (a =? INVALID_NONCE)); [exact H|].
       destruct (has_nonce j) as [[]|]; exact H. }
  destruct (inner_error j) as [inner|e] eqn:Einn; [|exact (Herr _ H)].
  destruct (match inner with Some c => c =? BAD_USERNAME | None => false end).
  { apply (Hrest t1); auto. destruct (response_error j); [|exact H]. destruct (negb (a =? INVALID_NONCE)); [exact H|].
    destruct (has_nonce j) as [[]|]; exact H. }
  destruct (less_secure_login md5_hex str_json false u (pwd_to_hash cfg t1) (w_plain w) t1) as [t2 r] eqn:Eg.
  pose proof (less_login_spec _ _ _ _ _ _ _ Eg) as Hg. cbv zeta in Hg.
  set (pl := PPlainLogin false u (md5_hex (lit (pwd_to_hash cfg t1)))) in *.
  assert (Hmay2 : may w m (mkObs (KHello false (w_n1 w)) false) pl).
  { split; [reflexivity|]. split; [eexists; reflexivity|]. split.
    - destruct (less_secure_asks _ El) as (et & A1 & A2 & A3 & A4). exists j, et. auto.
    - destruct (pwd_cases t1) as [->| ->]; auto. }
  pose proof (told_snoc w m KNone t1 _ pl (add_log pl t1) Ht1 Hmay2 eq_refl) as Ht2.
  change (opost w (mkObs (KHello false (w_n1 w)) false) pl) with
    (mkObs (match pgrant (w_plain w) with Some u => KOpen u | None => KHello false (w_n1 w) end) false) in Ht2.
  destruct (pgrant (w_plain w)) as [tok|] eqn:Epg.
  - destruct Hg as [-> ->]. injection H as <- <-. split; [exact Hu1|]. exists tok.
    split; [eapply told_log; [exact Ht2 | reflexivity]|]. repeat split. left. rewrite Epg. discriminate.
  - destruct Hg as [-> Hne]. destruct r as [[]|e]; [now destruct Hne| |].
    + apply (Hrest (add_log pl t1)); auto. destruct (response_error j); [|exact H]. destruct (negb (a =? INVALID_NONCE)); [exact H|].
      destruct (has_nonce j) as [[]|]; exact H.
    + injection H as <- <-. split; [exact Hu1|]. eexists. split; [exact Ht2|]. repeat split; assumption.
Qed.

(** ** Invariant *)
Definition inv (kind : bool) (t : cam) (k : known) : Prop :=
  user_ok t /\ (kind = true -> secure t = true) /\
  match k with
  | KNone | KHello _ _ => st t = HANDSHAKE_REQUIRED
  | KSecure s q => kind = true /\ st t = ESTABLISHED /\ url t = Some (s_url s) /\ seq t = Some q /\
      sess t = Some (s_keys s) /\ pwdh t = Some (s_pwd s) /\ nonce t = Some (s_nonce s) /\
      length (snd (s_keys s)) = block
  | KOpen u => st t = ESTABLISHED /\ secure t = false /\ url t = Some u
  end.
Definition kind_ok (kind : bool) (w : world) : Prop :=
  if kind then pgrant (w_plain w) = None /\ pgrant (w_plain2 w) = None else sgrant (w_proof w) = None.
Definition mid (kind : bool) (w : world) (m : bytes) (k : known) (t : cam) : Prop :=
  exists o, told w m k t o /\ inv kind t (settle (o_k o)).

Notation hsh := (handshake md5_hex sha256_hex sha256 str_json cfg).
Lemma handshake_spec kind w m t t' out : kind_ok kind w ->
  inv kind t KNone -> log t = [] -> hsh w t = (t', out) ->
  match out with
  | Ok _ => exists k', told w m KNone t' (mkObs k' false) /\ inv kind t' k' /\ settle k' = k' /\ k' <> KNone
  | Err _ => mid kind w m KNone t'
  end.
Proof.
  intros Hkind (Hu & Hsec & Hst) Hl H. unfold handshake, mbind in H.
  destruct (hs1 w t) as [t1 [r|e]] eqn:E1.
  2: { injection H as <- <-. destruct (handshake1_spec w m t t1 _ E1 Hst Hu Hl) as (Hu1 & o & Ho & Hk & Hs1 & Hc).
       exists o. split; [exact Ho|]. rewrite Hk. split; [exact Hu1|]. split; [rewrite Hc; exact Hsec | exact Hs1]. }
  pose proof (handshake1_spec w m t t1 _ E1 Hst Hu Hl) as (Hu1 & H1).
  destruct r as [[[n server] ph]|].
  - destruct H1 as (d & Ht1 & Hp & Hsv & Hph & Hs1 & Hc).
    destruct (handshake2_spec _ _ _ _ _ _ _ H Hs1) as (Hlog & Hus & Hse & Hg).
    set (p := PProof (user t1) n (digest_password sha256_hex n server ph)) in *.
    assert (Hmay : may w m (mkObs (KHello d n) false) p).
    { split; [reflexivity|]. exists d, server, ph. split; [reflexivity|]. split; [exact Hp | reflexivity]. }
    pose proof (told_snoc w m KNone t1 _ p t' Ht1 Hmay Hlog) as Ht2.
    change (opost w (mkObs (KHello d n) false) p) with
      (mkObs (match sgrant (w_proof w) with
              | Some (z, stok) => KSecure (mkSes (keys sha256_hex sha256 n (server_nonce w d) (confirmed_hash md5_hex sha256_hex cfg w d n)) stok n
                                             (confirmed_hash md5_hex sha256_hex cfg w d n)) z
              | None => KNone end) false) in Ht2.
    rewrite <- Hsv, <- Hph in Ht2.
    assert (Hu2 : user_ok t') by (unfold user_ok; rewrite Hus; exact Hu1).
    assert (Hse2 : kind = true -> secure t' = true) by (rewrite Hse, Hc; exact Hsec).
    destruct (sgrant (w_proof w)) as [[z stok]|] eqn:Eg.
    + destruct Hg as (-> & Hst2 & Hurl & Hseq & Hsess & Hpw & Hno).
      eexists. split; [exact Ht2|]. split; [|split; [reflexivity | discriminate]].
      assert (kind = true) by (destruct kind; [reflexivity | cbn [kind_ok] in Hkind; congruence]).
      repeat split; try assumption; auto.
      cbn [s_keys keys snd]. unfold key_part. rewrite firstn_length, sha_length. reflexivity.
    + destruct Hg as [Hst2 Hne]. destruct out as [[]|e]; [now destruct Hne|].
      eexists. split; [exact Ht2|]. repeat split; assumption.
  - injection H as <- <-. destruct H1 as (u & Ht1 & Hs1 & Hsf & Hurl & Hpl).
    assert (kind = false).
    { destruct kind; [|reflexivity]. destruct Hkind. destruct Hpl; contradiction. }
    subst kind. exists (KOpen u). split; [exact Ht1|]. split; [|split; [reflexivity | discriminate]].
    split; [exact Hu1|]. split; [discriminate|]. auto.
Qed.

Lemma code_match {A} (o : option Z) (x y : A) (f : Z -> A) :
  match o with Some 0 => x | Some c => f c | None => y end =
  match o with Some c => if c =? 0 then x else f c | None => y end.
Proof. destruct o as [[| |]|]; reflexivity. Qed.

Notation ans := (answer dec_block json_loads).
Lemma read_answer_spec s j v : ans s j = Some v -> code_in j = Some 0 -> read_answer dec_block json_loads s j = Ok v.
Proof.
  unfold answer, read_answer, Aes_Spec.code_in, Aes_Spec.field. destruct j as [| | | | | |d]; try discriminate.
  intros H _. destruct (dget "result" d) as [r|]; [|congruence].
  destruct r as [| | | | | |rd]; try discriminate. cbn [jcontains bind].
  unfold dmem. unfold jitem, dindex. destruct (dget "response" rd) as [raw|]; [|congruence]. cbn [bind].
  destruct raw as [| | | |raw| |]; try discriminate.
  destruct (Aes_Model.aes_decrypt dec_block s (lit raw)) as [text|]; [destruct (json_loads text); [congruence|]|];
    destruct (json_loads (lit raw)); congruence.
Qed.

Notation ssend := (send_secure enc_block dec_block json_loads sha256_hex str_int wrap).
Lemma send_secure_spec kind w m k t t' out s q :
  told w m k t (mkObs (KSecure s q) false) -> inv kind t (KSecure s q) -> ssend w m t = (t', out) ->
  mid kind w m k t' /\ secure_outcome dec_block json_loads (s_keys s) (w_req w) out /\
  exists payload tag, log t' = log t ++ [PSecure (Some (s_url s)) payload q tag].
Proof.
  intros Ht (Hu & Hsec & Hkd & Hst & Hurl & Hseq & Hsess & Hpw & Hno & Hlen) H.
  unfold send_secure in H. cbv zeta in H. rewrite Hsess, Hst, Hurl, Hseq, Hpw, Hno in H.
  destruct (Aes_Proofs.round_trip_lemma enc_block dec_block enc_length dec_enc (s_keys s) m Hlen) as (payload & He & Hd).
  rewrite He in H.
  set (p := PSecure (Some (s_url s)) payload q (tag_of sha256_hex str_int (wrap payload) (s_nonce s) (s_pwd s) q)) in *.
  set (t1 := mkCam ESTABLISHED (secure t) (user t) (Some (s_url s)) (Some (q + 1)) (Some (s_keys s)) (Some (s_pwd s)) (Some (s_nonce s)) (log t ++ [p])) in *.
  assert (Hmay : may w m (mkObs (KSecure s q) false) p).
  { split; [reflexivity|]. exists s. repeat split. exact Hd. }
  pose proof (told_snoc w m k t _ p t1 Ht Hmay eq_refl) as Ht1.
  change (opost w (mkObs (KSecure s q) false) p) with (mkObs (if refused (w_req w) then KNone else KSecure s (q + 1)) true) in Ht1.
  assert (Hlive : refused (w_req w) = false -> mid kind w m k t1).
  { intro Hr. rewrite Hr in Ht1. eexists. split; [exact Ht1|]. repeat split; assumption. }
  unfold secure_outcome, outcome.
  assert (Hlog : forall t2, log t2 = log t1 -> exists payload tag, log t2 = log t ++ [PSecure (Some (s_url s)) payload q tag]).
  { intros t2 ->. eexists. eexists. reflexivity. }
  unfold refused, body in *. destruct (w_req w) as [[status j]|e].
  2: { injection H as <- <-. split; [apply Hlive; reflexivity|]. split; [reflexivity | apply Hlog; reflexivity]. }
  destruct (status =? 500) eqn:E5.
  { apply Z.eqb_eq in E5. subst status. cbn [Z.eqb Pos.eqb] in *. injection H as <- <-.
    split; [apply Hlive; reflexivity|]. split; [|apply Hlog; reflexivity].
    destruct j as [| | | | | |d]; try (eexists; reflexivity). cbn [jget_dict bind].
    destruct (match dget "result" d with Some x => x | None => JObj [] end); try (eexists; reflexivity).  }
  destruct (status =? 200); cbn [negb] in *.
  2: { injection H as <- <-. split; [apply Hlive; reflexivity|]. split; [eexists; reflexivity | apply Hlog; reflexivity]. }
  rewrite code_match. unfold mbind in H. destruct (handle_code_spec j t1) as (r & Hh & Hr & Ha). rewrite Hh in H. clear Hh.
  destruct (code_in j) as [c|] eqn:Ec.
  2: { destruct r as [u|e]; [destruct u; destruct Hr as [Hr _]; discriminate (Hr eq_refl)|].
       injection H as <- <-. split; [apply Hlive; reflexivity|]. split; [eexists; reflexivity | apply Hlog; reflexivity]. }
  destruct (auth_code c) eqn:Eau.
  - rewrite (Ha c eq_refl Eau) in H. injection H as <- <-. split; [|split; [|apply Hlog; reflexivity]].
    + eexists. split; [eapply told_log; [exact Ht1 | reflexivity]|]. repeat split; assumption.
    + destruct (c =? 0) eqn:E0; [apply Z.eqb_eq in E0; subst c; discriminate Eau | reflexivity].
  - destruct r as [u|e].
    + destruct u. unfold mlift in H. injection H as <- <-.
      assert (c = 0) by (destruct Hr as [Hr _]; specialize (Hr eq_refl); congruence). subst c.
      split; [apply Hlive; reflexivity|]. split; [|apply Hlog; reflexivity]. cbn [Z.eqb].
      destruct (ans (s_keys s) j) eqn:Ean; [|exact I]. apply read_answer_spec; assumption.
    + injection H as <- <-. split; [apply Hlive; reflexivity|]. split; [|apply Hlog; reflexivity].
      destruct (c =? 0) eqn:E0; [|eexists; reflexivity]. apply Z.eqb_eq in E0. subst c.
      destruct Hr as [_ Hr]. discriminate (Hr eq_refl).
Qed.

Lemma send_open_spec kind w m k t t' out u :
  told w m k t (mkObs (KOpen u) false) -> inv kind t (KOpen u) -> send_open w m t = (t', out) ->
  mid kind w m k t' /\ open_outcome (w_req w) out /\ log t' = log t ++ [POpen (Some u) m].
Proof.
  intros Ht (Hu & Hsec & Hst & Hsf & Hurl) H. unfold send_open, mbind in H. rewrite Hurl in H.
  set (p := POpen (Some u) m) in *.
  assert (Hmay : may w m (mkObs (KOpen u) false) p).
  { split; [reflexivity|]. split; [reflexivity|]. exists u. split; reflexivity. }
  pose proof (told_snoc w m k t _ p (add_log p t) Ht Hmay eq_refl) as Ht1.
  change (opost w (mkObs (KOpen u) false) p) with (mkObs (if refused (w_req w) then KNone else KOpen u) true) in Ht1.
  assert (Hlive : refused (w_req w) = false -> mid kind w m k (add_log p t)).
  { intro Hr. rewrite Hr in Ht1. eexists. split; [exact Ht1|]. repeat split; assumption. }
  rewrite post_200_spec in H. unfold open_outcome, outcome. unfold refused, body in *.
  destruct (w_req w) as [[status j]|e].
  2: { injection H as <- <-. split; [apply Hlive; reflexivity|]. split; reflexivity. }
  destruct (status =? 200).
  2: { injection H as <- <-. split; [apply Hlive; reflexivity|]. split; [eexists|]; reflexivity. }
  rewrite code_match. destruct (handle_code_spec j (add_log p t)) as (r & Hh & Hr & Ha). rewrite Hh in H. clear Hh.
  destruct (code_in j) as [c|] eqn:Ec.
  2: { destruct r as [v|e]; [destruct v; destruct Hr as [Hr _]; discriminate (Hr eq_refl)|].
       injection H as <- <-. split; [apply Hlive; reflexivity|]. split; [eexists|]; reflexivity. }
  destruct (auth_code c) eqn:Eau.
  - rewrite (Ha c eq_refl Eau) in H. injection H as <- <-. split; [|split; [|reflexivity]].
    + eexists. split; [eapply told_log; [exact Ht1 | reflexivity]|]. repeat split; assumption.
    + destruct (c =? 0) eqn:E0; [apply Z.eqb_eq in E0; subst c; discriminate Eau | reflexivity].
  - destruct r as [v|e].
    + destruct v. unfold mret in H. injection H as <- <-.
      assert (c = 0) by (destruct Hr as [Hr _]; specialize (Hr eq_refl); congruence). subst c.
      split; [apply Hlive; reflexivity|]. split; reflexivity.
    + injection H as <- <-. split; [apply Hlive; reflexivity|]. split; [|reflexivity].
      destruct (c =? 0) eqn:E0; [|eexists; reflexivity]. apply Z.eqb_eq in E0. subst c.
      destruct Hr as [_ Hr]. discriminate (Hr eq_refl).
Qed.

Notation csend := (send enc_block dec_block json_loads md5_hex sha256_hex sha256 str_int str_json wrap cfg).
Lemma send_tail kind w m k t t' out k' :
  told w m k t (mkObs k' false) -> inv kind t k' -> settle k' = k' -> k' <> KNone ->
  (if secure t then ssend w m t else send_open w m t) = (t', out) -> mid kind w m k t'.
Proof.
  intros Ht Hi Hs Hn H. destruct k' as [|d n|s q|u]; try contradiction; try discriminate.
  - assert (Hsec : secure t = true) by (destruct Hi as (_ & Hx & Hk & _); auto). rewrite Hsec in H.
    eapply send_secure_spec; eassumption.
  - assert (Hsec : secure t = false) by (destruct Hi as (_ & _ & _ & Hk & _); auto). rewrite Hsec in H.
    eapply send_open_spec; eassumption.
Qed.

Lemma send_mid kind w m k t t' out : kind_ok kind w -> inv kind t k -> settle k = k -> log t = [] ->
  csend w m t = (t', out) -> mid kind w m k t'.
Proof.
  intros Hk Hi Hs Hl H. unfold send, mbind in H.
  assert (Hc : k = KNone \/ k <> KNone) by (destruct k; (left; reflexivity) || (right; discriminate)).
  destruct Hc as [->|Hn].
  - assert (Hst : st t = HANDSHAKE_REQUIRED) by apply Hi. rewrite Hst in H.
    destruct (hsh w t) as [t1 [u|e]] eqn:E; pose proof (handshake_spec kind w m t t1 _ Hk Hi Hl E) as Hh.
    + destruct Hh as (k' & Ht1 & Hi1 & Hs1 & Hn1). eapply send_tail; eassumption.
    + injection H as <- <-. exact Hh.
  - assert (Hst : st t = ESTABLISHED) by (destruct k; try contradiction; try discriminate; apply Hi). rewrite Hst in H.
    eapply send_tail; try eassumption. split; rewrite Hl; [apply law_nil | reflexivity].
Qed.

(** ** Histories *)
Notation crun := (run enc_block dec_block json_loads md5_hex sha256_hex sha256 str_int str_json wrap cfg).
Notation cstep := (step enc_block dec_block json_loads md5_hex sha256_hex sha256 str_int str_json wrap cfg).
Notation kstep := (known_step md5_hex sha256_hex sha256 str_json cfg).
Notation known_ := (known_after md5_hex sha256_hex sha256 str_json cfg).

Definition ev_ok (kind : bool) (e : event) : Prop := if kind then only_secure str_json e else only_plain str_json e.

Lemma settle_idem k : settle (settle k) = settle k.
Proof. destruct k; reflexivity. Qed.
Lemma inv_log kind t l k : inv kind t k ->
  inv kind (mkCam (st t) (secure t) (user t) (url t) (seq t) (sess t) (pwdh t) (nonce t) l) k.
Proof. destruct k; intro H; exact H. Qed.

Lemma step_inv kind t e t' p r k : ev_ok kind e -> inv kind t k -> settle k = k -> log t = [] -> cstep t e = (t', p, r) ->
  inv kind t' (kstep k (e, p)) /\ log t' = [] /\ settle (kstep k (e, p)) = kstep k (e, p) /\
  match e with ESend w m => law w m k p | EReset => p = [] end.
Proof.
  intros Hk Hi Hs Hl H. destruct e as [w m|]; cbn [step] in H.
  - destruct (csend w m t) as [t1 out] eqn:E. injection H as <- <- <-.
    assert (Hkw : kind_ok kind w) by (destruct kind; exact Hk).
    destruct (send_mid kind w m k t t1 out Hkw Hi Hs Hl E) as (o & [HL HO] & Hi1).
    cbn [known_step]. rewrite HO. split; [apply inv_log, Hi1|]. split; [reflexivity|]. split; [apply settle_idem | exact HL].
  - injection H as <- <- <-. cbn [known_step]. destruct Hi as (Hu & Hsec & _).
    split; [repeat split; assumption|]. split; [exact Hl|]. split; reflexivity.
Qed.

Lemma run_inv kind : forall es t t' outs k, Forall (ev_ok kind) es -> inv kind t k -> settle k = k -> log t = [] ->
  crun t es = (t', outs) ->
  let k' := fold_left kstep (combine es (map fst outs)) k in
  inv kind t' k' /\ settle k' = k' /\ log t' = [].
Proof.
  induction es as [|e es IH]; intros t t' outs k Hk Hi Hs Hl H; cbn [run] in H.
  - injection H as <- <-. cbn. auto.
  - inversion Hk; subst. destruct (cstep t e) as [[t1 p] r] eqn:E. destruct (crun t1 es) as [t2 out] eqn:E2.
    injection H as <- <-. destruct (step_inv kind t e t1 p r k) as (Hi1 & Hl1 & Hs1 & _); try assumption.
    cbn [map fst combine fold_left]. eapply IH; eassumption.
Qed.

Lemma init_inv kind : inv kind (init cfg) KNone.
Proof.
  split; [left|split; [reflexivity | reflexivity]]. unfold init, user0, own_creds, user_name. cbn [user].
  destruct (c_creds cfg) as [[a b]|]; [destruct (String.eqb a "" && String.eqb b "")|]; reflexivity.
Qed.

Lemma reach_inv kind es t outs : Forall (ev_ok kind) es -> crun (init cfg) es = (t, outs) ->
  let k := known_ (combine es (map fst outs)) in inv kind t k /\ settle k = k /\ log t = [].
Proof. intros Hk Hr. apply (run_inv kind es (init cfg) t outs KNone Hk); auto using init_inv. Qed.

Lemma history_lemma kind es t outs w m t' p r :
  Forall (ev_ok kind) (es ++ [ESend w m]) ->
  crun (init cfg) es = (t, outs) -> cstep t (ESend w m) = (t', p, r) ->
  law w m (known_ (combine es (map fst outs))) p.
Proof.
  intros Hk Hr Hs. apply Forall_app in Hk. destruct Hk as [Hk1 Hk2]. inversion Hk2; subst.
  destruct (reach_inv kind es t outs Hk1 Hr) as (Hi & Hse & Hl).
  apply (step_inv kind t (ESend w m) t' p r _ H1 Hi Hse Hl Hs).
Qed.
End Cam.
